(** Proofs about the format registry. *)
From Coq Require Import Permutation Sorted.
From Verif Require Import Base Fmt_Model SortLib Reg_Model.

Definition numbered_from (k : nat) (l : list Format) : list (Format * N) := combine l (map N.of_nat (seq k (length l))).
Definition numbered := numbered_from 0.
(** The HashMap holds exactly the formats of l, each with its position. *)
Definition dense (m : hmap) (l : list Format) : Prop := NoDup l /\ Permutation m (numbered l).

Lemma numbered_cons k f l : numbered_from k (f :: l) = (f, N.of_nat k) :: numbered_from (S k) l.
Proof. reflexivity. Qed.
Lemma numbered_snoc l : forall k f, numbered_from k (l ++ [f]) = numbered_from k l ++ [(f, N.of_nat (k + length l))].
Proof.
  induction l as [|g l IH]; intros k f.
  - cbn. now rewrite Nat.add_0_r.
  - cbn [app]. rewrite !numbered_cons, IH. cbn [length app]. do 2 f_equal. now replace (S k + length l)%nat with (k + S (length l))%nat by lia.
Qed.
Lemma numbered_in l : forall k f i, In (f, i) (numbered_from k l) <-> (N.of_nat k <= i /\ nth_error l (N.to_nat i - k) = Some f).
Proof.
  induction l as [|g l IH]; intros k f i.
  - cbn. split; [tauto|]. intros [_ H]. destruct (N.to_nat i - k)%nat; discriminate.
  - rewrite numbered_cons. cbn [In]. rewrite IH. split.
    + intros [[= -> <-]|[H1 H2]].
      * split; [lia|]. now replace (N.to_nat (N.of_nat k) - k)%nat with 0%nat by lia.
      * split; [lia|]. replace (N.to_nat i - k)%nat with (S (N.to_nat i - S k)) by lia. exact H2.
    + intros [H1 H2]. destruct (N.to_nat i - k)%nat eqn:E.
      * left. cbn in H2. injection H2 as ->. f_equal. lia.
      * right. split; [lia|]. cbn in H2. now replace (N.to_nat i - S k)%nat with n by lia.
Qed.
Lemma numbered_fst l : forall k, map fst (numbered_from k l) = l.
Proof. induction l as [|f l IH]; intros k; [reflexivity|]. rewrite numbered_cons. cbn. now rewrite IH. Qed.
Lemma numbered_sorted l : forall k, StronglySorted (key_lt (@snd Format N)) (numbered_from k l).
Proof.
  induction l as [|f l IH]; intros k; [constructor|]. rewrite numbered_cons. constructor; [apply IH|].
  apply Forall_forall. intros [g i] H. apply numbered_in in H as [H _]. unfold key_lt. cbn. lia.
Qed.
Lemma numbered_length l k : length (numbered_from k l) = length l.
Proof. rewrite <- (numbered_fst l k) at 2. now rewrite map_length. Qed.

Lemma hm_get_in m f i : NoDup (map fst m) -> (hm_get m f = Some i <-> In (f, i) m).
Proof.
  induction m as [|[g j] m IH]; cbn [hm_get In map fst]; intros N; [split; [discriminate|tauto]|].
  apply NoDup_cons_iff in N as [N1 N2]. destruct (format_eqb_spec g f) as [->|Hne].
  - split; [intros [= ->]; now left|]. intros [[= ->]|H]; [reflexivity|]. exfalso. apply N1. apply in_map_iff. exists (f, i). auto.
  - rewrite IH by assumption. split; [auto|]. intros [[= -> _]|H]; [contradiction|assumption].
Qed.
Lemma hm_get_none m f : hm_get m f = None <-> ~ In f (map fst m).
Proof.
  induction m as [|[g j] m IH]; cbn [hm_get In map fst]; [tauto|].
  destruct (format_eqb_spec g f) as [->|Hne]; [split; [discriminate|tauto]|]. rewrite IH. tauto.
Qed.
Lemma hm_insert_fresh m f i : hm_get m f = None -> hm_insert m f i = m ++ [(f, i)].
Proof.
  induction m as [|[g j] m IH]; cbn [hm_get hm_insert app]; [reflexivity|].
  destruct (format_eqb g f); [discriminate|]. intros H. now rewrite IH.
Qed.

Lemma dense_keys m l : dense m l -> Permutation (map fst m) l.
Proof. intros [_ P]. apply (Permutation_map fst) in P. unfold numbered in P. now rewrite numbered_fst in P. Qed.
Lemma dense_get m l f i : dense m l -> (hm_get m f = Some i <-> nth_error l (N.to_nat i) = Some f).
Proof.
  intros D. pose proof (dense_keys _ _ D) as K. destruct D as [N P].
  rewrite hm_get_in by (apply (Permutation_NoDup (Permutation_sym K)); assumption).
  split; intros H.
  - apply (Permutation_in _ P), numbered_in in H as [_ H]. now rewrite Nat.sub_0_r in H.
  - apply (Permutation_in _ (Permutation_sym P)), numbered_in. split; [lia|]. now rewrite Nat.sub_0_r.
Qed.
Lemma dense_none m l f : dense m l -> (hm_get m f = None <-> ~ In f l).
Proof. intros D. rewrite hm_get_none. pose proof (dense_keys _ _ D) as K. split; intros H A; apply H; [apply (Permutation_in _ (Permutation_sym K))|apply (Permutation_in _ K)]; assumption. Qed.
Lemma dense_length m l : dense m l -> hm_len m = N.of_nat (length l).
Proof. intros [_ P]. unfold hm_len. rewrite (Permutation_length P). unfold numbered. now rewrite numbered_length. Qed.
Lemma dense_new : dense hm_new [format_default].
Proof. split; [constructor; [tauto|constructor]|reflexivity]. Qed.

(** The write section on a format that is not registered appends it. *)
Lemma dense_write m l f : dense m l -> ~ In f l ->
  dense (fst (write_section m f)) (l ++ [f]) /\ snd (write_section m f) = N.of_nat (length l).
Proof.
  intros D H. pose proof (dense_none _ _ f D) as G. pose proof (dense_length _ _ D) as L.
  unfold write_section. cbn [fst snd]. rewrite hm_insert_fresh by tauto. destruct D as [N P]. split; [split|].
  - clear - N H. induction l as [|g l IH]; cbn; [constructor; [tauto|constructor]|].
    apply NoDup_cons_iff in N as [A B]. constructor; [|apply IH; cbn in H; tauto].
    rewrite in_app_iff. cbn in *. intros [X|[X|[]]]; [tauto|]. subst. tauto.
  - unfold numbered. rewrite numbered_snoc. rewrite L. cbn [Nat.add]. apply Permutation_app; [exact P|reflexivity].
  - exact L.
Qed.

(** A registration without interference, in terms of the list model. *)
Lemma fmt_find_nth f l : forall i, fmt_find f l = Some i -> nth_error l (N.to_nat i) = Some f.
Proof.
  induction l as [|g l IH]; cbn [fmt_find]; intros i H; [discriminate|].
  destruct (format_eqb_spec g f) as [->|_]; [injection H as <-; reflexivity|].
  destruct (fmt_find f l) as [j|]; cbn in H; [|discriminate]. injection H as <-. rewrite N2Nat.inj_succ. cbn. now apply IH.
Qed.
Lemma fmt_find_none f l : fmt_find f l = None <-> ~ In f l.
Proof.
  induction l as [|g l IH]; cbn [fmt_find In]; [tauto|].
  destruct (format_eqb_spec g f) as [->|Hne]; [split; [discriminate|tauto]|].
  destruct (fmt_find f l) as [j|]; cbn; split; try discriminate; try tauto.
  intros H. exfalso. destruct IH as [_ IH]. assert (~ In f l) by tauto. specialize (IH H0). discriminate.
Qed.
Lemma dense_register m l f : dense m l ->
  dense (fst (hm_register m f)) (fst (format_xf_index l f)) /\ snd (hm_register m f) = snd (format_xf_index l f).
Proof.
  intros D. unfold hm_register, read_section, format_xf_index.
  destruct (fmt_find f l) as [i|] eqn:E.
  - rewrite (proj2 (dense_get _ _ _ _ D) (fmt_find_nth _ _ _ E)). cbn. split; [exact D|reflexivity].
  - apply fmt_find_none in E. rewrite (proj2 (dense_none _ _ f D) E). cbn [fst snd]. now apply dense_write.
Qed.
Lemma reg_index l f : nth_error (fst (format_xf_index l f)) (N.to_nat (snd (format_xf_index l f))) = Some f.
Proof.
  unfold format_xf_index. destruct (fmt_find f l) eqn:E; cbn [fst snd]; [now apply fmt_find_nth|].
  rewrite Nat2N.id, nth_error_app2, Nat.sub_diag by lia. reflexivity.
Qed.
Lemma reg_ext l f : exists r, fst (format_xf_index l f) = l ++ r.
Proof. unfold format_xf_index. destruct (fmt_find f l); cbn; [exists []; now rewrite app_nil_r|eauto]. Qed.
Lemma nth_ext_app {A} (l r : list A) n x : nth_error l n = Some x -> nth_error (l ++ r) n = Some x.
Proof. intros H. rewrite nth_error_app1; [exact H|]. apply nth_error_Some. congruence. Qed.

Lemma register_list_dense fs : forall m l, dense m l -> exists r,
  dense (fst (register_list m fs)) (l ++ r) /\
  Forall2 (fun f i => nth_error (l ++ r) (N.to_nat i) = Some f) fs (snd (register_list m fs)).
Proof.
  induction fs as [|f fs IH]; intros m l D; cbn [register_list].
  - exists []. rewrite app_nil_r. split; [exact D|constructor].
  - destruct (hm_register m f) as [m1 i] eqn:E1. destruct (register_list m1 fs) as [m2 is] eqn:E2. cbn [fst snd].
    destruct (dense_register m l f D) as [D1 I1]. rewrite E1 in D1, I1. cbn [fst snd] in D1, I1.
    destruct (reg_ext l f) as [r1 R1]. pose proof (reg_index l f) as X. rewrite <- I1, R1 in X. rewrite R1 in D1.
    destruct (IH m1 (l ++ r1) D1) as (r2 & D2 & F2). rewrite E2 in D2, F2. cbn [fst snd] in D2, F2.
    exists (r1 ++ r2). rewrite app_assoc. split; [exact D2|]. constructor; [now apply nth_ext_app|exact F2].
Qed.
Lemma Forall2_mono {A B} (P Q : A -> B -> Prop) l m : (forall a b, P a b -> Q a b) -> Forall2 P l m -> Forall2 Q l m.
Proof. intros H F. induction F; constructor; auto. Qed.
Lemma register_sheets_dense ss : forall m l, dense m l -> exists r,
  dense (fst (register_sheets m ss)) (l ++ r) /\
  Forall2 (Forall2 (fun f i => nth_error (l ++ r) (N.to_nat i) = Some f)) ss (snd (register_sheets m ss)).
Proof.
  induction ss as [|s ss IH]; intros m l D; cbn [register_sheets].
  - exists []. rewrite app_nil_r. split; [exact D|constructor].
  - destruct (register_list m s) as [m1 is] eqn:E1. destruct (register_sheets m1 ss) as [m2 iss] eqn:E2. cbn [fst snd].
    destruct (register_list_dense s m l D) as (r1 & D1 & F1). rewrite E1 in D1, F1. cbn [fst snd] in D1, F1.
    destruct (IH m1 (l ++ r1) D1) as (r2 & D2 & F2). rewrite E2 in D2, F2. cbn [fst snd] in D2, F2.
    exists (r1 ++ r2). rewrite app_assoc. split; [exact D2|]. constructor; [|exact F2].
    eapply Forall2_mono; [|exact F1]. intros a b. apply nth_ext_app.
Qed.
(** The formats written to styles.xml are the list, whatever the iteration order. *)
Lemma dense_written m l iter : dense m l -> Permutation iter m -> xf_formats_of iter = l.
Proof.
  intros [_ P] Q. unfold xf_formats_of.
  rewrite (sort_by_canonical snd iter (numbered l)); [apply numbered_fst|apply numbered_sorted|now rewrite Q].
Qed.
Lemma dense_save m l h ss iter : dense m l -> Permutation iter (fst (save_registry m h ss)) -> exists r,
  xf_formats_of iter = l ++ r /\ NoDup (l ++ r) /\
  Forall2 (Forall2 (fun f i => nth_error (l ++ r) (N.to_nat i) = Some f)) ss (snd (save_registry m h ss)).
Proof.
  intros D P. unfold save_registry in *.
  assert (exists r, dense (register_hyperlink m h) (l ++ r)) as [r1 D1].
  { unfold register_hyperlink. destruct h; [|exists []; now rewrite app_nil_r].
    destruct (dense_register m l format_hyperlink D) as [D1 _]. destruct (reg_ext l format_hyperlink) as [r R]. rewrite R in D1. eauto. }
  destruct (register_sheets_dense ss _ _ D1) as (r2 & D2 & F2).
  exists (r1 ++ r2). rewrite app_assoc. split; [|split].
  - eapply dense_written; eauto.
  - apply D2.
  - exact F2.
Qed.

(** ** Schedules *)
Lemma set_nth_nth {A} l : forall k (x : A) j y, nth_error (set_nth k x l) j = Some y ->
  (j = k /\ y = x) \/ (j <> k /\ nth_error l j = Some y).
Proof.
  induction l as [|z l IH]; intros [|k] x [|j] y H; cbn in *; try discriminate.
  - left. split; congruence.
  - right. split; [lia|exact H].
  - right. split; [lia|exact H].
  - apply IH in H as [[-> ->]|[H1 H2]]; [left; auto|right; split; [lia|assumption]].
Qed.

(** Two threads never stand between look-up and insertion of the same format. *)
Definition clash_free (w : world) : Prop := forall i j t u f, i <> j ->
  nth_error (threads w) i = Some t -> nth_error (threads w) j = Some u -> missed t = Some f -> missed u = Some f -> False.
Fixpoint never_clashes (w : world) (sched : list nat) : Prop :=
  clash_free w /\ match sched with [] => True | k :: r => never_clashes (world_step w k) r end.

Definition winv (w : world) (l : list Format) : Prop :=
  dense (registry w) l /\
  (forall i t, nth_error (threads w) i = Some t ->
     (forall f n, In (f, n) (got t) -> nth_error l (N.to_nat n) = Some f) /\ (forall f, missed t = Some f -> ~ In f l)).

Lemma world_step_inv w l k : winv w l -> clash_free w -> exists r, winv (world_step w k) (l ++ r).
Proof.
  intros [D T] C. unfold world_step. destruct (nth_error (threads w) k) as [t|] eqn:Ek; [|exists []; rewrite app_nil_r; now split].
  destruct (T k t Ek) as [Tg Tm]. unfold thread_step. destruct (missed t) as [f|] eqn:Em.
  - destruct (dense_write (registry w) l f D (Tm f eq_refl)) as [D1 I1]. destruct (write_section (registry w) f) as [m' i]. cbn [fst snd] in D1, I1.
    exists [f]. split; [exact D1|]. cbn [threads]. intros j u Hj. apply set_nth_nth in Hj as [[-> ->]|[Hjk Hj]]; cbn [got missed].
    + split; [|discriminate]. intros g n Hin. apply in_app_iff in Hin as [Hin|[[= <- <-]|[]]].
      * apply nth_ext_app. now apply Tg.
      * rewrite I1, Nat2N.id, nth_error_app2, Nat.sub_diag by lia. reflexivity.
    + destruct (T j u Hj) as [Ug Um]. split; [intros g n Hin; apply nth_ext_app; auto|].
      intros g Hg Hin. apply in_app_iff in Hin as [Hin|[<-|[]]]; [exact (Um g Hg Hin)|].
      exact (C j k u t f Hjk Hj Ek Hg Em).
  - exists []. rewrite app_nil_r. destruct (todo t) as [|f rest] eqn:Et.
    + split; [exact D|]. cbn [threads]. intros j u Hj. apply set_nth_nth in Hj as [[-> ->]|[Hjk Hj]]; [apply (T k t Ek)|apply (T j u Hj)].
    + unfold read_section. destruct (hm_get (registry w) f) as [i|] eqn:Eg.
      * split; [exact D|]. cbn [threads]. intros j u Hj. apply set_nth_nth in Hj as [[-> ->]|[Hjk Hj]]; [|apply (T j u Hj)].
        cbn [got missed]. split; [|discriminate]. intros g n Hin. apply in_app_iff in Hin as [Hin|[[= <- <-]|[]]]; [now apply Tg|].
        now apply (dense_get _ _ _ _ D).
      * split; [exact D|]. cbn [threads]. intros j u Hj. apply set_nth_nth in Hj as [[-> ->]|[Hjk Hj]]; [|apply (T j u Hj)].
        cbn [got missed]. split; [exact Tg|]. intros g [= <-]. now apply (dense_none _ _ f D).
Qed.
Lemma world_run_inv sched : forall w l, winv w l -> never_clashes w sched -> exists r, winv (world_run w sched) (l ++ r).
Proof.
  induction sched as [|k s IH]; intros w l H [C N]; cbn [world_run fold_left]; [exists []; now rewrite app_nil_r|].
  destruct (world_step_inv w l k H C) as [r1 H1]. destruct (IH _ _ H1 N) as [r2 H2]. exists (r1 ++ r2). rewrite app_assoc. exact H2.
Qed.

(** A user-level sufficient condition: no format that is not registered
    beforehand is used by two different threads. *)
Definition owned (l : list Format) (w : world) (owner : Format -> nat) : Prop :=
  forall k t, nth_error (threads w) k = Some t ->
    (forall f, In f (todo t) \/ missed t = Some f -> In f l \/ owner f = k).
Lemma owned_step l w k owner : owned l w owner -> owned l (world_step w k) owner.
Proof.
  intros O. unfold world_step. destruct (nth_error (threads w) k) as [t|] eqn:Ek; [|exact O].
  pose proof (O k t Ek) as Ot. unfold thread_step.
  destruct (missed t) as [f|] eqn:Em.
  - destruct (write_section (registry w) f) as [m' i]. intros j u Hj. cbn [threads] in Hj.
    apply set_nth_nth in Hj as [[-> ->]|[Hjk Hj]]; [|exact (O j u Hj)]. cbn [todo missed]. intros g [H|H]; [apply Ot; auto|discriminate].
  - destruct (todo t) as [|f rest] eqn:Et; [|destruct (read_section (registry w) f)];
      intros j u Hj; cbn [threads] in Hj; (apply set_nth_nth in Hj as [[-> ->]|[Hjk Hj]]; [|exact (O j u Hj)]).
    + rewrite Et, Em. exact Ot.
    + cbn [todo missed]. intros g [H|H]; [apply Ot; left; now right|discriminate].
    + cbn [todo missed]. intros g [H|H]; [apply Ot; left; now right|]. injection H as <-. apply Ot. left. now left.
Qed.
Lemma owned_clash_free l r w owner : owned l w owner -> winv w (l ++ r) -> clash_free w.
Proof.
  intros O [D T] i j t u f Hne Hi Hj Mt Mu.
  destruct (T i t Hi) as [_ Tm].
  assert (~ In f l) by (intros H; apply (Tm f Mt), in_app_iff; now left).
  destruct (O i t Hi f (or_intror Mt)) as [|E1]; [tauto|]. destruct (O j u Hj f (or_intror Mu)) as [|E2]; [tauto|]. congruence.
Qed.
Lemma owned_never_clashes sched owner : forall w l r, owned l w owner -> winv w (l ++ r) -> never_clashes w sched.
Proof.
  induction sched as [|k s IH]; intros w l r O H; cbn [never_clashes]; (split; [eapply owned_clash_free; eauto|]); [exact I|].
  destruct (world_step_inv w _ k H (owned_clash_free _ _ _ _ O H)) as [r1 H1]. rewrite <- app_assoc in H1.
  exact (IH _ _ _ (owned_step _ _ _ _ O) H1).
Qed.
