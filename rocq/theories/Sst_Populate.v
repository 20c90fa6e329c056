(** Strings placed in the shared string table beforehand.
    Model of src/shared_strings_table.rs:51-56 and src/workbook.rs:2013-2017, and proofs. *)
From Coq Require Import Lia.
From Verif Require Import Base SortLib Xml_Model Sst_Model Sst_Proofs.

(** src/shared_strings_table.rs:51-56 *)
Definition populate_string_index (t : sst) (key : str) (index : N) : sst :=
  match find_str key (strings t) with
  | Some _ => t
  | None => {| count := count t; unique_count := unique_count t + 1; strings := (key, index) :: strings t |}
  end.
(** Calls of populate_string_table, src/workbook.rs:2013-2017 *)
Definition populate_all (t : sst) (calls : list (str * N)) : sst := fold_left (fun t p => populate_string_index t (fst p) (snd p)) calls t.

(** The calls that count: the first for each string. *)
Fixpoint first_each (seen : list str) (calls : list (str * N)) : list (str * N) :=
  match calls with
  | [] => []
  | (k, i) :: r => if in_dec (list_eq_dec N.eq_dec) k seen then first_each seen r else (k, i) :: first_each (k :: seen) r
  end.

Lemma find_or k l : {In k (map fst l) /\ exists i, find_str k l = Some i} + {~ In k (map fst l) /\ find_str k l = None}.
Proof.
  destruct (find_str k l) as [i|] eqn:E.
  - left. split; [|eauto]. apply find_str_in in E. apply (in_map fst) in E. exact E.
  - right. split; [apply find_str_none; exact E|reflexivity].
Qed.
Lemma populate_strings calls : forall t seen, (forall k, In k seen <-> In k (map fst (strings t))) ->
  strings (populate_all t calls) = rev (first_each seen calls) ++ strings t /\
  unique_count (populate_all t calls) = unique_count t + N.of_nat (length (first_each seen calls)) /\
  count (populate_all t calls) = count t.
Proof.
  induction calls as [|[k i] r IH]; intros t seen S; [cbn; split; [reflexivity|split; [lia|reflexivity]]|].
  unfold populate_all. cbn [fold_left fst snd first_each]. unfold populate_string_index at 2 4 6.
  destruct (find_or k (strings t)) as [[Hi (j & ->)]|[Hi ->]]; destruct (in_dec _ k seen) as [Hs|Hs].
  - apply IH. exact S.
  - exfalso. apply Hs, S, Hi.
  - exfalso. apply Hi, S, Hs.
  - destruct (IH {| count := count t; unique_count := unique_count t + 1; strings := (k, i) :: strings t |} (k :: seen)) as (A & B & C).
    { intros x. cbn [strings map fst In]. rewrite S. tauto. }
    unfold populate_all in A, B, C. rewrite A, B, C. cbn [strings unique_count count rev length]. split; [rewrite <- app_assoc; reflexivity|split; [lia|reflexivity]].
Qed.
Lemma populated calls : strings (populate_all sst_new calls) = rev (first_each [] calls) /\
  unique_count (populate_all sst_new calls) = N.of_nat (length (first_each [] calls)) /\ count (populate_all sst_new calls) = 0.
Proof.
  destruct (populate_strings calls sst_new []) as (A & B & C); [intros k; cbn; tauto|]. rewrite A, B, C. cbn [strings unique_count count sst_new]. rewrite app_nil_r.
  split; [reflexivity|split; [lia|reflexivity]].
Qed.
Lemma first_each_nodup calls : forall seen, NoDup (map fst (first_each seen calls)) /\ (forall k, In k (map fst (first_each seen calls)) <-> In k (map fst calls) /\ ~ In k seen).
Proof.
  induction calls as [|[k i] r IH]; intros seen; [cbn; split; [constructor|tauto]|]. cbn [first_each map fst].
  destruct (in_dec _ k seen) as [Hs|Hs].
  - destruct (IH seen) as [A B]. split; [exact A|]. intros x. rewrite B. cbn [In]. split; [tauto|]. intros [[<-|H] H2]; tauto.
  - destruct (IH (k :: seen)) as [A B]. cbn [map fst]. split.
    + constructor; [|exact A]. rewrite B. cbn [In]. tauto.
    + intros x. cbn [In]. rewrite B. cbn [In]. destruct (list_eq_dec N.eq_dec k x) as [->|Hx]; [tauto|tauto].
Qed.

(** ** Tables up to the order of their list *)
Record InvP (t : sst) (l : list str) : Prop := {
  ip_strings : Permutation (strings t) (indexed l); ip_unique : unique_count t = N.of_nat (length l); ip_nodup : NoDup l }.
Lemma index_step t l k t' i : InvP t l -> shared_string_index t k = (t', i) ->
  exists l', InvP t' l' /\ (exists d, l' = l ++ d) /\ nth_error l' (N.to_nat i) = Some k /\
    count t' = count t + 1 /\ (l' = l \/ (l' = l ++ [k] /\ ~ In k l)).
Proof.
  intros [Hs Hu Hn]. unfold shared_string_index. destruct (find_str k (strings t)) as [j|] eqn:E; intros H; injection H as <- <-.
  - exists l. split; [constructor; assumption|]. split; [exists []; rewrite app_nil_r; reflexivity|].
    split; [|split; auto]. apply find_str_in in E. apply (Permutation_in _ Hs) in E. apply in_indexed; assumption.
  - assert (Hk : ~ In k l).
    { apply find_str_none in E. intros H. apply E. apply (Permutation_in (l := map fst (indexed l))); [apply Permutation_map; symmetry; exact Hs|].
      rewrite map_fst_indexed. exact H. }
    exists (l ++ [k]). split; [constructor; cbn [strings unique_count]|].
    + rewrite indexed_snoc, Hu, Hs. apply Permutation_cons_append.
    + rewrite app_length, Hu. cbn [length]. lia.
    + apply (Permutation_NoDup (l := k :: l)); [apply Permutation_cons_append|constructor; assumption].
    + split; [eauto|]. split; [|split; auto]. rewrite Hu, Nnat.Nat2N.id, nth_error_app2, Nat.sub_diag by lia. reflexivity.
Qed.
Lemma run_inv keys t l t' is : InvP t l -> sst_run t keys = (t', is) ->
  exists l', InvP t' l' /\ (exists d, l' = l ++ d) /\ count t' = count t + N.of_nat (length keys) /\
    Forall2 (fun k i => nth_error l' (N.to_nat i) = Some k) keys is /\ (forall k, In k l' <-> In k l \/ In k keys).
Proof.
  revert t l t' is; induction keys as [|k keys IH]; intros t l t' is Hi; cbn [sst_run].
  - intros E; injection E as <- <-. exists l. split; [assumption|]. split; [exists []; rewrite app_nil_r; reflexivity|].
    split; [cbn; lia|]. split; [constructor|]. cbn; tauto.
  - destruct (shared_string_index t k) as [t1 i] eqn:E1. destruct (sst_run t1 keys) as [t2 is2] eqn:E2.
    intros E; injection E as <- <-.
    destruct (index_step _ _ _ _ _ Hi E1) as (l1 & Hi1 & (d1 & Hd1) & Hn1 & Hc1 & Hl1).
    destruct (IH _ _ _ _ Hi1 E2) as (l2 & Hi2 & (d2 & Hd2) & Hc2 & Hf2 & Hin2).
    exists l2. split; [assumption|]. split; [exists (d1 ++ d2); rewrite Hd2, Hd1, app_assoc; reflexivity|].
    split; [rewrite Hc2, Hc1; cbn [length]; lia|]. split.
    + constructor; [|assumption]. rewrite Hd2. rewrite nth_error_app1; [assumption|]. apply nth_error_Some. congruence.
    + intros x. rewrite Hin2. cbn [In]. destruct Hl1 as [->|[-> _]].
      * split; [tauto|]. intros [H|[<-|H]]; auto. left. eapply nth_error_In; eauto.
      * rewrite in_app_iff. cbn [In]. intuition.
Qed.
Lemma order_inv t l entries : InvP t l -> Permutation entries (strings t) -> written_order entries = l.
Proof.
  intros [Hs _ _] HP. unfold written_order.
  rewrite (sort_by_canonical snd entries (indexed l)); [apply map_fst_indexed|apply indexed_sorted|]. rewrite HP. exact Hs.
Qed.

(** ** Places 0 .. n-1, each once *)
Lemma seq_sorted n : forall a, StronglySorted (key_lt (fun x : N => x)) (map N.of_nat (seq a n)).
Proof.
  induction n as [|n IH]; intros a; cbn [seq map]; constructor; [apply IH|]. apply Forall_forall. intros x Hx.
  apply in_map_iff in Hx as (m & <- & Hm). apply in_seq in Hm. unfold key_lt. lia.
Qed.
Lemma snd_sorted (l : list (str * N)) : StronglySorted (key_lt snd) l -> StronglySorted (key_lt (fun x : N => x)) (map snd l).
Proof.
  induction 1 as [|p l S IH F]; cbn [map]; constructor; [exact IH|]. apply Forall_map. eapply Forall_impl; [|exact F]. intros q Hq. exact Hq.
Qed.
Lemma split_pairs (l : list (str * N)) : combine (map fst l) (map snd l) = l.
Proof. induction l as [|[k i] l IH]; [reflexivity|]. cbn [map combine fst snd]. rewrite IH. reflexivity. Qed.
Lemma placed (E : list (str * N)) : NoDup (map fst E) -> Permutation (map snd E) (map N.of_nat (seq 0 (length E))) ->
  exists l, Permutation E (indexed l) /\ NoDup l /\ length l = length E.
Proof.
  intros Nd P. pose proof (sort_by_perm snd E) as Ps. set (S := sort_by snd E) in *.
  assert (Nk : NoDup (map snd S)).
  { apply (Permutation_NoDup (l := map N.of_nat (seq 0 (length E)))).
    - rewrite Ps, P. reflexivity.
    - apply FinFun.Injective_map_NoDup; [intros a b H; apply Nnat.Nat2N.inj; exact H|apply seq_NoDup]. }
  pose proof (sorted_le_lt snd S (sort_by_sorted snd E) Nk) as St.
  assert (Es : map snd S = map N.of_nat (seq 0 (length E))).
  { apply (sorted_lt_unique (fun x : N => x)); [apply snd_sorted, St|apply seq_sorted|]. rewrite Ps. exact P. }
  assert (Ls : length S = length E) by (apply Permutation_length; exact Ps).
  exists (map fst S). split; [|split].
  - rewrite <- Ps. unfold indexed. rewrite map_length, Ls, <- Es, split_pairs. reflexivity.
  - apply (Permutation_NoDup (l := map fst E)); [apply Permutation_map; symmetry; exact Ps|exact Nd].
  - rewrite map_length. exact Ls.
Qed.
Lemma start_inv calls : Permutation (map snd (first_each [] calls)) (map N.of_nat (seq 0 (length (first_each [] calls)))) ->
  exists l, InvP (populate_all sst_new calls) l /\ (forall k, In k l <-> In k (map fst calls)).
Proof.
  intros P. destruct (first_each_nodup calls []) as [Nd Hin]. destruct (placed _ Nd P) as (l & Pl & Nl & Ll). destruct (populated calls) as (A & B & _).
  exists l. split; [constructor; [rewrite A, <- Permutation_rev; exact Pl|rewrite B, Ll; reflexivity|exact Nl]|].
  intros k. specialize (Hin k). cbn [In] in Hin. transitivity (In k (map fst (first_each [] calls))); [|tauto].
  split; intros H; [apply (Permutation_in (l := map fst (indexed l))); [apply Permutation_map; symmetry; exact Pl|rewrite map_fst_indexed; exact H]|].
  rewrite <- (map_fst_indexed l). apply (Permutation_in (l := map fst (first_each [] calls))); [apply Permutation_map; exact Pl|exact H].
Qed.

(** ** Writing strings that are all there *)
Lemma find_nodup (l : list (str * N)) k i : NoDup (map fst l) -> In (k, i) l -> find_str k l = Some i.
Proof.
  induction l as [|[x v] l IH]; cbn [map fst]; intros Nd H; [inversion H|]. destruct H as [H|H]; cbn [find_str].
  - injection H as -> ->. destruct (str_eqb_spec k k); [reflexivity|congruence].
  - inversion Nd as [|? ? Nx Nd']; subst. destruct (str_eqb_spec x k) as [->|_]; [|auto]. exfalso. apply Nx. apply (in_map fst) in H. exact H.
Qed.
Lemma run_known (E : list (str * N)) : forall t, NoDup (map fst (strings t)) -> incl E (strings t) ->
  exists t', sst_run t (map fst E) = (t', map snd E) /\ strings t' = strings t.
Proof.
  induction E as [|[k i] E IH]; intros t Nd Hin; [exists t; split; reflexivity|]. cbn [map fst snd sst_run]. unfold shared_string_index.
  rewrite (find_nodup _ k i Nd (Hin _ (or_introl eq_refl))).
  destruct (IH {| count := count t + 1; unique_count := unique_count t; strings := strings t |} Nd) as (t' & Et & Es); [intros x Hx; apply Hin; right; exact Hx|].
  rewrite Et. exists t'. split; [reflexivity|exact Es].
Qed.
Lemma right_places (W : list str) (E : list (str * N)) : NoDup (map fst E) -> length W = length E ->
  Forall2 (fun k i => nth_error W (N.to_nat i) = Some k) (map fst E) (map snd E) ->
  Permutation (map snd E) (map N.of_nat (seq 0 (length E))).
Proof.
  intros Nd L F.
  assert (G : forall p, In p E -> nth_error W (N.to_nat (snd p)) = Some (fst p)).
  { clear Nd L. induction E as [|p E IH]; [intros q []|]. cbn [map] in F. inversion F as [|? ? ? ? F1 F2]; subst. intros q [<-|Hq]; [exact F1|apply IH; assumption]. }
  apply NoDup_Permutation_bis.
  - clear F L. induction E as [|p E IH]; cbn [map] in *; [constructor|]. inversion Nd as [|? ? Nx Nd']; subst. constructor.
    + intros H. apply in_map_iff in H as (q & Eq & Hq). apply Nx. pose proof (G p (or_introl eq_refl)) as G1. pose proof (G q (or_intror Hq)) as G2. rewrite Eq in G2.
      assert (fst p = fst q) as -> by congruence. apply in_map. exact Hq.
    + apply IH; [exact Nd'|]. intros q Hq. apply G. right. exact Hq.
  - rewrite !map_length, seq_length. lia.
  - intros i Hi. apply in_map_iff in Hi as (p & <- & Hp). apply in_map_iff. exists (N.to_nat (snd p)). split; [lia|]. apply in_seq.
    assert (N.to_nat (snd p) < length W)%nat by (apply nth_error_Some; rewrite (G p Hp); discriminate). lia.
Qed.
