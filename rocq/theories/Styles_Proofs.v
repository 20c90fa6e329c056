(** Proofs about the style component tables. *)
From Verif Require Import Base Fmt_Model Styles_Model.

Section Assign.
Context {A : Type} (dec : forall a b : A, {a = b} + {a <> b}).
Definition indexes (m : list (A * N)) (l : list A) : Prop := forall a i, lookup dec m a = Some i <-> nth_error l (N.to_nat i) = Some a.
Lemma indexes_none m l a : indexes m l -> (lookup dec m a = None <-> ~ In a l).
Proof.
  intros H. split.
  - intros E Hin. apply In_nth_error in Hin as [n Hn]. rewrite <- (Nat2N.id n) in Hn. apply H in Hn. congruence.
  - intros Hn. destruct (lookup dec m a) as [i|] eqn:E; [|reflexivity]. apply H, nth_error_In in E. contradiction.
Qed.
Lemma nodup_snoc (l : list A) a : NoDup l -> ~ In a l -> NoDup (l ++ [a]).
Proof.
  intros N H. induction l as [|g l IH]; cbn; [constructor; [tauto|constructor]|].
  apply NoDup_cons_iff in N as [X Y]. constructor; [|apply IH; cbn in H; tauto].
  rewrite in_app_iff. cbn in *. intros [Z|[Z|[]]]; [tauto|]. subst. tauto.
Qed.
Lemma indexes_snoc m l a : indexes m l -> NoDup l -> ~ In a l -> indexes ((a, N.of_nat (length l)) :: m) (l ++ [a]).
Proof.
  intros H Nd Hn b i. cbn [lookup]. destruct (dec a b) as [<-|Hab].
  - split; [intros [= <-]; rewrite Nat2N.id, nth_error_app2, Nat.sub_diag by lia; reflexivity|].
    intros E. destruct (lt_dec (N.to_nat i) (length l)) as [L|L].
    + rewrite nth_error_app1 in E by lia. apply nth_error_In in E. contradiction.
    + assert (N.to_nat i < length (l ++ [a]))%nat by (apply nth_error_Some; congruence). rewrite app_length in H0. cbn in H0. f_equal. lia.
  - rewrite (H b i). split; intros E.
    + rewrite nth_error_app1; [exact E|]. apply nth_error_Some. congruence.
    + destruct (lt_dec (N.to_nat i) (length l)) as [L|L]; [now rewrite nth_error_app1 in E by lia|].
      exfalso. rewrite nth_error_app2 in E by lia. destruct (N.to_nat i - length l)%nat as [|[|k]]; cbn in E; congruence.
Qed.
Lemma nth_app (l r : list A) n x : nth_error l n = Some x -> nth_error (l ++ r) n = Some x.
Proof. intros H. rewrite nth_error_app1; [exact H|]. apply nth_error_Some. congruence. Qed.

Lemma assign_spec l : forall m l0 count, indexes m l0 -> NoDup l0 -> count = N.of_nat (length l0) -> N.of_nat (length l0 + length l) <= 65535 ->
  let is := fst (assign dec m count l) in let l1 := l0 ++ flagged l is in
  NoDup l1 /\ snd (assign dec m count l) = N.of_nat (length l1) /\
  Forall2 (fun a p => nth_error l1 (N.to_nat (fst p)) = Some a) l is /\ (forall a, In a l1 <-> In a l0 \/ In a l).
Proof.
  induction l as [|a l IH]; intros m l0 count H Nd Hc Hlen; cbn [assign].
  - cbn. rewrite app_nil_r. split; [assumption|]. split; [assumption|]. split; [constructor|]. tauto.
  - destruct (lookup dec m a) as [i|] eqn:E.
    + specialize (IH m l0 count H Nd Hc). destruct (assign dec m count l) as [is n]. cbn [fst snd] in *.
      destruct IH as (I1 & I2 & I3 & I4); [cbn in Hlen; lia|]. unfold flagged in *. cbn [combine filter snd].
      split; [exact I1|]. split; [exact I2|]. split.
      * constructor; [|exact I3]. cbn [fst]. apply nth_app. now apply H.
      * intros b. rewrite I4. cbn [In]. split; [tauto|]. intros [X|[X|X]]; try tauto. subst b. apply H, nth_error_In in E. tauto.
    + assert (Ha : ~ In a l0) by now apply (indexes_none m l0 a H).
      assert (Hs : u16_succ count = N.of_nat (length (l0 ++ [a]))).
      { unfold u16_succ. rewrite app_length. cbn [length] in *. rewrite N.mod_small by lia. lia. }
      specialize (IH ((a, count) :: m) (l0 ++ [a]) (u16_succ count)). subst count.
      destruct (assign dec ((a, N.of_nat (length l0)) :: m) (u16_succ (N.of_nat (length l0))) l) as [is n]. cbn [fst snd] in *.
      destruct IH as (I1 & I2 & I3 & I4); [now apply indexes_snoc|now apply nodup_snoc|exact Hs|rewrite app_length; cbn in *; lia|].
      unfold flagged in *. cbn [combine filter snd map fst]. rewrite <- app_assoc in I1, I2, I3, I4. cbn [app] in I1, I2, I3, I4.
      split; [exact I1|]. split; [exact I2|]. split.
      * constructor; [|exact I3]. cbn [fst]. rewrite Nat2N.id, nth_error_app2, Nat.sub_diag by lia. reflexivity.
      * intros b. rewrite I4, in_app_iff. cbn [In]. tauto.
Qed.
Lemma assign_length l : forall m count, length (fst (assign dec m count l)) = length l.
Proof.
  induction l as [|a l IH]; intros m count; cbn [assign]; [reflexivity|]. destruct (lookup dec m a).
  - specialize (IH m count). destruct (assign dec m count l). cbn in *. lia.
  - specialize (IH ((a, count) :: m) (u16_succ count)). destruct (assign dec ((a, count) :: m) (u16_succ count) l). cbn in *. lia.
Qed.
Lemma indexes_nil : indexes [] [].
Proof. intros a i. cbn. split; [discriminate|]. destruct (N.to_nat i); discriminate. Qed.
End Assign.

(** ** Number formats *)

(** The index of a format is right with respect to the custom codes seen. *)
Definition right_num (codes : list str) (f : Format) (i : N) : Prop :=
  if 0 <? num_format_index f then i = num_format_index f
  else match num_format f with [] => i = 0 | s => 164 <= i /\ nth_error codes (N.to_nat (i - 164)) = Some s end.
Lemma right_num_app codes r f i : right_num codes f i -> right_num (codes ++ r) f i.
Proof.
  unfold right_num. destruct (0 <? num_format_index f); [auto|]. destruct (num_format f); [auto|]. intros [A B]. split; [exact A|]. now apply nth_app.
Qed.
Definition indexes164 (m : list (str * N)) (codes : list str) : Prop :=
  forall s i, lookup str_eq_dec m s = Some i <-> 164 <= i /\ nth_error codes (N.to_nat (i - 164)) = Some s.
Lemma indexes164_none m l a : indexes164 m l -> (lookup str_eq_dec m a = None <-> ~ In a l).
Proof.
  intros H. split.
  - intros E Hin. apply In_nth_error in Hin as [n Hn]. assert (X : 164 <= 164 + N.of_nat n /\ nth_error l (N.to_nat (164 + N.of_nat n - 164)) = Some a).
    { split; [lia|]. now replace (N.to_nat (164 + N.of_nat n - 164)) with n by lia. } apply H in X. congruence.
  - intros Hn. destruct (lookup str_eq_dec m a) as [i|] eqn:E; [|reflexivity]. apply H in E as [_ E]. apply nth_error_In in E. contradiction.
Qed.
Lemma indexes164_snoc m l a : indexes164 m l -> ~ In a l -> indexes164 ((a, 164 + N.of_nat (length l)) :: m) (l ++ [a]).
Proof.
  intros H Hn b i. cbn [lookup]. destruct (str_eq_dec a b) as [<-|Hab].
  - split.
    + intros X. assert (Xi : i = 164 + N.of_nat (length l)) by congruence. subst i. clear X. split; [lia|]. replace (N.to_nat (164 + N.of_nat (length l) - 164)) with (length l) by lia.
      rewrite nth_error_app2, Nat.sub_diag by lia. reflexivity.
    + intros [G E]. destruct (lt_dec (N.to_nat (i - 164)) (length l)) as [L|L].
      * rewrite nth_error_app1 in E by lia. apply nth_error_In in E. contradiction.
      * assert (N.to_nat (i - 164) < length (l ++ [a]))%nat by (apply nth_error_Some; congruence). rewrite app_length in H0. cbn in H0. f_equal. lia.
  - rewrite (H b i). split; intros [G E]; (split; [exact G|]).
    + now apply nth_app.
    + destruct (lt_dec (N.to_nat (i - 164)) (length l)) as [L|L]; [now rewrite nth_error_app1 in E by lia|].
      exfalso. rewrite nth_error_app2 in E by lia. destruct (N.to_nat (i - 164) - length l)%nat as [|[|k]]; cbn in E; congruence.
Qed.

(** One step of the loop, by cases. *)
Lemma num_cases m codes index f b r :
  indexes164 m codes -> NoDup codes -> index = 164 + N.of_nat (length codes) -> 164 + N.of_nat (length codes) < 65535 ->
  (exists i, num_loop m index ((f, b) :: r) = (i :: fst (num_loop m index r), snd (num_loop m index r)) /\ right_num codes f i /\
     (right_num [] f i \/ In (num_format f) codes)) \/
  (exists s, num_format f = s /\ s <> [] /\ num_format_index f = 0 /\ ~ In s codes /\ right_num (codes ++ [s]) f index /\
     let m' := (s, index) :: m in indexes164 m' (codes ++ [s]) /\ u16_succ index = 164 + N.of_nat (length (codes ++ [s])) /\
     num_loop m index ((f, b) :: r) = (index :: fst (num_loop m' (u16_succ index) r), if b then snd (num_loop m' (u16_succ index) r) else s :: snd (num_loop m' (u16_succ index) r))).
Proof.
  intros H Nd Hi Hl. cbn [num_loop]. unfold right_num. destruct (N.ltb_spec 0 (num_format_index f)) as [E0|E0].
  - left. exists (num_format_index f). destruct (num_loop m index r). cbn. auto.
  - destruct (num_format f) as [|c s] eqn:Ef.
    + left. exists 0. destruct (num_loop m index r). cbn. auto.
    + destruct (lookup str_eq_dec m (c :: s)) as [i|] eqn:El.
      * left. exists i. destruct (num_loop m index r). cbn [fst snd]. split; [reflexivity|]. pose proof El as El2. apply H in El2. split; [exact El2|].
        right. apply proj2, nth_error_In in El2. exact El2.
      * right. exists (c :: s). split; [reflexivity|]. split; [discriminate|]. split; [lia|].
        apply (indexes164_none m codes _ H) in El. split; [exact El|].
        split. { split; [lia|]. subst index. replace (N.to_nat (164 + N.of_nat (length codes) - 164)) with (length codes) by lia. rewrite nth_error_app2, Nat.sub_diag by lia. reflexivity. }
        cbv zeta. split; [subst index; now apply indexes164_snoc|]. split.
        { unfold u16_succ. rewrite app_length. cbn [length]. rewrite N.mod_small by lia. lia. }
        destruct (num_loop ((c :: s, index) :: m) (u16_succ index) r). reflexivity.
Qed.

Lemma num_dxf ds : forall m codes index, indexes164 m codes -> NoDup codes -> index = 164 + N.of_nat (length codes) -> 164 + N.of_nat (length codes + length ds) <= 65535 ->
  exists r, let res := num_loop m index (map (fun f => (f, true)) ds) in
  snd res = [] /\ NoDup (codes ++ r) /\ Forall2 (right_num (codes ++ r)) ds (fst res).
Proof.
  induction ds as [|f ds IH]; intros m codes index H Nd Hi Hl; cbn [map].
  - exists []. rewrite app_nil_r. cbn. auto.
  - cbn [length] in Hl. destruct (num_cases m codes index f true (map (fun f => (f, true)) ds) H Nd Hi) as [(i & E & R & _)|(s & Es & Hs & Hx & Hin & R & H' & U & E)]; [lia| |].
    + destruct (IH m codes index H Nd Hi ltac:(lia)) as (r & A & B & C). exists r. rewrite E. cbn [fst snd]. split; [exact A|]. split; [exact B|].
      constructor; [now apply right_num_app|exact C].
    + assert (Nd' : NoDup (codes ++ [s])) by (apply nodup_snoc; assumption).
      destruct (IH _ _ _ H' Nd' U) as (r & A & B & C); [rewrite app_length; cbn [length]; lia|].
      exists (s :: r). rewrite E. cbn [fst snd]. rewrite <- app_assoc in B, C. cbn [app] in B, C. split; [exact A|]. split; [exact B|].
      constructor; [|exact C]. change (s :: r) with ([s] ++ r). rewrite app_assoc. now apply right_num_app.
Qed.

Lemma num_all xs ds : forall m codes index, indexes164 m codes -> NoDup codes -> index = 164 + N.of_nat (length codes) ->
  164 + N.of_nat (length codes + length xs + length ds) <= 65535 ->
  exists r, let res := num_loop m index (map (fun f => (f, false)) xs ++ map (fun f => (f, true)) ds) in
  let codes1 := codes ++ snd res in
  NoDup (codes1 ++ r) /\ exists ix id, fst res = ix ++ id /\ Forall2 (right_num codes1) xs ix /\ Forall2 (right_num (codes1 ++ r)) ds id /\
  (forall s, In s (snd res) -> exists f, In f xs /\ num_format_index f = 0 /\ num_format f = s /\ s <> []).
Proof.
  induction xs as [|f xs IH]; intros m codes index H Nd Hi Hl; cbn [map app].
  - destruct (num_dxf ds m codes index H Nd Hi ltac:(cbn [length] in Hl; lia)) as (r & A & B & C). exists r. cbv zeta. rewrite A, app_nil_r.
    split; [exact B|]. exists [], (fst (num_loop m index (map (fun f => (f, true)) ds))). split; [reflexivity|]. split; [constructor|]. split; [exact C|]. intros s [].
  - cbn [length] in Hl. destruct (num_cases m codes index f false (map (fun f => (f, false)) xs ++ map (fun f => (f, true)) ds) H Nd Hi) as [(i & E & R & _)|(s & Es & Hs & Hx & Hin & R & H' & U & E)]; [lia| |].
    + destruct (IH m codes index H Nd Hi ltac:(lia)) as (r & A & ix & id & B & C & D & F). exists r. cbv zeta in *. rewrite E. cbn [fst snd].
      split; [exact A|]. exists (i :: ix), id. split; [cbn; now rewrite B|]. split; [constructor; [now apply right_num_app|exact C]|]. split; [exact D|].
      intros s Hs. destruct (F s Hs) as (g & G1 & G2). exists g. split; [now right|exact G2].
    + assert (Nd' : NoDup (codes ++ [s])) by (apply nodup_snoc; assumption).
      destruct (IH _ _ _ H' Nd' U) as (r & A & ix & id & B & C & D & F); [rewrite app_length; cbn [length]; lia|].
      exists r. cbv zeta in *. rewrite E. cbn [fst snd].
      set (T := snd (num_loop ((s, index) :: m) (u16_succ index) (map (fun f => (f, false)) xs ++ map (fun f => (f, true)) ds))) in *.
      assert (EE : codes ++ s :: T = (codes ++ [s]) ++ T) by now rewrite <- app_assoc. rewrite EE.
      split; [exact A|]. exists (index :: ix), id. split; [cbn; now rewrite B|]. split; [constructor; [now apply right_num_app|exact C]|]. split; [exact D|].
      intros s2 [<-|Hs2]; [exists f; split; [now left|auto]|]. destruct (F s2 Hs2) as (g & G1 & G2). exists g. split; [now right|exact G2].
Qed.
Lemma num_elements_nth codes : forall k n s, (k + N.of_nat (length codes) <= 65535) ->
  nth_error codes n = Some s -> nth_error (num_elements k codes) n = Some (k + N.of_nat n, s).
Proof.
  induction codes as [|c codes IH]; intros k [|n] s Hl H; cbn in H; try discriminate; cbn [num_elements nth_error].
  - injection H as ->. f_equal. f_equal. lia.
  - cbn [length] in Hl. rewrite (IH (u16_succ k) n s); [|unfold u16_succ; rewrite N.mod_small by lia; lia|exact H].
    unfold u16_succ. rewrite N.mod_small by lia. do 2 f_equal. lia.
Qed.
Lemma num_elements_ids codes : forall k, (k + N.of_nat (length codes) <= 65535) ->
  map fst (num_elements k codes) = map (fun n => k + N.of_nat n) (seq 0 (length codes)) /\ map snd (num_elements k codes) = codes.
Proof.
  induction codes as [|c codes IH]; intros k Hl; [split; reflexivity|]. cbn [length] in Hl. cbn [num_elements map fst snd length seq].
  destruct (IH (u16_succ k)) as [A B]; [unfold u16_succ; rewrite N.mod_small by lia; lia|]. rewrite A, B. split; [|reflexivity]. f_equal; [lia|].
  rewrite <- seq_shift, map_map. apply map_ext. intros n. unfold u16_succ. rewrite N.mod_small by lia. lia.
Qed.
Lemma num_elements_length codes : forall k, length (num_elements k codes) = length codes.
Proof. induction codes; intros k; cbn; auto. Qed.

(** ** The hyperlink style *)
Lemma hyperlink_font_spec fs : forall k best, (k + N.of_nat (length fs) <= 65535) ->
  hyperlink_font k best fs = best \/ exists n f, hyperlink_font k best fs = k + N.of_nat n /\ nth_error fs n = Some f /\ is_hyperlink f = true.
Proof.
  induction fs as [|f fs IH]; intros k best Hl; cbn [hyperlink_font]; [now left|]. cbn [length] in Hl.
  assert (U : u16_succ k = k + 1) by (unfold u16_succ; rewrite N.mod_small; lia).
  destruct (IH (u16_succ k) (if is_hyperlink f then k else best)) as [E|(n & g & E & Hn & Hg)]; [lia| |].
  - rewrite E. destruct (is_hyperlink f) eqn:Ef; [|now left]. right. exists 0%nat, f. split; [lia|]. split; [reflexivity|exact Ef].
  - right. exists (S n), g. split; [lia|auto].
Qed.
Lemma hyperlink_font_found fs : forall k best, (k + N.of_nat (length fs) <= 65535) -> (exists f, In f fs /\ is_hyperlink f = true) ->
  exists n f, hyperlink_font k best fs = k + N.of_nat n /\ nth_error fs n = Some f /\ is_hyperlink f = true.
Proof.
  induction fs as [|f fs IH]; intros k best Hl (g & Hin & Hg); [destruct Hin|]. cbn [hyperlink_font]. cbn [length] in Hl.
  assert (U : u16_succ k = k + 1) by (unfold u16_succ; rewrite N.mod_small; lia).
  destruct (hyperlink_font_spec fs (u16_succ k) (if is_hyperlink f then k else best)) as [E|(n & h & E & Hn & Hh)]; [lia| |exists (S n), h; split; [lia|auto]].
  destruct (is_hyperlink f) eqn:Ef; [rewrite E; exists 0%nat, f; split; [lia|auto]|].
  destruct Hin as [->|Hin]; [congruence|]. destruct (IH (u16_succ k) best ltac:(lia)) as (n & h & E2 & Hn & Hh); [eauto|].
  exists (S n), h. split; [lia|auto].
Qed.

(** ** <xf> elements *)
Lemma xf_list_nth xfs : forall ns fo fi bo k x f, length ns = length xfs -> length fo = length xfs -> length fi = length xfs -> length bo = length xfs ->
  nth_error (xf_list xfs ns fo fi bo) k = Some x -> nth_error xfs k = Some f ->
  nth_error ns k = Some (xf_numFmtId x) /\ option_map fst (nth_error fo k) = Some (xf_fontId x) /\
  option_map fst (nth_error fi k) = Some (xf_fillId x) /\ option_map fst (nth_error bo k) = Some (xf_borderId x) /\
  xf_xfId x = if is_hyperlink (font f) then 1 else 0.
Proof.
  induction xfs as [|g xfs IH]; intros [|n ns] [|[a a'] fo] [|[b b'] fi] [|[c c'] bo] [|k] x f L1 L2 L3 L4 H Hf; cbn in *; try discriminate.
  - injection H as <-. injection Hf as ->. cbn. auto.
  - injection L1 as L1. injection L2 as L2. injection L3 as L3. injection L4 as L4. exact (IH ns fo fi bo k x f L1 L2 L3 L4 H Hf).
Qed.
Lemma xf_list_length xfs : forall ns fo fi bo, length ns = length xfs -> length fo = length xfs -> length fi = length xfs -> length bo = length xfs ->
  length (xf_list xfs ns fo fi bo) = length xfs.
Proof.
  induction xfs as [|g xfs IH]; intros [|n ns] [|[a a'] fo] [|[b b'] fi] [|[c c'] bo] L1 L2 L3 L4; cbn in *; try discriminate; [reflexivity|].
  f_equal. apply IH; lia.
Qed.
Lemma Forall2_nth {A B} (P : A -> B -> Prop) l m k a b : Forall2 P l m -> nth_error l k = Some a -> nth_error m k = Some b -> P a b.
Proof.
  intros F. revert k. induction F as [|x y l m H F IH]; intros [|k] Ha Hb; cbn in Ha, Hb; try discriminate; [congruence|eauto].
Qed.
Lemma xf_list_cut xfs : forall ix id fo fi bo, length ix = length xfs -> xf_list xfs (ix ++ id) fo fi bo = xf_list xfs ix fo fi bo.
Proof.
  induction xfs as [|f fs IH]; intros [|n ix] id fo fi bo Ln; cbn in *; try discriminate; [destruct id; reflexivity|].
  destruct fo as [|[a a'] fo]; [reflexivity|]. destruct fi as [|[b b'] fi]; [reflexivity|]. destruct bo as [|[c c'] bo]; [reflexivity|].
  f_equal. apply IH. lia.
Qed.
Lemma xf_list_num xfs : forall ix id fo fi bo k x, length ix = length xfs ->
  nth_error (xf_list xfs (ix ++ id) fo fi bo) k = Some x -> nth_error ix k = Some (xf_numFmtId x).
Proof.
  induction xfs as [|g fs IH]; intros [|n ix] id fo fi bo k x Ln Hx; cbn in Ln; try discriminate; [destruct k; discriminate|].
  cbn [app xf_list] in Hx. destruct fo as [|[a a'] fo]; [destruct k; discriminate|]. destruct fi as [|[b b'] fi]; [destruct k; discriminate|].
  destruct bo as [|[c c'] bo]; [destruct k; discriminate|]. destruct k as [|k]; cbn in *; [now injection Hx as <-|]. eapply IH; [|exact Hx]. lia.
Qed.
Lemma flagged_length {A} (l : list A) is : (length (flagged l is) <= length l)%nat.
Proof.
  unfold flagged. rewrite map_length. transitivity (length (combine l is)).
  - induction (combine l is) as [|a r IH]; cbn; [lia|]. destruct (snd (snd a)); cbn; lia.
  - rewrite combine_length. apply Nat.le_min_l.
Qed.
Lemma nodup_app_l {A} (a b : list A) : NoDup (a ++ b) -> NoDup a.
Proof. induction a as [|c cs IH]; [constructor|]. cbn. intros N. apply NoDup_cons_iff in N as [X Y]. constructor; [intros H; apply X, in_app_iff; now left|now apply IH]. Qed.
Lemma codes_bound xfs codes : NoDup codes -> (forall s, In s codes -> exists f, In f xfs /\ num_format_index f = 0 /\ num_format f = s /\ s <> []) ->
  (length codes <= length xfs)%nat.
Proof.
  intros Nc G. etransitivity; [|apply Nat.eq_le_incl, (map_length num_format xfs)]. apply NoDup_incl_length; [exact Nc|].
  intros s Hs. destruct (G s Hs) as (f & H1 & _ & <- & _). now apply in_map.
Qed.
