(** Invariant of the shared string table. *)
From Verif Require Import Base SortLib Xml_Model Sst_Model.

Definition indexed (l : list str) : list (str * N) := combine l (map N.of_nat (seq 0 (length l))).

(** The table holds exactly the distinct strings [l] numbered in first-use order. *)
Record Inv (t : sst) (l : list str) : Prop := {
  inv_strings : strings t = rev (indexed l);
  inv_unique : unique_count t = N.of_nat (length l);
  inv_nodup : NoDup l }.

Lemma indexed_snoc l k : indexed (l ++ [k]) = indexed l ++ [(k, N.of_nat (length l))].
Proof.
  unfold indexed. rewrite app_length. cbn [length]. rewrite seq_app, map_app. cbn [seq map].
  assert (Hg : forall (m : list N), length m = length l -> forall x, combine (l ++ [k]) (m ++ [x]) = combine l m ++ [(k, x)]).
  { clear. induction l as [|c l IH]; intros [|y m] Hm x; cbn in *; try lia; [reflexivity|]. f_equal. apply IH. lia. }
  rewrite Hg by (rewrite map_length, seq_length; reflexivity). reflexivity.
Qed.

Lemma find_indexed l k off : 
  find_str k (combine l (map N.of_nat (seq off (length l)))) = None <-> ~ In k l.
Proof.
  revert off; induction l as [|c l IH]; intros off; cbn [length seq map combine find_str In]; [tauto|].
  destruct (str_eqb_spec c k) as [->|Hne]; [split; [discriminate|tauto]|]. rewrite IH. intuition.
Qed.

Lemma find_str_in k l i : find_str k l = Some i -> In (k, i) l.
Proof.
  induction l as [|[x v] l IH]; cbn [find_str]; [discriminate|].
  destruct (str_eqb_spec x k) as [->|]; [intros E; injection E as ->; left; reflexivity|right; auto].
Qed.

Lemma find_str_none k l : find_str k l = None <-> ~ In k (map fst l).
Proof.
  induction l as [|[x v] l IH]; cbn [find_str map fst In]; [tauto|].
  destruct (str_eqb_spec x k) as [->|]; [split; [discriminate|tauto]|]. rewrite IH. intuition.
Qed.

Lemma map_fst_indexed l : map fst (indexed l) = l.
Proof.
  unfold indexed. generalize 0%nat. induction l as [|c l IH]; intros off; cbn [length seq map combine fst]; [reflexivity|].
  f_equal. apply IH.
Qed.

Lemma in_indexed l k i : In (k, i) (indexed l) -> nth_error l (N.to_nat i) = Some k.
Proof.
  unfold indexed.
  assert (H : forall off, In (k, i) (combine l (map N.of_nat (seq off (length l)))) ->
     (off <= N.to_nat i)%nat /\ nth_error l (N.to_nat i - off) = Some k).
  { induction l as [|c l IH]; intros off; cbn [length seq map combine In]; [intros []|].
    intros [E|Hin].
    - injection E as -> <-. rewrite Nnat.Nat2N.id, Nat.sub_diag. auto.
    - apply IH in Hin as [H1 H2]. split; [lia|]. replace (N.to_nat i - off)%nat with (S (N.to_nat i - S off)) by lia. exact H2. }
  intros Hin. apply (H 0%nat) in Hin as [_ Hin]. rewrite Nat.sub_0_r in Hin. exact Hin.
Qed.

Lemma inv_new : Inv sst_new [].
Proof. constructor; cbn; auto. constructor. Qed.

Lemma shared_string_index_inv t l k t' i : Inv t l -> shared_string_index t k = (t', i) ->
  exists l', Inv t' l' /\ (exists d, l' = l ++ d) /\ nth_error l' (N.to_nat i) = Some k /\
    count t' = count t + 1 /\ (l' = l \/ (l' = l ++ [k] /\ ~ In k l)).
Proof.
  intros [Hs Hu Hn]. unfold shared_string_index. destruct (find_str k (strings t)) as [j|] eqn:E; intros H; injection H as <- <-.
  - exists l. split; [constructor; assumption|]. split; [exists []; rewrite app_nil_r; reflexivity|].
    split; [|split; auto]. apply find_str_in in E. rewrite Hs in E. apply in_rev in E. apply in_indexed; assumption.
  - assert (Hk : ~ In k l).
    { apply find_str_none in E. rewrite Hs, map_rev, map_fst_indexed in E. intros H; apply E. apply in_rev.
      rewrite rev_involutive; assumption. }
    exists (l ++ [k]). split; [constructor; cbn [strings unique_count]|].
    + rewrite indexed_snoc, rev_app_distr, Hs, Hu. reflexivity.
    + rewrite app_length, Hu. cbn [length]. lia.
    + apply (Permutation_NoDup (l := k :: l)); [apply Permutation_cons_append|constructor; assumption].
    + split; [eauto|]. split; [|split; auto]. rewrite Hu, Nnat.Nat2N.id, nth_error_app2, Nat.sub_diag by lia. reflexivity.
Qed.

Lemma sst_run_inv keys t l t' is : Inv t l -> sst_run t keys = (t', is) ->
  exists l', Inv t' l' /\ (exists d, l' = l ++ d) /\
    count t' = count t + N.of_nat (length keys) /\
    Forall2 (fun k i => nth_error l' (N.to_nat i) = Some k) keys is /\
    (forall k, In k l' <-> In k l \/ In k keys).
Proof.
  revert t l t' is; induction keys as [|k keys IH]; intros t l t' is Hi; cbn [sst_run].
  - intros E; injection E as <- <-. exists l. split; [assumption|]. split; [exists []; rewrite app_nil_r; reflexivity|].
    split; [cbn; lia|]. split; [constructor|]. cbn; tauto.
  - destruct (shared_string_index t k) as [t1 i] eqn:E1. destruct (sst_run t1 keys) as [t2 is2] eqn:E2.
    intros E; injection E as <- <-.
    destruct (shared_string_index_inv _ _ _ _ _ Hi E1) as (l1 & Hi1 & (d1 & Hd1) & Hn1 & Hc1 & Hl1).
    destruct (IH _ _ _ _ Hi1 E2) as (l2 & Hi2 & (d2 & Hd2) & Hc2 & Hf2 & Hin2).
    exists l2. split; [assumption|]. split; [exists (d1 ++ d2); rewrite Hd2, Hd1, app_assoc; reflexivity|].
    split; [rewrite Hc2, Hc1; cbn [length]; lia|]. split.
    + constructor; [|assumption]. rewrite Hd2. rewrite nth_error_app1; [assumption|].
      apply nth_error_Some. congruence.
    + intros x. rewrite Hin2. cbn [In]. destruct Hl1 as [->|[-> _]].
      * split; [tauto|]. intros [H|[<-|H]]; auto. left. eapply nth_error_In; eauto.
      * rewrite in_app_iff. cbn [In]. intuition.
Qed.

Lemma indexed_sorted l : StronglySorted (key_lt snd) (indexed l).
Proof.
  unfold indexed. generalize 0%nat. induction l as [|c l IH]; intros off; cbn [length seq map combine]; constructor; [apply IH|].
  apply Forall_forall. intros [k i] Hin. unfold key_lt; cbn [snd].
  apply in_combine_r in Hin. apply in_map_iff in Hin as (n & <- & Hn). apply in_seq in Hn. lia.
Qed.

Lemma written_order_inv t l entries : Inv t l -> Permutation entries (strings t) -> written_order entries = l.
Proof.
  intros [Hs _ _] HP. unfold written_order.
  rewrite (sort_by_canonical snd entries (indexed l)); [apply map_fst_indexed|apply indexed_sorted|].
  rewrite HP, Hs. symmetry. apply Permutation_rev.
Qed.

(** Main statement. *)
Lemma sst_history keys t is : sst_run sst_new keys = (t, is) ->
  forall entries, Permutation entries (strings t) ->
    Forall2 (fun k i => nth_error (written_order entries) (N.to_nat i) = Some k) keys is /\
    NoDup (written_order entries) /\
    (forall k, In k (written_order entries) <-> In k keys) /\
    unique_count t = N.of_nat (length (written_order entries)) /\
    count t = N.of_nat (length keys).
Proof.
  intros E entries HP. destruct (sst_run_inv keys _ _ _ _ inv_new E) as (l & Hi & _ & Hc & Hf & Hin).
  rewrite (written_order_inv _ _ _ Hi HP). destruct Hi as [_ Hu Hn].
  split; [assumption|]. split; [assumption|]. split; [intros k; rewrite Hin; cbn; tauto|]. split; [assumption|].
  rewrite Hc. cbn [count sst_new]. lia.
Qed.

Lemma Forall2_nth {A B} (R : A -> B -> Prop) l l' n a b : Forall2 R l l' ->
  nth_error l n = Some a -> nth_error l' n = Some b -> R a b.
Proof.
  intros H; revert n; induction H as [|x y l l' HR HF IH]; intros [|n]; cbn [nth_error]; try discriminate.
  - intros E1 E2; injection E1 as <-; injection E2 as <-. assumption.
  - apply IH.
Qed.

Lemma sst_index_injective keys t is : sst_run sst_new keys = (t, is) ->
  forall n m k k' i j, nth_error keys n = Some k -> nth_error keys m = Some k' ->
    nth_error is n = Some i -> nth_error is m = Some j -> (k = k' <-> i = j).
Proof.
  intros E n m k k' i j Hk Hk' Hi Hj.
  destruct (sst_history keys t is E (strings t) (Permutation_refl _)) as (Hf & Hn & _).
  pose proof (Forall2_nth _ _ _ _ _ _ Hf Hk Hi) as H1. pose proof (Forall2_nth _ _ _ _ _ _ Hf Hk' Hj) as H2. cbn in H1, H2.
  split.
  - intros ->. apply N2Nat.inj. eapply (proj1 (NoDup_nth_error _)); [exact Hn| |congruence].
    apply nth_error_Some. congruence.
  - intros ->. congruence.
Qed.

(** An index handed out is never changed by later writes. *)
Lemma sst_index_stable keys later k : 
  forall t is t' is', sst_run sst_new keys = (t, is) -> sst_run sst_new (keys ++ later) = (t', is') ->
    In k keys -> find_str k (strings t) <> None /\ firstn (length keys) is' = is.
Proof.
  intros t is t' is' E E' Hk. split.
  - destruct (sst_run_inv keys _ _ _ _ inv_new E) as (l & [Hs _ _] & _ & _ & _ & Hin).
    intros Hf. apply find_str_none in Hf. apply Hf. rewrite Hs, map_rev, map_fst_indexed. rewrite <- in_rev. apply Hin. auto.
  - clear Hk. revert t is t' is' E E'. generalize sst_new as t0. induction keys as [|c keys IH]; intros t0 t is t' is'; cbn [sst_run app length firstn].
    + intros E; injection E as <- <-. reflexivity.
    + destruct (shared_string_index t0 c) as [t1 i].
      destruct (sst_run t1 keys) as [t2 is2] eqn:E2. destruct (sst_run t1 (keys ++ later)) as [t3 is3] eqn:E3.
      intros E; injection E as <- <-. intros E; injection E as <- <-. cbn [firstn]. f_equal. eapply IH; eassumption.
Qed.
