(** Stable insertion sort by a numeric key (models [sort_by_key] /
    [sort_unstable_by_key] on distinct keys) and uniqueness of sorted lists. *)
From Coq Require Export Sorting.Permutation Sorting.Sorted.
From Verif Require Import Base.

Section SortBy.
Context {A : Type} (key : A -> N).

Fixpoint insert_by (x : A) (l : list A) : list A :=
  match l with
  | [] => [x]
  | y :: r => if key x <=? key y then x :: l else y :: insert_by x r
  end.
Fixpoint sort_by (l : list A) : list A :=
  match l with [] => [] | x :: r => insert_by x (sort_by r) end.

Definition key_le (a b : A) : Prop := key a <= key b.
Definition key_lt (a b : A) : Prop := key a < key b.

Lemma insert_by_perm x l : Permutation (insert_by x l) (x :: l).
Proof.
  induction l as [|y l IH]; cbn [insert_by]; [reflexivity|].
  destruct (key x <=? key y); [reflexivity|]. rewrite IH. apply perm_swap.
Qed.

Lemma sort_by_perm l : Permutation (sort_by l) l.
Proof. induction l as [|x l IH]; cbn [sort_by]; [reflexivity|]. rewrite insert_by_perm, IH. reflexivity. Qed.

Lemma insert_by_sorted x l : StronglySorted key_le l -> StronglySorted key_le (insert_by x l).
Proof.
  induction 1 as [|y l Hs IH Hy]; cbn [insert_by].
  - constructor; constructor.
  - destruct (N.leb_spec (key x) (key y)) as [Hle|Hgt].
    + constructor; [constructor; assumption|]. constructor; [exact Hle|].
      eapply Forall_impl; [|exact Hy]. unfold key_le. intros a Ha. cbn in Ha. lia.
    + constructor; [assumption|]. rewrite insert_by_perm. constructor; [unfold key_le; lia|assumption].
Qed.

Lemma sort_by_sorted l : StronglySorted key_le (sort_by l).
Proof. induction l as [|x l IH]; cbn [sort_by]; [constructor|]. apply insert_by_sorted; assumption. Qed.

Lemma sorted_le_lt l : StronglySorted key_le l -> NoDup (map key l) -> StronglySorted key_lt l.
Proof.
  induction 1 as [|y l Hs IH Hy]; cbn [map]; intros Hn; constructor; inversion Hn as [|k ks Hni Hn']; subst; auto.
  rewrite Forall_forall in *. intros a Ha. specialize (Hy a Ha). unfold key_le, key_lt in *.
  assert (key a <> key y). { intros E. apply Hni. rewrite <- E. apply in_map; assumption. } lia.
Qed.

Lemma sorted_lt_unique l l' : StronglySorted key_lt l -> StronglySorted key_lt l' -> Permutation l l' -> l = l'.
Proof.
  intros H; revert l'; induction H as [|x l Hs IH Hx]; intros l' H' HP.
  - apply Permutation_nil in HP. congruence.
  - destruct l' as [|y l']; [symmetry in HP; apply Permutation_nil in HP; discriminate|].
    inversion H' as [|y' l'' Hs' Hy]; subst.
    rewrite Forall_forall in Hx, Hy.
    assert (x = y) as ->.
    { assert (In y (x :: l)) as [E|Hyl] by (eapply Permutation_in; [symmetry; exact HP|left; reflexivity]); [assumption|].
      assert (In x (y :: l')) as [E|Hxl] by (eapply Permutation_in; [exact HP|left; reflexivity]); [congruence|].
      apply Hx in Hyl. apply Hy in Hxl. unfold key_lt in *. lia. }
    f_equal. apply IH; [assumption|]. eapply Permutation_cons_inv; eassumption.
Qed.

(** Sorting any permutation of a strictly sorted list gives that list. *)
Lemma sort_by_canonical l l0 : StronglySorted key_lt l0 -> Permutation l l0 -> sort_by l = l0.
Proof.
  intros H0 HP. assert (HP' : Permutation (sort_by l) l0) by (rewrite sort_by_perm; assumption).
  assert (HN : NoDup (map key l0)).
  { clear - H0. induction H0 as [|x l Hs IH Hx]; cbn [map]; constructor; [|assumption].
    intros Hin. apply in_map_iff in Hin as (a & E & Ha). rewrite Forall_forall in Hx. apply Hx in Ha. unfold key_lt in Ha. lia. }
  apply sorted_lt_unique; [|assumption|assumption].
  apply sorted_le_lt; [apply sort_by_sorted|].
  eapply Permutation_NoDup; [|exact HN]. apply Permutation_map. symmetry; assumption.
Qed.
End SortBy.
