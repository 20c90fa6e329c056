(** BTreeMap keyed by String: an association list sorted by key ([Ord] of String
    is the order of code points, Book_Model.str_leb). *)
From Coq Require Import Sorting.Sorted.
From Verif Require Import Base Book_Model Book_Spec Book_Proofs2.

Section Map.
  Context {V : Type}.
  Fixpoint sm_get (k : str) (m : list (str * V)) : option V :=
    match m with [] => None | (j, v) :: r => if str_eqb j k then Some v else sm_get k r end.
  Fixpoint sm_ins (k : str) (v : V) (m : list (str * V)) : list (str * V) :=
    match m with
    | [] => [(k, v)]
    | (j, w) :: r => if str_eqb k j then (k, v) :: r
                     else if str_leb k j then (k, v) :: (j, w) :: r else (j, w) :: sm_ins k v r
    end.
  Definition sm_ok (m : list (str * V)) : Prop := StronglySorted str_lt (map fst m).

  Lemma not_le_lt a b : str_leb a b = false -> str_lt b a.
  Proof.
    intros H. destruct (str_lt_total a b) as [L|[L|L]]; [..|exact L]; assert (X : str_leb a b = true) by (apply str_leb_spec; unfold str_le; auto); congruence.
  Qed.
  Lemma sm_get_ins k j v m : sm_get k (sm_ins j v m) = if str_eqb j k then Some v else sm_get k m.
  Proof.
    induction m as [|[i w] m IH]; [reflexivity|]. cbn [sm_ins sm_get]. destruct (str_eqb j i) eqn:E.
    - apply str_eqb_eq in E. subst i. cbn [sm_get]. destruct (str_eqb j k); reflexivity.
    - destruct (str_leb j i); cbn [sm_get]; [reflexivity|]. rewrite IH. destruct (str_eqb i k) eqn:F; [|reflexivity].
      apply str_eqb_eq in F. subst i. rewrite E. reflexivity.
  Qed.
  Lemma sm_ins_keys x k v m : In x (map fst (sm_ins k v m)) -> x = k \/ In x (map fst m).
  Proof.
    induction m as [|[i w] m IH]; [intros [H|[]]; left; symmetry; exact H|]. cbn [sm_ins]. destruct (str_eqb k i) eqn:E.
    - cbn [map fst In]. intros [H|H]; [left; symmetry; exact H|right; right; exact H].
    - destruct (str_leb k i); cbn [map fst In]; [intuition congruence|]. intros [H|H]; [right; left; exact H|]. apply IH in H as [H|H]; [left|right; right]; exact H.
  Qed.
  Lemma sm_ins_ok k v m : sm_ok m -> sm_ok (sm_ins k v m).
  Proof.
    unfold sm_ok. induction m as [|[i w] m IH]; [intros _; repeat constructor|]. cbn [map fst]. intros H. inversion H as [|? ? Hs Hf]; subst. cbn [sm_ins].
    destruct (str_eqb k i) eqn:E; [apply str_eqb_eq in E; subst i; constructor; assumption|].
    destruct (str_leb k i) eqn:L; cbn [map fst].
    - constructor; [exact H|]. assert (Lt : str_lt k i). { apply str_leb_spec in L as [L|L]; [subst; rewrite str_eqb_refl in E; discriminate|exact L]. }
      constructor; [exact Lt|]. eapply Forall_impl; [|exact Hf]. intros a Ha. eapply str_lt_trans; eassumption.
    - constructor; [apply IH; exact Hs|]. apply Forall_forall. intros x Hx. apply sm_ins_keys in Hx as [->|Hx]; [apply not_le_lt; exact L|]. rewrite Forall_forall in Hf. apply Hf. exact Hx.
  Qed.
  Lemma sm_nodup m : sm_ok m -> NoDup (map fst m).
  Proof.
    unfold sm_ok. induction 1 as [|a l H IH F]; [constructor|]. constructor; [|exact IH]. intros Hin. rewrite Forall_forall in F. exact (str_lt_irrefl a (F a Hin)).
  Qed.
  Lemma sm_get_in k v m : sm_get k m = Some v -> In (k, v) m.
  Proof.
    induction m as [|[j w] m IH]; [discriminate|]. cbn [sm_get]. destruct (str_eqb j k) eqn:E; [|intros H; right; auto]. apply str_eqb_eq in E. subst j. intros [= ->]. left. reflexivity.
  Qed.
  Lemma sm_in_get k v m : NoDup (map fst m) -> In (k, v) m -> sm_get k m = Some v.
  Proof.
    induction m as [|[j w] m IH]; [intros _ []|]. cbn [map fst sm_get]. intros N [E|H]; inversion N; subst.
    - injection E as -> ->. rewrite str_eqb_refl. reflexivity.
    - destruct (str_eqb j k) eqn:F; [|auto]. apply str_eqb_eq in F. subst j. exfalso. apply H2. apply (in_map fst) in H. exact H.
  Qed.
  Lemma sm_get_keys k m : sm_get k m <> None <-> In k (map fst m).
  Proof.
    induction m as [|[j w] m IH]; [cbn; split; [congruence|intros []]|]. cbn [sm_get map fst In]. destruct (str_eqb j k) eqn:E.
    - apply str_eqb_eq in E. split; [auto|discriminate].
    - rewrite IH. split; [auto|]. intros [->|H]; [rewrite str_eqb_refl in E; discriminate|exact H].
  Qed.
End Map.
