(** Finite maps with [N] keys as strictly sorted association lists: the model
    of Rust's [BTreeMap] (iteration in key order) and, where the iteration
    order does not matter, of [HashMap].  Nothing here models library code. *)
From Verif Require Import Base.
From Coq Require Export Sorting.Sorted.

Definition smap (V : Type) : Type := list (N * V).

Section SMap.
Context {V : Type}.
Implicit Types (m : smap V) (k : N) (v : V).

Fixpoint get k m : option V :=
  match m with [] => None | (j, v) :: r => if j =? k then Some v else get k r end.

Fixpoint ins k v m : smap V :=
  match m with
  | [] => [(k, v)]
  | (j, w) :: r => if k <? j then (k, v) :: m else if k =? j then (k, v) :: r else (j, w) :: ins k v r
  end.

Fixpoint del k m : smap V :=
  match m with [] => [] | (j, w) :: r => if j =? k then r else (j, w) :: del k r end.

Definition keys m : list N := map fst m.
Definition mem k m : bool := match get k m with Some _ => true | None => false end.

(** Strictly increasing keys. *)
Definition ok m : Prop := StronglySorted N.lt (keys m).

Lemma ok_nil : ok [].
Proof. constructor. Qed.

Lemma get_In k v m : get k m = Some v -> In (k, v) m.
Proof.
  induction m as [|[j w] m IH]; cbn [get]; [discriminate|].
  destruct (N.eqb_spec j k) as [->|]; [intros [= ->]; left; reflexivity|right; auto].
Qed.

Lemma get_keys k m : get k m <> None <-> In k (keys m).
Proof.
  induction m as [|[j w] m IH]; cbn [get keys map fst]; [split; [congruence|intros []]|].
  destruct (N.eqb_spec j k) as [->|Hne]; [split; [left; reflexivity|congruence]|].
  rewrite IH. split; [right; assumption|intros [|]; [congruence|assumption]].
Qed.

Lemma get_lt k m : Forall (N.lt k) (keys m) -> get k m = None.
Proof.
  induction m as [|[j w] m IH]; cbn [get keys map fst]; [reflexivity|].
  intros H; inversion H as [|? ? Hj Hr]; subst. destruct (N.eqb_spec j k); [lia|auto].
Qed.

Lemma In_get k v m : ok m -> In (k, v) m -> get k m = Some v.
Proof.
  induction m as [|[j w] m IH]; cbn [get In]; [intros _ []|].
  intros H. inversion H as [|? ? Hs Hf]; subst. intros [E|Hin].
  - injection E as -> ->. rewrite N.eqb_refl. reflexivity.
  - destruct (N.eqb_spec j k) as [->|]; [|apply IH; assumption].
    exfalso. rewrite Forall_forall in Hf. specialize (Hf k). cbn in Hf.
    assert (k < k) by (apply Hf; unfold keys; apply (in_map fst) in Hin; exact Hin). lia.
Qed.

Lemma get_ins k j v m : get k (ins j v m) = if j =? k then Some v else get k m.
Proof.
  induction m as [|[i w] m IH]; cbn [ins get].
  - reflexivity.
  - destruct (N.ltb_spec j i) as [Hlt|Hge]; cbn [get]; [reflexivity|].
    destruct (N.eqb_spec j i) as [->|Hne]; cbn [get].
    + destruct (N.eqb_spec i k); reflexivity.
    + rewrite IH. destruct (N.eqb_spec i k), (N.eqb_spec j k); subst; congruence.
Qed.

Lemma ins_keys_In k j v m : In k (keys (ins j v m)) <-> k = j \/ In k (keys m).
Proof.
  rewrite <- !get_keys, get_ins. destruct (N.eqb_spec j k) as [->|Hne].
  - split; [auto|congruence].
  - split; [auto|intros [->|]; congruence].
Qed.

Lemma ins_ok k v m : ok m -> ok (ins k v m).
Proof.
  unfold ok. induction m as [|[j w] m IH]; cbn [ins keys map fst]; intros H.
  - constructor; constructor.
  - inversion H as [|? ? Hs Hf]; subst.
    destruct (N.ltb_spec k j) as [Hlt|Hge].
    + cbn [keys map fst]. constructor; [assumption|]. constructor; [assumption|].
      eapply Forall_impl; [|exact Hf]. cbn. intros; lia.
    + destruct (N.eqb_spec k j) as [->|Hne]; cbn [keys map fst]; constructor; auto.
      rewrite Forall_forall in *. intros i Hi.
      apply (ins_keys_In i k v m) in Hi as [->|Hi]; [lia|apply Hf; exact Hi].
Qed.

Lemma del_keys_incl k j m : In k (keys (del j m)) -> In k (keys m).
Proof.
  induction m as [|[i w] m IH]; cbn [del keys map fst]; [auto|].
  destruct (N.eqb_spec i j); cbn [keys map fst In]; [right; assumption|intros [|]; auto].
Qed.

Lemma del_ok k m : ok m -> ok (del k m).
Proof.
  unfold ok. induction m as [|[j w] m IH]; cbn [del keys map fst]; intros H; [assumption|].
  inversion H as [|? ? Hs Hf]; subst.
  destruct (N.eqb_spec j k); [assumption|]. cbn [keys map fst]. constructor; auto.
  rewrite Forall_forall in *. intros i Hi. apply del_keys_incl in Hi. auto.
Qed.

Lemma get_del k j m : ok m -> get k (del j m) = if j =? k then None else get k m.
Proof.
  unfold ok. induction m as [|[i w] m IH]; cbn [del get keys map fst]; intros H.
  - destruct (j =? k); reflexivity.
  - inversion H as [|? ? Hs Hf]; subst.
    destruct (N.eqb_spec i j) as [->|Hne]; cbn [get].
    + destruct (N.eqb_spec j k) as [->|]; [apply get_lt; assumption|reflexivity].
    + rewrite IH by assumption. destruct (N.eqb_spec i k), (N.eqb_spec j k); subst; congruence.
Qed.

(** Sorted maps with the same lookups are equal. *)
Lemma smap_ext m m' : ok m -> ok m' -> (forall k, get k m = get k m') -> m = m'.
Proof.
  unfold ok. revert m'. induction m as [|[j w] m IH]; intros [|[j' w'] m'] H H' E.
  - reflexivity.
  - specialize (E j'). cbn in E. rewrite N.eqb_refl in E. discriminate.
  - specialize (E j). cbn in E. rewrite N.eqb_refl in E. discriminate.
  - inversion H as [|? ? Hs Hf]; subst. inversion H' as [|? ? Hs' Hf']; subst.
    assert (j = j') as ->.
    { destruct (N.lt_trichotomy j j') as [Hlt|[|Hgt]]; [|assumption|]; exfalso.
      - pose proof (E j) as Ej. cbn [get] in Ej. rewrite N.eqb_refl in Ej.
        destruct (N.eqb_spec j' j); [lia|]. rewrite (get_lt j m') in Ej; [discriminate|].
        eapply Forall_impl; [|exact Hf']. cbn. intros; lia.
      - pose proof (E j') as Ej. cbn [get] in Ej. rewrite N.eqb_refl in Ej.
        destruct (N.eqb_spec j j'); [lia|]. rewrite (get_lt j' m) in Ej; [discriminate|].
        eapply Forall_impl; [|exact Hf]. cbn. intros; lia. }
    pose proof (E j') as Ej. cbn [get] in Ej. rewrite N.eqb_refl in Ej. injection Ej as ->.
    f_equal. apply IH; [assumption|assumption|]. intros k. specialize (E k). cbn [get] in E.
    destruct (N.eqb_spec j' k) as [->|]; [|exact E]. rewrite !get_lt by assumption. reflexivity.
Qed.

Lemma mem_get k m : mem k m = true <-> exists v, get k m = Some v.
Proof. unfold mem. destruct (get k m); split; [eauto|reflexivity|discriminate|intros [v [=]]]. Qed.

End SMap.

(** Pointwise change of values. *)
Definition smap_map {V W} (f : N -> V -> W) (m : smap V) : smap W := map (fun p => (fst p, f (fst p) (snd p))) m.

Lemma get_smap_map {V W} (f : N -> V -> W) m k : get k (smap_map f m) = option_map (f k) (get k m).
Proof.
  induction m as [|[j v] m IH]; cbn; [reflexivity|]. destruct (N.eqb_spec j k) as [->|]; [reflexivity|exact IH].
Qed.

Lemma keys_smap_map {V W} (f : N -> V -> W) m : keys (smap_map f m) = keys m.
Proof. unfold keys, smap_map. rewrite map_map. reflexivity. Qed.

Lemma smap_map_ok {V W} (f : N -> V -> W) m : ok m -> ok (smap_map f m).
Proof. unfold ok. rewrite keys_smap_map. auto. Qed.
