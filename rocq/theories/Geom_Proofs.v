(** Lemmas about the positioning loops (C36).  The f64 part uses Flocq and thus
    the standard library's axioms of the real numbers. *)
From Coq Require Import Reals Lra Psatz.
From Flocq Require Import Core IEEE754.BinarySingleNaN.
From Verif Require Import Base F64 F64_Proofs SMap Fmt_Model Ref_Model Ref_Proofs Cells_Model Sheet_Model Geom_Model Geom_Spec.
Local Open Scope N_scope.

Lemma edge_succ size k : edge size (k + 1) = edge size k + size k.
Proof.
  unfold edge. replace (N.to_nat (k + 1)) with (S (N.to_nat k)) by lia.
  rewrite seq_S, map_app, fold_right_app. cbn [fold_right map Nat.add]. rewrite N2Nat.id, N.add_0_r.
  generalize (size k) as a. induction (seq 0 (N.to_nat k)) as [|i l IH]; intros a; cbn [map fold_right]; [lia|]. rewrite IH. lia.
Qed.
Lemma edge_0 size : edge size 0 = 0. Proof. reflexivity. Qed.

(** ** The u32 loops *)
Section U32.
Variables (next : N -> option N) (size : N -> N).
Hypothesis next_ok : forall c c', next c = Some c' -> c' = c + 1.
Lemma u32_walk_exact c x c' x' : u32_walk next size c x c' x' ->
  c <= c' /\ x' < size c' /\ edge size c' + x' = edge size c + x.
Proof.
  unfold u32_walk. induction 1 as [c x H|c x c1 c2 x2 H E W IH].
  - apply N.leb_gt in H. lia.
  - apply N.leb_le in H. apply next_ok in E. subst c1. rewrite edge_succ in IH. lia.
Qed.
End U32.

Lemma debug_next_col c c' : next_col Debug c = Some c' -> c' = c + 1.
Proof. unfold next_col, add16, wrapN. destruct (_ && _); [|discriminate]. intros [= <-]. lia. Qed.
Lemma debug_next_row c c' : next_row Debug c = Some c' -> c' = c + 1.
Proof. unfold next_row, add32, wrapN. destruct (_ && _); [|discriminate]. intros [= <-]. lia. Qed.
Lemma next_col_ok m c : c + 1 < 65536 -> next_col m c = Some (c + 1).
Proof.
  intros H. unfold next_col, add16, wrapN. change (2 ^ Z.of_N 16)%Z with 65536%Z.
  destruct (Z.leb_spec 0 (Z.of_N c + Z.of_N 1)); [|lia]. destruct (Z.ltb_spec (Z.of_N c + Z.of_N 1) 65536); [|lia].
  cbn [andb]. f_equal. lia.
Qed.
Lemma next_row_ok m c : c + 1 < 4294967296 -> next_row m c = Some (c + 1).
Proof. intros H. unfold next_row. apply add32_ok. exact H. Qed.

Lemma abs_loop_ok m size n : forall i acc, acc = edge size i -> edge size (i + N.of_nat n) < 4294967296 ->
  abs_loop m size i n acc = Some (edge size (i + N.of_nat n)).
Proof.
  induction n as [|n IH]; intros i acc E H; cbn [abs_loop].
  - rewrite N.add_0_r. congruence.
  - subst acc. assert (M : forall k, edge size (i + 1) <= edge size (i + 1 + k)).
    { intros k. induction k as [|k IHk] using N.peano_ind; [rewrite N.add_0_r; lia|].
      replace (i + 1 + N.succ k) with (i + 1 + k + 1) by lia. rewrite (edge_succ size (i + 1 + k)). lia. }
    specialize (M (N.of_nat n)). replace (i + 1 + N.of_nat n) with (i + N.of_nat (S n)) in M by lia.
    rewrite edge_succ in M. rewrite add32_ok by (change (2^32) with 4294967296; lia). cbn [obind].
    rewrite IH; [f_equal; f_equal; lia|rewrite edge_succ; reflexivity|].
    replace (i + 1 + N.of_nat n) with (i + N.of_nat (S n)) by lia. exact H.
Qed.
Lemma absolute_ok m size start off : edge size start + off < 4294967296 -> absolute m size start off = Some (edge size start + off).
Proof.
  intros H. unfold absolute. rewrite abs_loop_ok; [|reflexivity|rewrite N2Nat.id; cbn; lia].
  cbn [obind]. rewrite N2Nat.id, N.add_0_l. apply add32_ok. exact H.
Qed.
Lemma absolute_debug size start off v : absolute Debug size start off = Some v -> v = edge size start + off.
Proof.
  assert (A : forall a b c, add32 Debug a b = Some c -> c = a + b).
  { intros a b c. unfold add32, wrapN. destruct (_ && _); [|discriminate]. intros [= <-]. lia. }
  assert (L : forall n i acc v, acc = edge size i -> abs_loop Debug size i n acc = Some v -> v = edge size (i + N.of_nat n)).
  { induction n as [|n IH]; intros i acc u E; cbn [abs_loop].
    - intros [= <-]. rewrite N.add_0_r. exact E.
    - destruct (add32 Debug acc (size i)) as [a|] eqn:Ea; [|discriminate]. cbn [obind]. apply A in Ea. intros H.
      apply IH in H; [|rewrite edge_succ; congruence]. rewrite H. f_equal. lia. }
  unfold absolute. destruct (abs_loop Debug size 0 (N.to_nat start) 0) as [s|] eqn:E; [|discriminate]. cbn [obind].
  intros H. apply A in H. apply L in E; [|reflexivity]. rewrite N2Nat.id, N.add_0_l in E. congruence.
Qed.

(** ** Exactness of the f64 subtraction *)
Local Open Scope R_scope.
Lemma sub_format r n : generic_format radix2 (SpecFloat.fexp 53 1024) r -> IZR n <= r -> (0 <= n)%Z -> r < bpow radix2 53 ->
  generic_format radix2 (SpecFloat.fexp 53 1024) (r - IZR n).
Proof.
  intros Hf Hle Hn Hr. destruct (Req_dec (r - IZR n) 0) as [E|Hne].
  { rewrite E. apply generic_format_0. }
  assert (H0 : 0 <= IZR n) by (apply IZR_le; exact Hn).
  assert (Hpos : 0 < r - IZR n) by lra.
  set (fexp := SpecFloat.fexp 53 1024) in *.
  set (e := cexp radix2 fexp r).
  assert (He : (e <= 0)%Z).
  { unfold e, cexp, fexp, SpecFloat.fexp, SpecFloat.emin. assert (mag radix2 r <= 53)%Z; [|lia].
    apply mag_le_bpow; [lra|]. rewrite Rabs_pos_eq by lra. exact Hr. }
  rewrite Hf. fold e. set (mm := Ztrunc (scaled_mantissa radix2 fexp r)) in *.
  assert (Er : r = F2R (Float radix2 mm e)) by exact Hf.
  replace (F2R (Float radix2 mm e) - IZR n) with (F2R (Float radix2 (mm - n * 2 ^ (- e)) e)).
  2:{ unfold F2R. cbn [Fnum Fexp]. rewrite minus_IZR, mult_IZR.
      replace (IZR (2 ^ (- e))) with (bpow radix2 (- e)).
      2:{ rewrite <- IZR_Zpower by lia. reflexivity. }
      rewrite Rmult_minus_distr_r, Rmult_assoc, <- bpow_plus. replace (- e + e)%Z with 0%Z by lia. cbn [bpow]. lra. }
  apply generic_format_F2R. intros Hm.
  replace (F2R (Float radix2 (mm - n * 2 ^ (- e)) e)) with (r - IZR n).
  2:{ rewrite Er at 1. unfold F2R. cbn [Fnum Fexp]. rewrite minus_IZR, mult_IZR.
      replace (IZR (2 ^ (- e))) with (bpow radix2 (- e)).
      2:{ rewrite <- IZR_Zpower by lia. reflexivity. }
      rewrite Rmult_minus_distr_r, Rmult_assoc, <- bpow_plus. replace (- e + e)%Z with 0%Z by lia. cbn [bpow]. lra. }
  unfold e, cexp. assert (mag radix2 (r - IZR n) <= mag radix2 r)%Z by (apply mag_le; lra).
  unfold fexp, SpecFloat.fexp. lia.
Qed.

Lemma fsub_exact x r n : frep x r -> (Z.of_N n <= 2 ^ 53)%Z -> IZR (Z.of_N n) <= r -> r < bpow radix2 53 ->
  frep (fsub x (f_of_N n)) (r - IZR (Z.of_N n)).
Proof.
  intros Hx Hn Hle Hr. pose proof (f_of_N_rep n Hn) as Hy.
  assert (H0 : 0 <= IZR (Z.of_N n)) by (apply IZR_le; lia).
  pose proof (fsub_rep x (f_of_N n) r (IZR (Z.of_N n)) 53 Hx Hy ltac:(lia)) as H.
  assert (G : rnd (r - IZR (Z.of_N n)) = r - IZR (Z.of_N n)).
  { apply round_generic; [typeclasses eauto|]. apply sub_format; [|exact Hle|lia|exact Hr].
    destruct Hx as (b & _ & _ & <-). apply generic_format_B2R. }
  rewrite G in H. apply H. rewrite Rabs_pos_eq by lra. lra.
Qed.

(** ** The f64 loops *)
Section F64W.
Variables (next : N -> option N) (size : N -> N).
Hypothesis next_ok : forall c c', next c = Some c' -> c' = (c + 1)%N.
Hypothesis size_ok : forall c, (size c < 4294967301)%N.

Lemma reach_rep x r c : frep x r -> fge x (f_of_N (size c)) = Rle_bool (IZR (Z.of_N (size c))) r.
Proof. intros H. unfold fge. apply fle_rep; [|exact H]. apply f_of_N_rep. specialize (size_ok c). lia. Qed.

Lemma f64_walk_exact c x c' x' : f64_walk next size c x c' x' -> forall r, frep x r -> 0 <= r -> r < bpow radix2 53 ->
  (c <= c')%N /\ exists r', frep x' r' /\ 0 <= r' < IZR (Z.of_N (size c')) /\
  IZR (Z.of_N (edge size c')) + r' = IZR (Z.of_N (edge size c)) + r.
Proof.
  unfold f64_walk. induction 1 as [c x H|c x c1 c2 x2 H E W IH]; intros r Hx H0 Hr; rewrite (reach_rep _ r _ Hx) in H.
  - split; [lia|]. exists r. split; [exact Hx|]. split; [|reflexivity].
    destruct (Rle_bool_spec (IZR (Z.of_N (size c))) r); [discriminate|lra].
  - destruct (Rle_bool_spec (IZR (Z.of_N (size c))) r) as [Hs|]; [|discriminate].
    assert (H1 : 0 <= IZR (Z.of_N (size c))) by (apply IZR_le; lia).
    apply next_ok in E. subst c1.
    destruct (IH (r - IZR (Z.of_N (size c)))) as (Hc & r' & A & B & C).
    + apply fsub_exact; auto. specialize (size_ok c). lia.
    + lra.
    + lra.
    + split; [lia|]. exists r'. split; [exact A|]. split; [exact B|]. rewrite edge_succ, N2Z.inj_add, plus_IZR in C. lra.
Qed.
End F64W.
