(** Widths of lines: to the nearest quarter of a point. *)
From Coq Require Import ZArith Reals Lia Lra SpecFloat.
From Flocq Require Import Core BinarySingleNaN.
From Verif Require Import Base F64 F64_Proofs Dml_Model.
Open Scope R_scope.

Lemma SF2R_fin s m e : SF2R radix2 (S754_finite s m e) = IZR (if s then Zneg m else Zpos m) * bpow radix2 e.
Proof. unfold SF2R, F2R. destruct s; reflexivity. Qed.
Lemma pow_neg (e : Z) : (e < 0)%Z -> bpow radix2 e = / IZR (2 ^ (- e)).
Proof. intros H. rewrite <- (Z.opp_involutive e) at 1. rewrite bpow_opp. f_equal. rewrite <- IZR_Zpower by lia. reflexivity. Qed.
Lemma floor_rep x r : frep x r -> floor_Z x = Zfloor r.
Proof.
  intros H. apply frep_SF2R in H as [E F]. subst r. destruct x as [s| | |s m e]; cbn [SF2R floor_Z]; try discriminate F.
  - symmetry. apply (Zfloor_IZR 0).
  - change (F2R _) with (SF2R radix2 (S754_finite s m e)). rewrite SF2R_fin. cbv zeta. destruct (Z.leb_spec 0 e).
    + rewrite <- IZR_Zpower, <- mult_IZR by lia. rewrite Zfloor_IZR. reflexivity.
    + rewrite pow_neg by lia. symmetry. apply Zfloor_div. apply Z.pow_nonzero; lia.
Qed.
Lemma ceil_rep x (z : Z) : frep x (IZR z) -> (0 <= z < 2 ^ 32)%Z -> Z.of_N (ceil_u32 x) = z.
Proof.
  intros H B. apply frep_SF2R in H as [E F]. change (2 ^ 32)%Z with 4294967296%Z in B. destruct x as [s| | |s m e]; try discriminate F; cbn [ceil_u32].
  - cbn in E. apply (eq_IZR 0) in E. subst z. reflexivity.
  - rewrite SF2R_fin in E. cbv zeta. set (y := if s then Zneg m else Zpos m) in *.
    assert (G : (if (0 <=? e)%Z then y * 2 ^ e else - ((- y) / 2 ^ (- e)))%Z = z).
    { destruct (Z.leb_spec 0 e).
      - rewrite <- IZR_Zpower, <- mult_IZR in E by lia. apply eq_IZR in E. exact E.
      - rewrite pow_neg in E by lia. assert (N0 : (2 ^ (- e) <> 0)%Z) by (apply Z.pow_nonzero; lia). assert (Ey : y = (z * 2 ^ (- e))%Z).
        { apply eq_IZR. rewrite mult_IZR. rewrite <- E. field. apply not_0_IZR. exact N0. }
        rewrite Ey. rewrite <- Z.mul_opp_l, Z.div_mul by exact N0. lia. }
    rewrite G. lia.
Qed.
Lemma quarter_format k : (Z.abs k < 2 ^ 53)%Z -> rnd (IZR k / 4) = IZR k / 4.
Proof.
  intros H. apply round_generic; [typeclasses eauto|]. apply (generic_format_FLT radix2 (-1074) 53).
  apply FLT_spec with (Float radix2 k (-2)); [unfold F2R; cbn; lra|exact H|cbn; lia].
Qed.

(** The width in EMUs is a whole number k of quarter points (3175 EMUs), and k is the nearest to the width, up to the
    rounding of the additions. *)
Lemma line_emus_quarters w r : frep w r -> 0 <= r <= 1584 -> exists k : N, line_emus w = (3175 * k)%N /\ Rabs (IZR (Z.of_N k) - 4 * r) <= 1 / 2 + bpow radix2 (-39).
Proof.
  intros H B. unfold line_emus.
  assert (He : frep (fdiv (f_of_N 1) (f_of_N 8)) (1 / 8)).
  { assert (G := fdiv_rep (f_of_N 1) (f_of_N 8) 1 8 0 (f_of_N_rep 1 ltac:(cbn; lia)) (f_of_N_rep 8 ltac:(cbn; lia)) ltac:(lra) ltac:(lia)).
    assert (R8 : rnd (1 / 8) = 1 / 8). { apply round_generic; [typeclasses eauto|]. replace (1 / 8) with (bpow radix2 (-3)) by (cbn; lra). apply generic_format_bpow. unfold SpecFloat.fexp, SpecFloat.emin. lia. }
    rewrite R8 in G. apply G. rewrite Rabs_pos_eq by lra. cbn. lra. }
  assert (Hs := fadd_rep w _ r (1 / 8) 11 H He ltac:(lia) ltac:(rewrite Rabs_pos_eq by lra; cbn; lra)).
  assert (Es := rnd_err (r + 1 / 8) 11 ltac:(lia) ltac:(rewrite Rabs_pos_eq by lra; cbn; lra)).
  set (s := rnd (r + 1 / 8)) in *. assert (Pow : 0 < bpow radix2 (-42) < / 1000) by (split; [apply bpow_gt_0|cbn; lra]).
  change (11 - 53)%Z with (-42)%Z in Es. apply Rabs_le_inv in Es.
  assert (Hp := fmul_rep _ (f_of_N 4) s 4 13 Hs (f_of_N_rep 4 ltac:(cbn; lia)) ltac:(lia) ltac:(rewrite Rabs_pos_eq by lra; cbn; lra)).
  assert (Ep := rnd_err (s * 4) 13 ltac:(lia) ltac:(rewrite Rabs_pos_eq by lra; cbn; lra)).
  set (p := rnd (s * 4)) in *. change (13 - 53)%Z with (-40)%Z in Ep. apply Rabs_le_inv in Ep.
  assert (P2 : bpow radix2 (-40) = 4 * bpow radix2 (-42)) by (cbn; lra). assert (P3 : bpow radix2 (-39) = 8 * bpow radix2 (-42)) by (cbn; lra).
  rewrite (floor_rep _ _ Hp). set (k := Zfloor p). assert (K1 : IZR k <= p) by apply Zfloor_lb. assert (K2 : p < IZR k + 1) by apply Zfloor_ub.
  assert (Kb : (0 <= k <= 6337)%Z).
  { split; [apply le_IZR; assert (-1 < IZR k) by lra; apply IZR_le; assert (-1 < k)%Z by (apply lt_IZR; lra); lia|]. apply le_IZR. lra. }
  assert (Hq : frep (fdiv (f_of_Z k) (f_of_N 4)) (IZR k / 4)).
  { assert (G := fdiv_rep (f_of_Z k) (f_of_N 4) (IZR k) 4 13 (f_of_Z_rep k ltac:(lia)) (f_of_N_rep 4 ltac:(cbn; lia)) ltac:(lra) ltac:(lia)).
    rewrite quarter_format in G by lia. apply G. assert (0 <= IZR k <= 6337) by (split; apply IZR_le; lia). rewrite Rabs_pos_eq by lra. cbn. lra. }
  assert (Hm : frep (fmul (f_of_N 12700) (fdiv (f_of_Z k) (f_of_N 4))) (IZR (3175 * k))).
  { assert (Ek : 12700 * (IZR k / 4) = IZR (3175 * k)) by (rewrite mult_IZR; lra).
    assert (G := fmul_rep (f_of_N 12700) _ 12700 (IZR k / 4) 31 (f_of_N_rep 12700 ltac:(cbn; lia)) Hq ltac:(lia)). rewrite Ek, rnd_int in G by lia. apply G.
    rewrite <- abs_IZR. change (bpow radix2 31) with (IZR (2 ^ 31)). apply IZR_le. change (2 ^ 31)%Z with 2147483648%Z. lia. }
  exists (Z.to_N k). split.
  - apply N2Z.inj. rewrite (ceil_rep _ _ Hm) by lia. lia.
  - rewrite Z2N.id by lia. apply Rabs_le. lra.
Qed.
(** A width that is a number of quarters is exactly that. *)
Lemma line_emus_exact w (k : N) : frep w (IZR (Z.of_N k) / 4) -> (k <= 6336)%N -> line_emus w = (3175 * k)%N.
Proof.
  intros H B. assert (0 <= IZR (Z.of_N k) <= 6336) by (split; apply IZR_le; lia). destruct (line_emus_quarters w _ H ltac:(lra)) as (j & E & D). rewrite E. do 1 f_equal.
  assert (Pow : bpow radix2 (-39) < / 1000) by (cbn; lra). apply Rabs_le_inv in D.
  assert (A1 : IZR (Z.of_N j) < IZR (Z.of_N k + 1)) by (rewrite plus_IZR; lra). assert (A2 : IZR (Z.of_N k - 1) < IZR (Z.of_N j)) by (rewrite minus_IZR; lra).
  apply lt_IZR in A1. apply lt_IZR in A2. lia.
Qed.
