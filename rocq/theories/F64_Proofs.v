(** Bridge from the executable [SpecFloat] semantics to real numbers, through
    Flocq's [BinarySingleNaN].  Theorems that use this file depend on the
    standard library's axioms for the real numbers. *)
From Coq Require Import Reals Lra Psatz.
From Flocq Require Import Core Relative IEEE754.BinarySingleNaN.
From Verif Require Import Base F64.
Local Open Scope Z_scope.

Local Notation prec := 53.
Local Notation emax := 1024.
Lemma Hprec : FLX.Prec_gt_0 prec. Proof. reflexivity. Qed.
Lemma Hmax : Prec_lt_emax prec emax. Proof. reflexivity. Qed.
Global Existing Instance Hprec.
Global Existing Instance Hmax.
Local Notation fexp := (SpecFloat.fexp prec emax).
Notation rnd := (round radix2 (SpecFloat.fexp 53 1024) (round_mode mode_NE)).

Lemma round_nearest_even_eq s m l : round_nearest_even m l = choice_mode mode_NE s m l.
Proof. case l; [reflexivity|intro c]. case c; [|reflexivity..]. now simpl; unfold Round.cond_incr; case Z.even. Qed.

Lemma binary_round_aux_eq sx mx ex lx :
  SpecFloat.binary_round_aux prec emax sx mx ex lx = BinarySingleNaN.binary_round_aux prec emax mode_NE sx mx ex lx.
Proof.
  unfold SpecFloat.binary_round_aux, BinarySingleNaN.binary_round_aux.
  set (mrse' := shr_fexp _ _ _ _ _). case mrse'; intros mrs' e'; simpl. now rewrite (round_nearest_even_eq sx).
Qed.

Lemma binary_round_eq s m e :
  SpecFloat.binary_round prec emax s m e = BinarySingleNaN.binary_round prec emax mode_NE s m e.
Proof.
  unfold SpecFloat.binary_round, BinarySingleNaN.binary_round, shl_align_fexp.
  set (mez := shl_align _ _ _); case mez as [mz ez]. apply binary_round_aux_eq.
Qed.

Lemma binary_normalize_eq m e sz :
  SpecFloat.binary_normalize prec emax m e sz
  = B2SF (BinarySingleNaN.binary_normalize prec emax Hprec Hmax mode_NE m e sz).
Proof. case m as [|p|p]; [now simpl| |]; simpl; rewrite B2SF_SF2B; apply binary_round_eq. Qed.

Lemma fadd_B (x y : binary_float prec emax) : fadd (B2SF x) (B2SF y) = B2SF (Bplus mode_NE x y).
Proof.
  destruct x as [sx|sx| |sx mx ex Bx]; destruct y as [sy|sy| |sy my ey By];
  [now (trivial || simpl; case Bool.eqb)..|]. apply binary_normalize_eq.
Qed.
Lemma fsub_B (x y : binary_float prec emax) : fsub (B2SF x) (B2SF y) = B2SF (Bminus mode_NE x y).
Proof.
  destruct x as [sx|sx| |sx mx ex Bx]; destruct y as [sy|sy| |sy my ey By];
  [now (trivial || simpl; case Bool.eqb)..|]. unfold fsub. simpl. unfold Zminus. rewrite <- cond_Zopp_negb. apply binary_normalize_eq.
Qed.
Lemma fmul_B (x y : binary_float prec emax) : fmul (B2SF x) (B2SF y) = B2SF (Bmult mode_NE x y).
Proof.
  destruct x as [sx|sx| |sx mx ex Bx]; destruct y as [sy|sy| |sy my ey By]; [now trivial..|].
  unfold fmul. simpl. rewrite B2SF_SF2B. apply binary_round_aux_eq.
Qed.
Lemma fdiv_B (x y : binary_float prec emax) : fdiv (B2SF x) (B2SF y) = B2SF (Bdiv mode_NE x y).
Proof.
  destruct x as [sx|sx| |sx mx ex Bx]; destruct y as [sy|sy| |sy my ey By];
  [now (trivial || simpl; case Bool.eqb)..|].
  unfold fdiv. simpl. rewrite B2SF_SF2B.
  set (melz := SFdiv_core_binary _ _ _ _ _ _). case melz as [[mz ez] lz]. apply binary_round_aux_eq.
Qed.

(** [frep x r]: the float [x] is finite with real value [r]. *)
Definition frep (x : f64) (r : R) : Prop :=
  exists b : binary_float prec emax, x = B2SF b /\ BinarySingleNaN.is_finite b = true /\ B2R b = r.

Lemma frep_SF2R x r : frep x r -> SF2R radix2 x = r /\ F64.is_finite x = true.
Proof. intros (b & -> & Hf & <-). split; [apply SF2R_B2SF|]. destruct b; cbn in *; congruence. Qed.

Lemma frep_rnd x r : frep x r -> rnd r = r.
Proof. intros (b & _ & _ & <-). apply round_generic; [typeclasses eauto|]. apply generic_format_B2R. Qed.

Lemma rnd_abs_lt r e : (e <= emax - 1)%Z -> (Rabs r <= bpow radix2 e)%R -> (-1000 <= e)%Z -> Rlt_bool (Rabs (rnd r)) (bpow radix2 emax) = true.
Proof.
  intros He Hr Hl. apply Rlt_bool_true. apply Rle_lt_trans with (bpow radix2 e).
  - apply abs_round_le_generic; [typeclasses eauto|typeclasses eauto| |assumption].
    apply generic_format_bpow. unfold fexp, SpecFloat.emin. lia.
  - apply bpow_lt. lia.
Qed.

Lemma fadd_rep x y a b e : frep x a -> frep y b -> (-1000 <= e <= 1023)%Z -> (Rabs (a + b) <= bpow radix2 e)%R -> frep (fadd x y) (rnd (a + b)).
Proof.
  intros (bx & -> & Hfx & <-) (by_ & -> & Hfy & <-) He Hr. rewrite fadd_B.
  pose proof (Bplus_correct prec emax Hprec Hmax mode_NE bx by_ Hfx Hfy) as HC.
  rewrite (rnd_abs_lt _ e) in HC by (auto; lia). destruct HC as (H1 & H2 & _).
  eexists; split; [reflexivity|]. split; assumption.
Qed.
Lemma fsub_rep x y a b e : frep x a -> frep y b -> (-1000 <= e <= 1023)%Z -> (Rabs (a - b) <= bpow radix2 e)%R -> frep (fsub x y) (rnd (a - b)).
Proof.
  intros (bx & -> & Hfx & <-) (by_ & -> & Hfy & <-) He Hr. rewrite fsub_B.
  pose proof (Bminus_correct prec emax Hprec Hmax mode_NE bx by_ Hfx Hfy) as HC.
  rewrite (rnd_abs_lt _ e) in HC by (auto; lia). destruct HC as (H1 & H2 & _).
  eexists; split; [reflexivity|]. split; assumption.
Qed.
Lemma fmul_rep x y a b e : frep x a -> frep y b -> (-1000 <= e <= 1023)%Z -> (Rabs (a * b) <= bpow radix2 e)%R -> frep (fmul x y) (rnd (a * b)).
Proof.
  intros (bx & -> & Hfx & <-) (by_ & -> & Hfy & <-) He Hr. rewrite fmul_B.
  pose proof (Bmult_correct prec emax Hprec Hmax mode_NE bx by_) as HC.
  rewrite (rnd_abs_lt _ e) in HC by (auto; lia). destruct HC as (H1 & H2 & _).
  eexists; split; [reflexivity|]. split; [|assumption]. rewrite H2, Hfx, Hfy. reflexivity.
Qed.
Lemma fdiv_rep x y a b e : frep x a -> frep y b -> (b <> 0)%R -> (-1000 <= e <= 1023)%Z -> (Rabs (a / b) <= bpow radix2 e)%R -> frep (fdiv x y) (rnd (a / b)).
Proof.
  intros (bx & -> & Hfx & <-) (by_ & -> & Hfy & <-) Hb He Hr. rewrite fdiv_B.
  pose proof (Bdiv_correct prec emax Hprec Hmax mode_NE bx by_ Hb) as HC.
  rewrite (rnd_abs_lt _ e) in HC by (auto; lia). destruct HC as (H1 & H2 & _).
  eexists; split; [reflexivity|]. split; [|assumption]. rewrite H2. assumption.
Qed.

Lemma int_format z : (Z.abs z <= 2 ^ 53)%Z -> generic_format radix2 fexp (IZR z).
Proof.
  intros Hz. destruct (Z.eq_dec (Z.abs z) (2 ^ 53)) as [E|Hne].
  - assert (E' : z = 2 ^ 53 \/ z = - (2 ^ 53)) by lia. destruct E' as [-> | ->].
    + change (IZR (2 ^ 53)) with (bpow radix2 53). apply generic_format_bpow. unfold fexp, SpecFloat.emin; lia.
    + rewrite opp_IZR. apply generic_format_opp. change (IZR (2 ^ 53)) with (bpow radix2 53). apply generic_format_bpow. unfold fexp, SpecFloat.emin; lia.
  - replace (IZR z) with (F2R (Float radix2 z 0)) by (unfold F2R; simpl; ring).
    apply generic_format_F2R. intros Hz0. unfold cexp, fexp, SpecFloat.emin.
    assert (mag radix2 (F2R (Float radix2 z 0)) <= 53)%Z; [|lia].
    apply mag_le_bpow; [apply F2R_neq_0; exact Hz0|].
    unfold F2R; simpl. rewrite Rmult_1_r, <- abs_IZR. change (IZR (Z.pow_pos 2 53)) with (IZR (2 ^ 53)). apply IZR_lt. lia.
Qed.
Lemma rnd_int z : (Z.abs z <= 2 ^ 53)%Z -> rnd (IZR z) = IZR z.
Proof. intros H. apply round_generic; [typeclasses eauto|]. apply int_format; assumption. Qed.

Lemma f_of_Z_rep z : (Z.abs z <= 2 ^ 53)%Z -> frep (f_of_Z z) (IZR z).
Proof.
  intros Hz. unfold f_of_Z. rewrite binary_normalize_eq.
  pose proof (binary_normalize_correct prec emax Hprec Hmax mode_NE z 0 false) as HC. cbv zeta in HC.
  replace (F2R (Float radix2 z 0)) with (IZR z) in HC by (unfold F2R; simpl; ring).
  assert (Hle : (Rabs (IZR z) <= bpow radix2 53)%R).
  { rewrite <- abs_IZR. change (bpow radix2 53) with (IZR (2 ^ 53)). apply IZR_le. assumption. }
  rewrite (rnd_abs_lt _ 53) in HC by (auto; lia). destruct HC as (H1 & H2 & _).
  eexists; split; [reflexivity|]. split; [assumption|]. rewrite H1. apply rnd_int; assumption.
Qed.

Lemma f_of_N_rep n : (Z.of_N n <= 2 ^ 53)%Z -> frep (f_of_N n) (IZR (Z.of_N n)).
Proof. intros H. apply f_of_Z_rep. lia. Qed.

Lemma flt_rep x y a b : frep x a -> frep y b -> flt x y = Rlt_bool a b.
Proof.
  intros (bx & -> & Hfx & <-) (by_ & -> & Hfy & <-). unfold flt.
  change (SFltb (B2SF bx) (B2SF by_)) with (Bltb bx by_). apply Bltb_correct; assumption.
Qed.
Lemma fle_rep x y a b : frep x a -> frep y b -> fle x y = Rle_bool a b.
Proof.
  intros (bx & -> & Hfx & <-) (by_ & -> & Hfy & <-). unfold fle.
  change (SFleb (B2SF bx) (B2SF by_)) with (Bleb bx by_). apply Bleb_correct; assumption.
Qed.

(** Absolute rounding error of a value bounded by a power of two. *)
Lemma rnd_err r e : (-1000 <= e)%Z -> (Rabs r <= bpow radix2 e)%R ->
  (Rabs (rnd r - r) <= bpow radix2 (e - 53))%R.
Proof.
  intros He Hr.
  apply Rle_trans with (/ 2 * ulp radix2 fexp r)%R.
  - apply error_le_half_ulp. typeclasses eauto.
  - apply Rle_trans with (/ 2 * ulp radix2 fexp (bpow radix2 e))%R.
    + apply Rmult_le_compat_l; [lra|]. apply ulp_le; [typeclasses eauto|typeclasses eauto|].
      rewrite (Rabs_pos_eq (bpow radix2 e)) by apply bpow_ge_0. exact Hr.
    + rewrite ulp_bpow. unfold fexp, SpecFloat.emin. replace (Z.max (e + 1 - 53) (3 - 1024 - 53)) with (e + 1 - 53)%Z by lia.
      replace (e + 1 - 53)%Z with (e - 53 + 1)%Z by lia. rewrite bpow_plus. simpl (bpow radix2 1). lra.
Qed.
