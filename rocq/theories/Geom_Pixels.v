(** Exactness of the pixel conversions in binary64. *)
From Coq Require Import Reals Lra Psatz.
From Flocq Require Import Core IEEE754.BinarySingleNaN.
From Verif Require Import Base F64 F64_Proofs SMap Cells_Model Sheet_Model Geom_Model.
Local Open Scope R_scope.
Local Notation fexp := (SpecFloat.fexp 53 1024).

Lemma cmp_rep x y a b : frep x a -> frep y b -> SFcompare x y = Some (Rcompare a b).
Proof.
  intros (bx & -> & Hfx & <-) (by_ & -> & Hfy & <-). exact (Bcompare_correct 53 1024 bx by_ Hfx Hfy).
Qed.
Lemma quarter_format z : (Z.abs z <= 2 ^ 50)%Z -> generic_format radix2 fexp (IZR z / 4).
Proof.
  intros H. replace (IZR z / 4) with (F2R (Float radix2 z (-2))) by (unfold F2R; cbn; lra).
  apply generic_format_F2R. intros Hz. unfold cexp. rewrite mag_F2R by exact Hz.
  assert (Hm : (mag radix2 (IZR z) <= 51)%Z).
  { apply mag_le_bpow; [apply IZR_neq; exact Hz|]. rewrite <- abs_IZR. change (bpow radix2 51) with (IZR (2 ^ 51)). apply IZR_lt. lia. }
  unfold SpecFloat.fexp, SpecFloat.emin. lia.
Qed.
Lemma f_to_u32_int x z : frep x (IZR z) -> (0 <= z < 2 ^ 32)%Z -> f_to_u32 x = Z.to_N z.
Proof.
  intros F Hz. destruct (frep_SF2R _ _ F) as [E Fi]. destruct x as [s|s| |s m e]; try discriminate.
  - cbn in E. apply eq_IZR in E. subst z. reflexivity.
  - cbn in E. destruct s.
    + exfalso. assert (F2R (Float radix2 (Z.neg m) e) < 0) by (apply F2R_lt_0; reflexivity).
      assert (0 <= IZR z) by (apply IZR_le; lia). cbn in *. lra.
    + cbn [f_to_u32]. destruct (Z.leb_spec 0 e) as [He|He].
      * assert (X : (Z.pos m * 2 ^ e)%Z = z).
        { apply eq_IZR. rewrite mult_IZR, <- E. unfold F2R. cbn [Fnum Fexp]. f_equal.
          rewrite <- IZR_Zpower by exact He. reflexivity. }
        rewrite X. apply N.min_l. lia.
      * assert (X : (z * 2 ^ (- e))%Z = Z.pos m).
        { apply eq_IZR. rewrite mult_IZR, <- E. unfold F2R. cbn [Fnum Fexp].
          change (IZR (2 ^ - e)) with (IZR (Zpower radix2 (- e))). rewrite IZR_Zpower by lia.
          rewrite Rmult_assoc, <- bpow_plus. replace (e + - e)%Z with 0%Z by lia. cbn. lra. }
        rewrite <- X, Z.div_mul by (apply Z.pow_nonzero; lia). apply N.min_l. lia.
Qed.
Lemma three_quarters_rep : frep (f_dec 75 2) (3 / 4).
Proof.
  unfold f_dec. replace (3 / 4) with (rnd (75 / 100)).
  - apply (fdiv_rep _ _ 75 100 1); [apply (f_of_Z_rep 75)|change (10 ^ Z.of_N 2)%Z with 100%Z; apply (f_of_Z_rep 100)|lra|lia|]; try lia.
    rewrite Rabs_pos_eq by lra. change (bpow radix2 1) with 2. lra.
  - replace (75 / 100) with (IZR 3 / 4) by lra. apply round_generic; [typeclasses eauto|]. apply quarter_format. lia.
Qed.
Lemma pow_IZR k : (0 <= k)%Z -> bpow radix2 k = IZR (2 ^ k).
Proof. intros H. symmetry. exact (IZR_Zpower radix2 k H). Qed.
Lemma small_pow r z : 0 <= r <= IZR z -> (z <= 2 ^ 40)%Z -> Rabs r <= bpow radix2 40.
Proof. intros [H0 H] Hz. rewrite Rabs_pos_eq by exact H0. rewrite pow_IZR by lia. apply Rle_trans with (IZR z); [exact H|apply IZR_le; exact Hz]. Qed.

Lemma pixel_height p : (1 <= p < 65536)%N ->
  let h := fmul (f_dec 75 2) (f_of_N p) in
  feq h fzero = false /\ fle h fzero = false /\ height_pixels h = p /\ SFcompare (fmul h (f_of_N 4)) (f_of_N (3 * p)) = Some Eq.
Proof.
  intros Hp h. set (z := Z.of_N p). assert (Hz : (1 <= z < 65536)%Z) by lia.
  assert (Z0 : frep fzero 0) by exact (f_of_Z_rep 0 ltac:(lia)).
  assert (B : 1 <= IZR z < 65536) by (split; [apply IZR_le|apply IZR_lt]; lia).
  assert (H : frep h (IZR (3 * z) / 4)).
  { replace (IZR (3 * z) / 4) with (rnd (3 / 4 * IZR z)).
    - apply (fmul_rep _ _ _ _ 40); [exact three_quarters_rep|apply f_of_N_rep; lia|lia|]. apply (small_pow _ 65536); [|lia]. lra.
    - replace (3 / 4 * IZR z) with (IZR (3 * z) / 4) by (rewrite mult_IZR; lra). apply round_generic; [typeclasses eauto|]. apply quarter_format. lia. }
  assert (H4 : frep (fmul h (f_of_N 4)) (IZR (3 * z))).
  { replace (IZR (3 * z)) with (rnd (IZR (3 * z) / 4 * 4)).
    - apply (fmul_rep _ _ _ _ 40); [exact H|apply (f_of_N_rep 4); lia|lia|]. apply (small_pow _ 196608); [|lia].
      rewrite mult_IZR. lra.
    - replace (IZR (3 * z) / 4 * 4) with (IZR (3 * z)) by lra. apply rnd_int. lia. }
  assert (H3 : frep (fdiv (fmul h (f_of_N 4)) (f_of_N 3)) (IZR z)).
  { replace (IZR z) with (rnd (IZR (3 * z) / 3)).
    - apply (fdiv_rep _ _ _ _ 40); [exact H4|apply (f_of_N_rep 3); lia|lra|lia|]. apply (small_pow _ 65536); [|lia].
      rewrite mult_IZR. lra.
    - replace (IZR (3 * z) / 3) with (IZR z) by (rewrite mult_IZR; field). apply rnd_int. lia. }
  split; [|split; [|split]].
  - unfold feq, SFeqb. rewrite (cmp_rep _ _ _ _ H Z0), Rcompare_Gt; [reflexivity|]. rewrite mult_IZR. lra.
  - rewrite (fle_rep _ _ _ _ H Z0). apply Rle_bool_false. rewrite mult_IZR. lra.
  - unfold height_pixels. rewrite (f_to_u32_int _ _ H3) by lia. apply N2Z.id.
  - rewrite (cmp_rep _ _ _ _ H4 (f_of_N_rep (3 * p) ltac:(lia))), N2Z.inj_mul. fold z. rewrite Rcompare_Eq; reflexivity.
Qed.

Lemma eighth_format z : (Z.abs z <= 2 ^ 49)%Z -> generic_format radix2 fexp (IZR z / 8).
Proof.
  intros H. replace (IZR z / 8) with (F2R (Float radix2 z (-3))) by (unfold F2R; cbn; lra).
  apply generic_format_F2R. intros Hz. unfold cexp. rewrite mag_F2R by exact Hz.
  assert (Hm : (mag radix2 (IZR z) <= 50)%Z).
  { apply mag_le_bpow; [apply IZR_neq; exact Hz|]. rewrite <- abs_IZR. change (bpow radix2 50) with (IZR (2 ^ 50)). apply IZR_lt. lia. }
  unfold SpecFloat.fexp, SpecFloat.emin. lia.
Qed.
Lemma width_rep p : (12 <= p < 65536)%N -> frep (pixels_to_width p) (rnd ((IZR (Z.of_N p) - 5) / 7)).
Proof.
  intros Hp. set (z := Z.of_N p). assert (B : 12 <= IZR z < 65536) by (split; [apply IZR_le|apply IZR_lt]; lia).
  assert (P : frep (f_of_N p) (IZR z)) by (apply f_of_N_rep; lia).
  unfold pixels_to_width. cbv zeta. rewrite (flt_rep _ _ _ _ P (f_of_N_rep 12 ltac:(lia))), Rlt_bool_false by (cbn; lra).
  assert (Q : frep (fsub (f_of_N p) (f_of_N 5)) (IZR z - 5)).
  { replace (IZR z - 5) with (rnd (IZR z - IZR (Z.of_N 5))).
    - apply (fsub_rep _ _ _ _ 40); [exact P|apply f_of_N_rep; lia|lia|]. apply (small_pow _ 65536); [cbn; lra|lia].
    - rewrite <- minus_IZR, rnd_int by lia. rewrite minus_IZR. reflexivity. }
  apply (fdiv_rep _ _ _ _ 40); [exact Q|apply (f_of_N_rep 7); lia|lra|lia|]. apply (small_pow _ 65536); [lra|lia].
Qed.
Lemma pixels_large p : (1791 <= p < 65536)%N -> fgt (pixels_to_width p) (f_of_N 255) = true.
Proof.
  intros Hp. unfold fgt. rewrite (flt_rep _ _ _ _ (f_of_N_rep 255 ltac:(lia)) (width_rep p ltac:(lia))). apply Rlt_bool_true.
  apply Rlt_le_trans with (IZR 2041 / 8); [cbn; lra|]. apply round_ge_generic; [typeclasses eauto|typeclasses eauto|apply eighth_format; lia|].
  assert (1791 <= IZR (Z.of_N p)) by (apply IZR_le; lia). lra.
Qed.
