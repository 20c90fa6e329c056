(** A wider column is not fewer pixels wide. *)
From Coq Require Import Reals Lra Psatz.
From Flocq Require Import Core IEEE754.BinarySingleNaN.
From Verif Require Import Base F64 F64_Proofs SMap Cells_Model Sheet_Model Geom_Model Geom_Pixels.
Local Open Scope R_scope.

Lemma rnd_mono a b : a <= b -> rnd a <= rnd b.
Proof. intros H. apply round_le; [typeclasses eauto|typeclasses eauto|exact H]. Qed.

(** Rounding to the nearest integer and taking it as an unsigned integer. *)
Lemma fround_u32 x r : frep x r -> 0 <= r < 2147483648 -> exists z, (0 <= z < 2 ^ 32)%Z /\ f_to_u32 (fround x) = Z.to_N z /\ IZR z - /2 <= r < IZR z + /2.
Proof.
  intros F Hr. destruct F as (b & -> & Hf & Hv). destruct b as [s|s| |s m e Hb]; cbn [BinarySingleNaN.is_finite] in Hf; try discriminate.
  - cbn in Hv. subst r. exists 0%Z. cbn [B2SF fround f_to_u32]. split; [lia|]. split; [reflexivity|]. lra.
  - cbn [B2R] in Hv. assert (s = false).
    { destruct s; [exfalso|reflexivity]. assert (F2R (Float radix2 (cond_Zopp true (Z.pos m)) e) < 0) by (apply F2R_lt_0; reflexivity). lra. }
    subst s. cbn [cond_Zopp] in Hv. cbn [B2SF fround]. destruct (Z.leb_spec 0 e) as [He|He].
    + exists (Z.pos m * 2 ^ e)%Z. assert (E : IZR (Z.pos m * 2 ^ e) = r) by (rewrite mult_IZR, <- Hv; unfold F2R; cbn [Fnum Fexp]; f_equal; rewrite <- IZR_Zpower by exact He; reflexivity).
      assert (B : (Z.pos m * 2 ^ e < 2147483648)%Z) by (apply lt_IZR; rewrite E; lra). assert (P : (0 < 2 ^ e)%Z) by (apply Z.pow_pos_nonneg; lia).
      split; [split; [lia|change (2 ^ 32)%Z with 4294967296%Z; lia]|]. split; [|rewrite E; lra]. cbn [f_to_u32]. destruct (Z.leb_spec 0 e); [|lia]. apply N.min_l. lia.
    + set (k := (- e)%Z) in *. assert (P : (0 < 2 ^ (k - 1))%Z) by (apply Z.pow_pos_nonneg; lia). assert (P2 : (2 ^ k = 2 * 2 ^ (k - 1))%Z) by (rewrite <- Z.pow_succ_r by lia; f_equal; lia).
      assert (Er : r * IZR (2 ^ k) = IZR (Z.pos m)).
      { rewrite <- Hv. unfold F2R. cbn [Fnum Fexp]. change (IZR (2 ^ k)) with (IZR (Zpower radix2 k)). rewrite IZR_Zpower by lia. rewrite Rmult_assoc, <- bpow_plus. replace (e + k)%Z with 0%Z by lia. cbn. lra. }
      set (q := (2 ^ (k - 1))%Z) in *. assert (Q : (0 < 2 * q)%Z) by lia. rewrite P2 in Er |- *. set (z := ((Z.pos m + q) / (2 * q))%Z).
      pose proof (Z.mul_div_le (Z.pos m + q) (2 * q) Q) as D1. pose proof (Z.mul_succ_div_gt (Z.pos m + q) (2 * q) Q) as D2. fold z in D1, D2.
      assert (Z0 : (0 <= z)%Z) by (apply Z.div_pos; lia).
      assert (R0 : 0 < IZR q) by (apply IZR_lt; lia). rewrite mult_IZR in Er.
      assert (B1 : IZR z - /2 <= r).
      { apply Rmult_le_reg_r with (2 * IZR q); [lra|]. apply IZR_le in D1. rewrite mult_IZR, mult_IZR, plus_IZR in D1. replace (r * (2 * IZR q)) with (IZR (Z.pos m)) by (rewrite <- Er; ring). replace ((IZR z - /2) * (2 * IZR q)) with (2 * IZR q * IZR z - IZR q) by field. lra. }
      assert (B2 : r < IZR z + /2).
      { apply Rmult_lt_reg_r with (2 * IZR q); [lra|]. apply IZR_lt in D2. unfold Z.succ in D2. rewrite mult_IZR, mult_IZR, !plus_IZR in D2. replace (r * (2 * IZR q)) with (IZR (Z.pos m)) by (rewrite <- Er; ring). replace ((IZR z + /2) * (2 * IZR q)) with (2 * IZR q * (IZR z + 1) - IZR q) by field. lra. }
      assert (B3 : (z < 2 ^ 32)%Z) by (change (2 ^ 32)%Z with 4294967296%Z; apply lt_IZR; lra).
      exists z. split; [lia|]. split; [|split; assumption]. destruct (Z.eqb_spec z 0) as [->|Nz]; [reflexivity|].
      apply f_to_u32_int; [|lia]. apply f_of_Z_rep. change (2 ^ 32)%Z with 4294967296%Z in B3. change (2 ^ 53)%Z with 9007199254740992%Z. lia.
Qed.
Lemma fround_mono x y a b : frep x a -> frep y b -> 0 <= a <= b -> b < 2147483648 -> (f_to_u32 (fround x) <= f_to_u32 (fround y))%N.
Proof.
  intros X Y H Hb. destruct (fround_u32 _ _ X ltac:(lra)) as (z & Hz & -> & A). destruct (fround_u32 _ _ Y ltac:(lra)) as (t & Ht & -> & B).
  assert ((z <= t)%Z); [|lia]. assert (z < t + 1)%Z; [|lia]. apply lt_IZR. rewrite plus_IZR. lra.
Qed.

Lemma twelve_rep : frep (fadd (f_of_N 7) (f_of_N 5)) 12.
Proof.
  change (fadd (f_of_N 7) (f_of_N 5)) with (f_of_N 12). exact (f_of_N_rep 12 ltac:(lia)).
Qed.
Lemma times_rep x a k (n : Z) : frep x a -> frep k (IZR n) -> 0 <= a <= 255 -> (0 <= n <= 12)%Z -> frep (fmul x k) (rnd (a * IZR n)) /\ 0 <= rnd (a * IZR n) <= 3060.
Proof.
  intros X K A H. assert (R : 0 <= IZR n <= 12) by (split; apply IZR_le; lia). assert (B : 0 <= a * IZR n <= 3060) by nra. split.
  - apply (fmul_rep _ _ _ _ 40); [exact X|exact K|lia|]. apply (small_pow _ 3060); [exact B|lia].
  - rewrite <- (rnd_int 0) by lia. rewrite <- (rnd_int 3060) by lia. split; apply rnd_mono; apply B.
Qed.

Lemma width_pixels_mono x y a b : frep x a -> frep y b -> 0 <= a <= b -> b <= 255 -> (width_pixels x <= width_pixels y)%N.
Proof.
  intros X Y A B. unfold width_pixels.
  rewrite (flt_rep _ _ _ _ X (f_of_N_rep 1 ltac:(lia))), (flt_rep _ _ _ _ Y (f_of_N_rep 1 ltac:(lia))). change (IZR (Z.of_N 1)) with 1.
  destruct (times_rep x a _ 12 X twelve_rep ltac:(lra) ltac:(lia)) as [X12 X12b]. destruct (times_rep y b _ 12 Y twelve_rep ltac:(lra) ltac:(lia)) as [Y12 Y12b].
  destruct (times_rep x a _ 7 X (f_of_N_rep 7 ltac:(lia)) ltac:(lra) ltac:(lia)) as [X7 X7b]. destruct (times_rep y b _ 7 Y (f_of_N_rep 7 ltac:(lia)) ltac:(lra) ltac:(lia)) as [Y7 Y7b].
  destruct (Rlt_bool_spec a 1) as [Ha|Ha], (Rlt_bool_spec b 1) as [Hb|Hb]; try lra.
  - apply (fround_mono _ _ _ _ X12 Y12); [|lra]. split; [lra|]. apply rnd_mono. nra.
  - assert (L : (f_to_u32 (fround (fmul x (fadd (f_of_N 7) (f_of_N 5)))) <= 12)%N).
    { destruct (fround_u32 _ _ X12 ltac:(lra)) as (z & Hz & -> & Q). assert (rnd (a * 12) <= 12) by (rewrite <- (rnd_int 12) at 2 by lia; apply rnd_mono; lra). assert (z < 13)%Z; [|lia]. apply lt_IZR. lra. }
    assert (G : (7 <= f_to_u32 (fround (fmul y (f_of_N 7))))%N).
    { destruct (fround_u32 _ _ Y7 ltac:(lra)) as (z & Hz & -> & Q). assert (7 <= rnd (b * 7)) by (rewrite <- (rnd_int 7) at 1 by lia; apply rnd_mono; lra). assert (6 < z)%Z; [|lia]. apply lt_IZR. lra. }
    lia.
  - apply N.add_le_mono_r. apply (fround_mono _ _ _ _ X7 Y7); [|lra]. split; [lra|]. apply rnd_mono. nra.
Qed.

(** The widths of whole pixels. *)
Lemma small_width_rep p : (1 <= p < 12)%N -> frep (pixels_to_width p) (rnd (IZR (Z.of_N p) / 12)).
Proof.
  intros Hp. assert (P : frep (f_of_N p) (IZR (Z.of_N p))) by (apply f_of_N_rep; lia). assert (B : 1 <= IZR (Z.of_N p) < 12) by (split; [apply IZR_le|apply IZR_lt]; lia).
  unfold pixels_to_width. cbv zeta. rewrite (flt_rep _ _ _ _ P (f_of_N_rep 12 ltac:(lia))), Rlt_bool_true by (change (IZR (Z.of_N 12)) with 12; lra).
  apply (fdiv_rep _ _ _ _ 40); [exact P|exact twelve_rep|lra|lia|]. apply (small_pow _ 12); [lra|lia].
Qed.
Lemma pixels_rep p : (1 <= p <= 1790)%N -> exists a, frep (pixels_to_width p) a /\ 0 <= a <= 255.
Proof.
  intros Hp. destruct (N.lt_ge_cases p 12) as [H|H].
  - eexists. split; [apply small_width_rep; lia|]. assert (B : 1 <= IZR (Z.of_N p) < 12) by (split; [apply IZR_le|apply IZR_lt]; lia).
    rewrite <- (rnd_int 0) by lia. rewrite <- (rnd_int 255) by lia. split; apply rnd_mono; lra.
  - eexists. split; [apply width_rep; lia|]. assert (B : 12 <= IZR (Z.of_N p) <= 1790) by (split; apply IZR_le; lia).
    rewrite <- (rnd_int 0) by lia. rewrite <- (rnd_int 255) by lia. split; apply rnd_mono; lra.
Qed.
(** A number of the f64 type that is not NaN and at most 255 is -infinity or a real number. *)
Definition f64_ok (x : f64) : Prop := valid_binary 53 1024 x = true.
Lemma width_at_least p u : (1 <= p <= 1790)%N -> f64_ok u -> F64.is_nan u = false -> fgt u (f_of_N 255) = false -> fgt (pixels_to_width p) u = false -> width_pixels (pixels_to_width p) = p -> (p <= width_pixels u)%N.
Proof.
  intros Hp V Nn L G E. destruct (pixels_rep p Hp) as (a & A & Ba). unfold fgt in *.
  assert (U : exists b, frep u b).
  { destruct u as [s|s| |s m e]; try discriminate.
    - exists 0. exists (B754_zero s). auto.
    - destruct s; [exfalso|discriminate L]. destruct A as (bf & Eb & Hf & _). rewrite Eb in G. destruct bf as [s|s| |s m e He]; try discriminate Hf; destruct s; discriminate G.
    - eexists. exists (B754_finite s m e V). repeat split. }
  destruct U as [b B]. rewrite (flt_rep _ _ _ _ B A) in G. rewrite (flt_rep _ _ _ _ (f_of_N_rep 255 ltac:(lia)) B) in L.
  destruct (Rlt_bool_spec b a) as [|G']; [discriminate|]. destruct (Rlt_bool_spec (IZR (Z.of_N 255)) b) as [|L']; [discriminate|]. change (IZR (Z.of_N 255)) with 255 in L'.
  rewrite <- E at 1. apply (width_pixels_mono _ _ _ _ A B); lra.
Qed.
