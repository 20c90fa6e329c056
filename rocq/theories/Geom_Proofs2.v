(** Existence, uniqueness and termination of the positioning loops (C36). *)
From Coq Require Import Reals Lra Psatz.
From Flocq Require Import Core IEEE754.BinarySingleNaN.
From Verif Require Import Base F64 F64_Proofs SMap Fmt_Model Ref_Model Ref_Proofs Cells_Model Sheet_Model Geom_Model Geom_Spec Geom_Proofs.
Local Open Scope N_scope.

(** [next] below a limit. *)
Definition guarded (limit : N) (c : N) : option N := if c + 1 <? limit then Some (c + 1) else None.
Lemma guarded_ok limit c c' : guarded limit c = Some c' -> c' = c + 1.
Proof. unfold guarded. destruct (_ <? _); congruence. Qed.

Lemma walk_mono {A} (n1 n2 : N -> option N) (reaches : A -> N -> bool) minus size c x c' x' :
  (forall k k', n1 k = Some k' -> n2 k = Some k') ->
  walk n1 reaches minus size c x c' x' -> walk n2 reaches minus size c x c' x'.
Proof. intros H W. induction W; [constructor; assumption|econstructor; eauto]. Qed.

Lemma walk_det {A} (next : N -> option N) (reaches : A -> N -> bool) minus size c x c' x' c'' x'' :
  walk next reaches minus size c x c' x' -> walk next reaches minus size c x c'' x'' -> c' = c'' /\ x' = x''.
Proof.
  intros W. revert c'' x''. induction W as [c x H|c x c1 c2 x2 H E W IH]; intros c'' x'' V; inversion V; subst; try congruence.
  - auto.
  - apply IH. congruence.
Qed.

Lemma guarded_col m k k' : guarded 65536 k = Some k' -> next_col m k = Some k'.
Proof. unfold guarded. destruct (N.ltb_spec (k + 1) 65536) as [H|]; [|discriminate]. intros [= <-]. apply next_col_ok, H. Qed.
Lemma guarded_row m k k' : guarded 4294967296 k = Some k' -> next_row m k = Some k'.
Proof. unfold guarded. destruct (N.ltb_spec (k + 1) 4294967296) as [H|]; [|discriminate]. intros [= <-]. apply next_row_ok, H. Qed.

Section Exists.
Variables (limit L D : N) (size : N -> N).
Hypothesis HD : 1 <= D.
Hypothesis tail : forall c, L <= c -> size c = D.

Lemma u32_exists k : forall n c x, (N.to_nat (L - c) + N.to_nat n)%nat = k -> x < D * (n + 1) -> N.max c L + n + 1 < limit ->
  exists c' x', u32_walk (guarded limit) size c x c' x' /\ c' <= N.max c L + n.
Proof.
  unfold u32_walk. induction k as [k IH] using (well_founded_induction Wf_nat.lt_wf). intros n c x Hk Hx Hl.
  destruct (N.leb_spec (size c) x) as [Hs|Hs].
  2:{ exists c, x. split; [constructor; apply N.leb_gt; exact Hs|lia]. }
  assert (Hg : guarded limit c = Some (c + 1)).
  { unfold guarded. destruct (N.ltb_spec (c + 1) limit); [reflexivity|lia]. }
  destruct (N.lt_ge_cases c L) as [Hc|Hc].
  - destruct (IH (N.to_nat (L - (c + 1)) + N.to_nat n)%nat ltac:(lia) n (c + 1) (x - size c) eq_refl ltac:(lia) ltac:(lia)) as (c' & x' & W & B).
    exists c', x'. split; [|lia]. econstructor; [apply N.leb_le; exact Hs|exact Hg|exact W].
  - rewrite (tail c Hc) in Hs. assert (Hn : 1 <= n) by (destruct (N.eq_dec n 0) as [->|]; lia).
    destruct (IH (N.to_nat (L - (c + 1)) + N.to_nat (n - 1))%nat ltac:(lia) (n - 1) (c + 1) (x - D) eq_refl ltac:(nia) ltac:(lia)) as (c' & x' & W & B).
    exists c', x'. split; [|lia]. econstructor; [apply N.leb_le; rewrite (tail c Hc); exact Hs|exact Hg|]. rewrite (tail c Hc). exact W.
Qed.

Hypothesis size_ok : forall c, size c < 4294967301.
Local Open Scope R_scope.
Lemma f64_exists k : forall n c x r, (N.to_nat (L - c) + N.to_nat n)%nat = k -> frep x r -> 0 <= r -> r < bpow radix2 53 ->
  r < IZR (Z.of_N (D * (n + 1))) -> (N.max c L + n + 1 < limit)%N ->
  exists c' x', f64_walk (guarded limit) size c x c' x' /\ (c' <= N.max c L + n)%N.
Proof.
  unfold f64_walk. induction k as [k IH] using (well_founded_induction Wf_nat.lt_wf). intros n c x r Hk Hx H0 Hr Hx2 Hl.
  pose proof (reach_rep (guarded limit) size (guarded_ok limit) size_ok x r c Hx) as HR.
  destruct (Rle_bool_spec (IZR (Z.of_N (size c))) r) as [Hs|Hs].
  2:{ exists c, x. split; [constructor; exact HR|lia]. }
  assert (Hg : guarded limit c = Some (c + 1)%N).
  { unfold guarded. destruct (N.ltb_spec (c + 1) limit); [reflexivity|lia]. }
  assert (Hsz : 0 <= IZR (Z.of_N (size c))) by (apply IZR_le; lia).
  assert (Hf : frep (fsub x (f_of_N (size c))) (r - IZR (Z.of_N (size c)))).
  { apply fsub_exact; auto. specialize (size_ok c). lia. }
  destruct (N.lt_ge_cases c L) as [Hc|Hc].
  - destruct (IH (N.to_nat (L - (c + 1)) + N.to_nat n)%nat ltac:(lia) n (c + 1)%N _ _ eq_refl Hf ltac:(lra) ltac:(lra) ltac:(lra) ltac:(lia)) as (c' & x' & W & B).
    exists c', x'. split; [|lia]. econstructor; [exact HR|exact Hg|exact W].
  - assert (Hn : (1 <= n)%N).
    { destruct (N.eq_dec n 0) as [->|]; [|lia]. exfalso. rewrite (tail c Hc) in Hs. replace (D * (0 + 1))%N with D in Hx2 by lia. lra. }
    assert (Hd : r - IZR (Z.of_N (size c)) < IZR (Z.of_N (D * (n - 1 + 1)))).
    { rewrite (tail c Hc). replace (D * (n + 1))%N with (D * (n - 1 + 1) + D)%N in Hx2 by nia.
      rewrite N2Z.inj_add, plus_IZR in Hx2. lra. }
    destruct (IH (N.to_nat (L - (c + 1)) + N.to_nat (n - 1))%nat ltac:(lia) (n - 1)%N (c + 1)%N _ _ eq_refl Hf ltac:(lra) ltac:(lra) Hd ltac:(lia)) as (c' & x' & W & B).
    exists c', x'. split; [|lia]. econstructor; [exact HR|exact Hg|exact W].
Qed.
End Exists.

Local Open Scope R_scope.
(** One axis of an object: from the first cell and the offset to both anchors. *)
Lemma axis limit L D size start offset len X P nmax :
  (1 <= D)%N -> (forall c, (L <= c)%N -> size c = D) -> (forall c, (size c < 4294967301)%N) ->
  frep len X -> 0 <= X -> X + IZR (Z.of_N offset) <= IZR (Z.of_N P) -> (P < D * (nmax + 1))%N -> (Z.of_N P <= 2 ^ 52)%Z -> 
  (start < L)%N -> (L + nmax + nmax + 1 < limit)%N ->
  exists c1 x1 c2 x2 R2,
    u32_walk (guarded limit) size start offset c1 x1 /\
    f64_walk (guarded limit) size c1 (fadd len (f_of_N x1)) c2 x2 /\
    (x1 < size c1 /\ edge size c1 + x1 = edge size start + offset /\ x1 <= offset)%N /\
    frep x2 R2 /\ 0 <= R2 < IZR (Z.of_N (size c2)) /\
    IZR (Z.of_N (edge size c2)) + R2 = IZR (Z.of_N (edge size c1)) + rnd (X + IZR (Z.of_N x1)).
Proof.
  intros HD Htail Hsize Hlen H0 HP Hn Hp Hs Hl.
  assert (Hoff : (offset <= P)%N).
  { assert (IZR (Z.of_N offset) <= IZR (Z.of_N P)) by lra. apply le_IZR in H. lia. }
  destruct (u32_exists limit L D size HD Htail _ nmax start offset eq_refl ltac:(lia) ltac:(lia)) as (c1 & x1 & W1 & B1).
  pose proof (u32_walk_exact _ _ (guarded_ok limit) _ _ _ _ W1) as (C1 & C2 & C3).
  assert (Hx1 : (x1 <= offset)%N).
  { assert (M : forall k, (edge size start <= edge size (start + k))%N).
    { intros k. induction k as [|k IHk] using N.peano_ind; [rewrite N.add_0_r; lia|].
      replace (start + N.succ k)%N with (start + k + 1)%N by lia. rewrite edge_succ. lia. }
    specialize (M (c1 - start)%N). replace (start + (c1 - start))%N with c1 in M by lia. lia. }
  assert (Hx1R : 0 <= IZR (Z.of_N x1) <= IZR (Z.of_N offset)) by (split; apply IZR_le; lia).
  assert (HPR : IZR (Z.of_N P) <= bpow radix2 52).
  { replace (bpow radix2 52) with (IZR (2 ^ 52)) by (rewrite <- IZR_Zpower by lia; reflexivity). apply IZR_le. exact Hp. }
  assert (Hr : frep (fadd len (f_of_N x1)) (rnd (X + IZR (Z.of_N x1)))).
  { apply (fadd_rep _ _ _ _ 52); [exact Hlen|apply f_of_N_rep; lia|lia|]. rewrite Rabs_pos_eq by lra. lra. }
  assert (Hlo : 0 <= rnd (X + IZR (Z.of_N x1))).
  { rewrite <- (round_0 radix2 (SpecFloat.fexp 53 1024) (round_mode mode_NE)). apply round_le; [typeclasses eauto|typeclasses eauto|lra]. }
  assert (Hhi : rnd (X + IZR (Z.of_N x1)) <= IZR (Z.of_N P)).
  { rewrite <- (rnd_int (Z.of_N P)) by lia. apply round_le; [typeclasses eauto|typeclasses eauto|lra]. }
  assert (Hb : bpow radix2 52 < bpow radix2 53) by (apply bpow_lt; lia).
  destruct (f64_exists limit L D size HD Htail Hsize _ nmax c1 _ _ eq_refl Hr Hlo ltac:(lra)) as (c2 & x2 & W2 & B2).
  { apply Rle_lt_trans with (1 := Hhi). apply IZR_lt. lia. }
  { lia. }
  destruct (f64_walk_exact _ _ (guarded_ok limit) Hsize _ _ _ _ W2 _ Hr Hlo ltac:(lra)) as (_ & R2 & A & B & C).
  exists c1, x1, c2, x2, R2. repeat split; try assumption; lra || lia.
Qed.

(** Rounding to EMUs is exact for whole pixels. *)
Lemma fround_int x z : frep x (IZR z) -> (Z.abs z <= 2 ^ 53)%Z -> frep (fround x) (IZR z).
Proof.
  intros Hx Hz. destruct Hx as (b & -> & Hf & Hv). destruct b as [s|s| |s m e Hb]; cbn [is_finite BinarySingleNaN.is_finite] in Hf; try discriminate.
  - cbn [B2SF fround]. exists (B754_zero s). auto.
  - cbn [B2SF fround]. destruct (Z.leb_spec 0 e) as [He|He].
    { exists (B754_finite s m e Hb). auto. }
    assert (Em : Zpos m = (Z.abs z * 2 ^ (- e))%Z).
    { cbn [B2R] in Hv. unfold F2R in Hv. cbn [Fnum Fexp] in Hv.
      assert (Hv2 : IZR (cond_Zopp s (Zpos m)) = IZR (z * 2 ^ (- e))).
      { rewrite mult_IZR. replace (IZR (2 ^ (- e))) with (bpow radix2 (- e)) by (rewrite <- IZR_Zpower by lia; reflexivity).
        rewrite <- Hv, Rmult_assoc, <- bpow_plus. replace (e + - e)%Z with 0%Z by lia. cbn [bpow]. lra. }
      apply eq_IZR in Hv2. assert (P : (0 < 2 ^ (- e))%Z) by (apply Z.pow_pos_nonneg; lia).
      destruct s; cbn [cond_Zopp] in Hv2; nia. }
    assert (P : (0 < 2 ^ (- e))%Z) by (apply Z.pow_pos_nonneg; lia).
    assert (P2 : (2 ^ (- e) = 2 * 2 ^ (- e - 1))%Z).
    { rewrite <- Z.pow_succ_r by lia. f_equal. lia. }
    assert (P3 : (0 < 2 ^ (- e - 1))%Z) by (apply Z.pow_pos_nonneg; lia).
    assert (Eq : ((Zpos m + 2 ^ (- e - 1)) / 2 ^ (- e) = Z.abs z)%Z).
    { rewrite Em, Z.add_comm, Z.div_add by lia. rewrite Z.div_small by lia. lia. }
    rewrite Eq. assert (Hz0 : z <> 0%Z) by (intros ->; cbn in Em; lia).
    destruct (Z.eqb_spec (Z.abs z) 0) as [|_]; [lia|].
    assert (Ez : (if s then - Z.abs z else Z.abs z)%Z = z).
    { cbn [B2R] in Hv. assert (Sg : if s then (z < 0)%Z else (0 < z)%Z).
      { destruct s; cbn [cond_Zopp] in Hv; apply lt_IZR; rewrite <- Hv; [apply F2R_lt_0|apply F2R_gt_0]; cbn; lia. }
      destruct s; lia. }
    rewrite Ez. apply f_of_Z_rep. exact Hz.
Qed.
Lemma emus_int x z : frep x (IZR z) -> (0 <= z <= 2 ^ 39)%Z -> frep (round_to_emus x) (IZR (9525 * z)).
Proof.
  intros Hx Hz. unfold round_to_emus. apply fround_int; [|lia].
  pose proof (fmul_rep x (f_of_N 9525) (IZR z) (IZR 9525) 53 Hx (f_of_N_rep 9525 ltac:(lia)) ltac:(lia)) as H.
  rewrite <- mult_IZR in H. rewrite rnd_int in H by lia. replace (9525 * z)%Z with (z * 9525)%Z by lia. apply H.
  replace (bpow radix2 53) with (IZR (2 ^ 53)) by (rewrite <- IZR_Zpower by lia; reflexivity).
  rewrite Rabs_pos_eq by (apply IZR_le; lia). apply IZR_le. lia.
Qed.
