(** Sizes of fonts in hundredths of a point. *)
From Coq Require Import ZArith Reals Lia Lra SpecFloat.
From Flocq Require Import Core BinarySingleNaN.
From Verif Require Import Base F64 F64_Proofs.
Local Notation prec := 53%Z.
Local Notation emax := 1024%Z.
Open Scope R_scope.

Lemma frep_unique x y r : frep x r -> frep y r -> r <> 0 -> x = y.
Proof.
  intros (a & -> & Fa & Ea) (b & -> & Fb & Eb) Nz. f_equal. assert (St : forall z : binary_float prec emax, BinarySingleNaN.is_finite z = true -> B2R z <> 0 -> is_finite_strict z = true).
  { intros [s|s| |s m e H]; cbn; try discriminate; auto. }
  apply B2R_inj; [apply St|apply St|]; congruence.
Qed.
(** A size of n hundredths of a point gives the number n. *)
Lemma hundred_times x r (n : N) : frep x r -> r * 100 = IZR (Z.of_N n) -> (0 < n < 2 ^ 53)%N -> fmul x (f_of_N 100) = f_of_N n /\ flt (f_of_N 0) (f_of_N n) = true.
Proof.
  intros H E B. change (2 ^ 53)%N with 9007199254740992%N in B. assert (P : 0 < IZR (Z.of_N n)) by (apply (IZR_lt 0); lia). assert (Q : IZR (Z.of_N n) < IZR (2 ^ 53)) by (apply IZR_lt; change (2 ^ 53)%Z with 9007199254740992%Z; lia).
  assert (G := fmul_rep x (f_of_N 100) r 100 53 H (f_of_N_rep 100 ltac:(cbn; lia)) ltac:(lia)). rewrite E in G. rewrite rnd_int in G by (rewrite Z.abs_eq by lia; cbn; lia). assert (Rn : frep (f_of_N n) (IZR (Z.of_N n))) by (apply f_of_N_rep; cbn; lia).
  split.
  - apply frep_unique with (IZR (Z.of_N n)); [apply G; rewrite Rabs_pos_eq by lra; change (bpow radix2 53) with (IZR (2 ^ 53)); lra|exact Rn|lra].
  - rewrite (flt_rep _ _ 0 (IZR (Z.of_N n)) (f_of_N_rep 0 ltac:(cbn; lia)) Rn). apply Rlt_bool_true. exact P.
Qed.
