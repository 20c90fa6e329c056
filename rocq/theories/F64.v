(** IEEE-754 binary64 arithmetic for the model, as the standard library's
    executable [SpecFloat] semantics (round to nearest, ties to even), which is
    what Rust's [f64] operators compute.  Nothing here models library code. *)
From Verif Require Import Base.
From Coq Require Export Floats.SpecFloat.

Notation f64 := spec_float (only parsing).
Definition fadd : f64 -> f64 -> f64 := SFadd 53 1024.
Definition fsub : f64 -> f64 -> f64 := SFsub 53 1024.
Definition fmul : f64 -> f64 -> f64 := SFmul 53 1024.
Definition fdiv : f64 -> f64 -> f64 := SFdiv 53 1024.
(** [a < b], [a <= b], [a == b]: false when an argument is NaN. *)
Definition flt (a b : f64) : bool := SFltb a b.
Definition fle (a b : f64) : bool := SFleb a b.
Definition feq (a b : f64) : bool := SFeqb a b.
Definition fgt (a b : f64) : bool := flt b a.
Definition fge (a b : f64) : bool := fle b a.
(** [f64::from]/[as f64] of an integer, and a decimal literal [m / 10^k]
    (correctly rounded). *)
Definition f_of_Z (z : Z) : f64 := binary_normalize 53 1024 z 0 false.
Definition f_of_N (n : N) : f64 := f_of_Z (Z.of_N n).
Definition f_dec (m : Z) (k : N) : f64 := fdiv (f_of_Z m) (f_of_Z (10 ^ Z.of_N k)).
Definition fzero : f64 := S754_zero false.
Definition fnan : f64 := S754_nan.
Definition is_nan (x : f64) : bool := match x with S754_nan => true | _ => false end.
Definition is_inf (x : f64) : bool := match x with S754_infinity _ => true | _ => false end.
Definition is_finite (x : f64) : bool :=
  match x with S754_zero _ | S754_finite _ _ _ => true | _ => false end.
