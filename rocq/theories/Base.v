(** Common representation choices for the model of rust_xlsxwriter.

    A Rust [String]/[&str] is a list of Unicode scalar values ([str]).  Byte
    lengths and byte offsets are obtained through [utf8_len].  A Rust panic is
    an explicit [None].  Nothing in this file models library code. *)
From Coq Require Export List NArith ZArith Bool Lia String Ascii.
From Coq Require Export ZifyBool ZifyN ZifyNat.
Export ListNotations.
Ltac Zify.zify_post_hook ::= Z.div_mod_to_equations.
Global Open Scope N_scope.
Global Open Scope list_scope.
(* [String] above is imported for literals only: keep the list versions of the
   overloaded names. *)
Notation length := List.length.
Notation concat := List.concat.

Notation char := N (only parsing).
Notation str := (list N) (only parsing).

(** Coq string literal (ASCII) to model string. *)
Definition lit (s : string) : str := map N_of_ascii (list_ascii_of_string s).

(** Unicode scalar values: what a Rust [char] can hold. *)
Definition is_scalar (c : char) : bool :=
  (c <? 0xD800) || ((0xE000 <=? c) && (c <=? 0x10FFFF)).

Definition utf8_len (c : char) : N :=
  if c <? 0x80 then 1 else if c <? 0x800 then 2 else if c <? 0x10000 then 3 else 4.

(** [str::len]: length in bytes. *)
Fixpoint byte_len (s : str) : N :=
  match s with [] => 0 | c :: r => utf8_len c + byte_len r end.

(** [chars().count()] *)
Definition char_count (s : str) : N := N.of_nat (length s).

Fixpoint str_eqb (a b : str) : bool :=
  match a, b with
  | [], [] => true
  | x :: a', y :: b' => (x =? y) && str_eqb a' b'
  | _, _ => false
  end.

Lemma str_eqb_spec a b : reflect (a = b) (str_eqb a b).
Proof.
  revert b; induction a as [|x a IH]; intros [|y b]; cbn [str_eqb]; try (constructor; congruence).
  destruct (N.eqb_spec x y) as [->|Hne]; cbn [andb].
  - destruct (IH b) as [->|Hne]; constructor; congruence.
  - constructor; congruence.
Qed.

Lemma str_eqb_refl a : str_eqb a a = true.
Proof. destruct (str_eqb_spec a a); congruence. Qed.

Lemma str_eqb_eq a b : str_eqb a b = true <-> a = b.
Proof. destruct (str_eqb_spec a b); split; congruence. Qed.

(** ASCII classes, as in [char::is_ascii_*]. *)
Definition is_ascii_digit (c : char) : bool := (48 <=? c) && (c <=? 57).
Definition is_ascii_upper (c : char) : bool := (65 <=? c) && (c <=? 90).
Definition is_ascii_lower (c : char) : bool := (97 <=? c) && (c <=? 122).
Definition is_ascii_alpha (c : char) : bool := is_ascii_upper c || is_ascii_lower c.
Definition is_ascii_hexdigit (c : char) : bool :=
  is_ascii_digit c || ((65 <=? c) && (c <=? 70)) || ((97 <=? c) && (c <=? 102)).
Definition is_ascii (c : char) : bool := c <? 128.
(** [char::to_ascii_uppercase] *)
Definition ascii_upper (c : char) : char := if is_ascii_lower c then c - 32 else c.
Definition ascii_lower (c : char) : char := if is_ascii_upper c then c + 32 else c.

(** Prefix / suffix tests on character lists. *)
Fixpoint starts_with (p s : str) : bool :=
  match p, s with
  | [], _ => true
  | x :: p', y :: s' => (x =? y) && starts_with p' s'
  | _ :: _, [] => false
  end.
Definition ends_with (p s : str) : bool := starts_with (rev p) (rev s).

Fixpoint str_contains (p s : str) : bool :=
  starts_with p s || match s with [] => false | _ :: s' => str_contains p s' end.

Definition has_char (c : char) (s : str) : bool := existsb (N.eqb c) s.

Fixpoint drop (n : nat) (s : str) : str :=
  match n, s with O, _ => s | S n', [] => [] | S n', _ :: s' => drop n' s' end.
Fixpoint strip_prefix (p s : str) : option str :=
  match p, s with
  | [], _ => Some s
  | x :: p', y :: s' => if x =? y then strip_prefix p' s' else None
  | _ :: _, [] => None
  end.

Lemma strip_prefix_some p s r : strip_prefix p s = Some r <-> s = p ++ r.
Proof.
  revert s; induction p as [|x p IH]; intros [|y s]; cbn [strip_prefix app]; try (split; congruence).
  split.
  - destruct (N.eqb_spec x y) as [->|]; [|discriminate]. intros H; apply IH in H; congruence.
  - intros E; injection E as -> ->. rewrite N.eqb_refl. apply IH. reflexivity.
Qed.

Lemma starts_with_true p s : starts_with p s = true <-> exists r, s = p ++ r.
Proof.
  revert s; induction p as [|x p IH]; intros s; cbn [starts_with].
  - split; [intros _; exists s; reflexivity|reflexivity].
  - destruct s as [|y s]; [split; [discriminate|intros [r E]; discriminate]|].
    rewrite andb_true_iff, N.eqb_eq, IH. split.
    + intros [-> [r ->]]. exists r; reflexivity.
    + intros [r E]. injection E as -> ->. eauto.
Qed.

(** Machine-integer overflow policy of the build: [Debug] panics, [Release]
    wraps.  Used only where the modelled code can overflow. *)
Inductive ovf := Debug | Release.
Definition wrapN (m : ovf) (w : N) (v : Z) : option N :=
  if (0 <=? v)%Z && (v <? 2 ^ Z.of_N w)%Z then Some (Z.to_N v)
  else match m with Debug => None | Release => Some (Z.to_N (v mod 2 ^ Z.of_N w)) end.
Definition add16 m (a b : N) := wrapN m 16 (Z.of_N a + Z.of_N b).
Definition sub16 m (a b : N) := wrapN m 16 (Z.of_N a - Z.of_N b).
Definition mul16 m (a b : N) := wrapN m 16 (Z.of_N a * Z.of_N b).

Definition obind {A B} (x : option A) (f : A -> option B) : option B :=
  match x with Some a => f a | None => None end.
Notation "x <- e ;; f" := (obind e (fun x => f)) (at level 61, e at next level, right associativity).

(** Decimal printing of an unsigned integer ([ToString] for u16/u32/u64/usize). *)
Fixpoint dec_loop (fuel : nat) (n : N) (acc : str) : str :=
  match fuel with
  | O => acc
  | S f => let acc' := (48 + n mod 10) :: acc in
           if n / 10 =? 0 then acc' else dec_loop f (n / 10) acc'
  end.
Definition dec (n : N) : str := dec_loop (S (N.size_nat n)) n [].

(** Value of a decimal digit string. *)
Definition undec (s : str) : N := fold_left (fun a c => 10 * a + (c - 48)) s 0.

Lemma size_nat_half n : n <> 0 -> (N.size_nat (n / 2) < N.size_nat n)%nat.
Proof.
  intros Hn. rewrite <- N.div2_div. destruct n as [|[p|p|]]; cbn; try lia. 
Qed.

Lemma size_nat_mono a b : a <= b -> (N.size_nat a <= N.size_nat b)%nat.
Proof.
  intros H.
  destruct a as [|p], b as [|q]; cbn; try lia.
  destruct (Pos.eq_dec p q) as [->|Hne]; [lia|].
  apply Pos.size_nat_monotone. lia.
Qed.

Lemma size_nat_div n k : 2 <= k -> n <> 0 -> (N.size_nat (n / k) < N.size_nat n)%nat.
Proof.
  intros Hk Hn. apply Nat.le_lt_trans with (m := N.size_nat (n / 2)).
  - apply size_nat_mono. apply N.div_le_compat_l. lia.
  - apply size_nat_half; assumption.
Qed.

(** Rust [Result]. *)
Inductive result (A E : Type) : Type := Ok (a : A) | Err (e : E).
Arguments Ok {A E} a.
Arguments Err {A E} e.
