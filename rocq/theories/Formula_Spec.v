(** What preparing a formula should do, said by position: no scanner state. *)
From Verif Require Import Base.

(** Inside a string literal: an odd number of double quotes so far.  A doubled
    quote inside a literal closes and reopens it, which changes nothing. *)
Definition quotes (before : str) : nat := length (filter (N.eqb 34) before).
Definition in_literal (before : str) : bool := Nat.odd (quotes before).

(** Function names are made of A-Z, 0-9 and '.'. *)
Definition name_char (c : char) : bool :=
  ((65 <=? c) && (c <=? 90)) || ((48 <=? c) && (c <=? 57)) || (c =? 46).
(** The name starting here, and what follows it. *)
Fixpoint name_here (after : str) : str * str :=
  match after with
  | c :: r => if name_char c then let '(w, z) := name_here r in (c :: w, z) else ([], after)
  | [] => ([], [])
  end.
(** Is the character just before part of a name? *)
Definition inside_name (before : str) : bool :=
  match rev before with c :: _ => name_char c | [] => false end.

(** A call of function [w] starts between [before] and [after]: outside string
    literals, at the beginning of a maximal run [w] of name characters that an
    opening bracket follows. *)
Definition call_at (before after : str) : option str :=
  if in_literal before || inside_name before then None
  else match name_here after with
       | ((_ :: _) as w, 40 :: _) => Some w
       | _ => None
       end.

(** [spread ins f]: the text [f] with [ins before after] inserted at every
    position. *)
Fixpoint spread (ins : str -> str -> str) (before after : str) : str :=
  match after with
  | [] => []
  | c :: r => ins before after ++ c :: spread ins (before ++ [c]) r
  end.

(** [each g f]: every character of [f] replaced by [g] of what precedes it and itself. *)
Fixpoint each (g : str -> char -> str) (before after : str) : str :=
  match after with
  | [] => []
  | c :: r => g before c ++ each g (before ++ [c]) r
  end.

(** Deleting the prefixes again. *)
Fixpoint without_prefixes (fuel : nat) (s : str) : str :=
  match fuel with
  | O => s
  | S fuel =>
    match strip_prefix (lit "_xlfn._xlws.") s with
    | Some r => without_prefixes fuel r
    | None =>
      match strip_prefix (lit "_xlfn.") s with
      | Some r => without_prefixes fuel r
      | None => match s with [] => [] | c :: r => c :: without_prefixes fuel r end
      end
    end
  end.
Definition delete_prefixes (s : str) : str := without_prefixes (length s) s.

(** The user's text without the decoration that is not part of the formula: an
    opening brace, an equals sign, a closing brace (each optional). *)
Inductive stripped : str -> str -> Prop :=
| Stripped o e c body :
    (o = [] \/ o = [123]) -> (e = [] \/ e = [61]) -> (c = [] \/ c = [125]) ->
    (o = [] -> forall r, e ++ body ++ c <> 123 :: r) ->
    (e = [] -> forall r, body ++ c <> 61 :: r) ->
    (c = [] -> forall r, body <> r ++ [125]) ->
    stripped (o ++ e ++ body ++ c) body.

(** A double quote never follows a name character directly outside literals. *)
Definition quote_after_name (f : str) : Prop :=
  exists before z, f = before ++ 34 :: z /\ in_literal before = false /\ inside_name before = true.
