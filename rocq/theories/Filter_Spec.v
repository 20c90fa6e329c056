(** What an autofilter means, independently of how the code evaluates it. *)
From Verif Require Import Base SMap F64 Fmt_Model Cells_Model Date_Parse Book_Spec Filter_Model.

(** What a filter sees in a cell: text, a number, nothing, or a value of another
    kind (boolean, formula, date, embedded image), which no filter value equals. *)
Inductive seen := SText (t : str) | SNum (x : f64) | SEmpty | SOther.
Definition seen_in (w : ws) (r c : N) : seen :=
  match table_get r c (data w) with
  | None | Some (CBlank, _) => SEmpty
  | Some (CString t _, _) | Some (CRich _ t _, _) => SText t
  | Some (CNumber x, _) => SNum x
  | Some _ => SOther
  end.

Section Spec.
Variable lower : str -> str.
(** Text is compared without regard to case and surrounding white space. *)
Definition norm (t : str) : str := trim (lower t).

Definition text_holds (k : criteria) (a b : str) : Prop :=
  match k with
  | EqualTo => a = b | NotEqualTo => a <> b
  | LessThan => str_lt a b | GreaterThan => str_lt b a
  | LessThanOrEqualTo => a = b \/ str_lt a b | GreaterThanOrEqualTo => a = b \/ str_lt b a
  | BeginsWith => exists r, a = b ++ r | DoesNotBeginWith => ~ exists r, a = b ++ r
  | EndsWith => exists r, a = r ++ b | DoesNotEndWith => ~ exists r, a = r ++ b
  | Contains => exists p q, a = p ++ b ++ q | DoesNotContain => ~ exists p q, a = p ++ b ++ q
  end.
(** Numbers: only the six comparisons; IEEE comparison. *)
Definition number_holds (k : criteria) (a b : f64) : Prop :=
  match k with
  | EqualTo => feq a b = true | NotEqualTo => feq a b = false
  | LessThan => flt a b = true | GreaterThan => flt b a = true
  | LessThanOrEqualTo => fle a b = true | GreaterThanOrEqualTo => fle b a = true
  | _ => False
  end.

(** One custom comparison.  A number is compared with numbers only; an empty
    cell satisfies none; other values satisfy only "not blank", written [<> " "]. *)
Definition compares (d : fdata) (v : seen) : Prop :=
  match v with
  | SText t => text_holds (d_criteria d) (norm t) (norm (d_string d))
  | SNum x => d_is_number d = true /\ number_holds (d_criteria d) x (d_number d)
  | SEmpty => False
  | SOther => d_criteria d = NotEqualTo /\ d_string d = lit " "
  end.
(** A list of values. *)
Definition listed (l : list fdata) (blanks : bool) (v : seen) : Prop :=
  match v with
  | SText t => (exists d, In d l /\ norm t = norm (d_string d)) \/ (blanks = true /\ norm t = [])
  | SNum x => exists d, In d l /\ d_is_number d = true /\ feq x (d_number d) = true
  | SEmpty => blanks = true
  | SOther => False
  end.
Definition passes (c : fcond) (v : seen) : Prop :=
  if is_list_filter c then listed (list_values c) (should_match_blanks c) v
  else match custom1 c, custom2 c with
       | Some a, None => compares a v
       | Some a, Some b => if apply_logical_or c then compares a v \/ compares b v else compares a v /\ compares b v
       | None, _ => False
       end.
End Spec.

(** The filter in force after a history (most recent call first). *)
Definition good4 (fr fc lr lc : N) : Prop := fr <= lr /\ fc <= lc /\ lr < 1048576 /\ lc < 16384.
Definition good4b (fr fc lr lc : N) : bool := (fr <=? lr) && (fc <=? lc) && (lr <? 1048576) && (lc <? 16384).
Fixpoint range_after (ops : list fop) : option range4 :=
  match ops with
  | [] => None
  | FAutofilter fr fc lr lc _ :: r => if good4b fr fc lr lc then Some (fr, fc, lr, lc) else range_after r
  | _ :: r => range_after r
  end.
Definition has_condition (c : fcond) : bool :=
  match list_values c, custom1 c, should_match_blanks c with [], None, false => false | _, _, _ => true end.
Definition in_columns (col : N) (a : option range4) : bool :=
  match a with Some (_, fc, _, lc) => (fc <=? col) && (col <=? lc) | None => false end.
Fixpoint condition_after (ops : list fop) (col : N) : option fcond :=
  match ops with
  | [] => None
  | FAutofilter fr fc lr lc _ :: r => if good4b fr fc lr lc then None else condition_after r col
  | FFilterColumn col' c :: r =>
      if (col' =? col) && has_condition c && in_columns col (range_after r) then Some c else condition_after r col
  | _ :: r => condition_after r col
  end.
Definition filtering_off (ops : list fop) : Prop := In FAutomaticOff ops.

Definition hidden (w : ws) (r : N) : bool := match get r (changed_rows w) with Some o => r_hidden o | None => false end.

(** Excel's wildcard patterns: [*] any text, [?] any character, [~] quotes the next. *)
Inductive wild : str -> str -> Prop :=
| w_nil : wild [] []
| w_star0 : forall p t, wild p t -> wild (42 :: p) t
| w_star : forall p c t, wild (42 :: p) t -> wild (42 :: p) (c :: t)
| w_any : forall p c t, wild p t -> wild (63 :: p) (c :: t)
| w_quote : forall c p t, wild p t -> wild (126 :: c :: p) (c :: t)
| w_char : forall c p t, c <> 42 -> c <> 63 -> c <> 126 -> wild p t -> wild (c :: p) (c :: t).
Definition plain (s : str) : Prop := ~ In 42 s /\ ~ In 63 s /\ ~ In 126 s.
