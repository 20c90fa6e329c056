(** Independent reading of A1 references, sheet references and sheet-name rules,
    as a spreadsheet user or formula parser would understand them.  No model
    function is used here. *)
From Verif Require Import Base.

(** Bijective base 26: A=1 .. Z=26, AA=27 ... *)
Fixpoint letters_value (acc : N) (s : str) : N :=
  match s with [] => acc | c :: r => letters_value (26 * acc + (c - 64)) r end.
Fixpoint digits_value (acc : N) (s : str) : N :=
  match s with [] => acc | c :: r => digits_value (10 * acc + (c - 48)) r end.

(** Longest prefix satisfying a predicate. *)
Fixpoint span (p : char -> bool) (s : str) : str * str :=
  match s with
  | [] => ([], [])
  | c :: r => if p c then let '(a, b) := span p r in (c :: a, b) else ([], s)
  end.

Definition eat_dollar (s : str) : bool * str :=
  match s with c :: r => if c =? 36 then (true, r) else (false, s) | [] => (false, []) end.

(** A parsed reference: zero-based row and column and the two '$' markers. *)
Record a1 := { a1_row : N; a1_col : N; a1_absrow : bool; a1_abscol : bool }.

(** letters, then a decimal number without leading zero, with optional '$'. *)
Definition parse_cell (s : str) : option (a1 * str) :=
  let '(ac, s1) := eat_dollar s in
  let '(ls, s2) := span is_ascii_upper s1 in
  let '(ar, s3) := eat_dollar s2 in
  let '(ds, s4) := span is_ascii_digit s3 in
  match ls, ds with
  | _ :: _, d :: _ =>
      if d =? 48 then None
      else Some ({| a1_row := digits_value 0 ds - 1; a1_col := letters_value 0 ls - 1;
                    a1_absrow := ar; a1_abscol := ac |}, s4)
  | _, _ => None
  end.

Definition parse_a1 (s : str) : option a1 :=
  match parse_cell s with Some (r, []) => Some r | _ => None end.

(** A range is one cell, or two cells separated by ':' (58). *)
Definition parse_range (s : str) : option (a1 * a1) :=
  match parse_cell s with
  | Some (r, []) => Some (r, r)
  | Some (r, 58 :: s') => match parse_a1 s' with Some r' => Some (r, r') | None => None end
  | _ => None
  end.

(** A sheet-qualified reference: either a bare name up to the first '!', or a
    quoted name where '' stands for one apostrophe. *)
Fixpoint quoted_body (s : str) : option (str * str) :=   (* after the opening quote *)
  match s with
  | [] => None
  | c :: r =>
      if c =? 39 then
        match r with
        | d :: r' => if d =? 39 then
                       match quoted_body r' with Some (a, b) => Some (39 :: a, b) | None => None end
                     else Some ([], r)
        | [] => Some ([], [])
        end
      else match quoted_body r with Some (a, b) => Some (c :: a, b) | None => None end
  end.
Definition parse_sheet (s : str) : option (str * str) :=
  match s with
  | [] => None
  | c :: r => if c =? 39 then quoted_body r else Some (span (fun c => negb (c =? 33)) s)
  end.
Definition parse_sheet_range (s : str) : option (str * (a1 * a1)) :=
  match parse_sheet s with
  | Some (name, 33 :: rest) =>
      match parse_range rest with Some r => Some (name, r) | None => None end
  | _ => None
  end.

(** Sheet-name rules of Excel. *)
Definition forbidden_in_sheetname (c : char) : Prop :=
  In c (lit "[]:*?/\").
Definition valid_sheetname (s : str) : Prop :=
  s <> [] /\ (length s <= 31)%nat /\ (forall c, In c s -> ~ forbidden_in_sheetname c) /\
  (forall r, s <> 39 :: r) /\ (forall r, s <> r ++ [39]).

(** "Looks like an A1 cell reference": one to three letters (any case), then
    digits, with the column and row inside Excel's limits. *)
Definition looks_like_a1 (s : str) : Prop :=
  exists ls ds, s = ls ++ ds /\ forallb is_ascii_alpha ls = true /\ forallb is_ascii_digit ds = true /\
    (1 <= length ls <= 3)%nat /\ ds <> [] /\
    1 <= letters_value 0 (map ascii_upper ls) <= 16384 /\ 1 <= digits_value 0 ds <= 1048576.

(** "Starts like an R1C1 reference": R, C or RC alone, R<row>, C<col> or RC<col>
    followed by anything that is not a digit (in any case), within limits. *)
Definition looks_like_rc (s : str) : Prop :=
  In (map ascii_upper s) [lit "R"; lit "C"; lit "RC"] \/
  exists p ds rest, s = p ++ ds ++ rest /\ forallb is_ascii_digit ds = true /\ ds <> [] /\
    (forall c r, rest = c :: r -> is_ascii_digit c = false) /\
    ((map ascii_upper p = lit "R" /\ 1 <= digits_value 0 ds <= 1048576) \/
     (In (map ascii_upper p) [lit "C"; lit "RC"] /\ 1 <= digits_value 0 ds <= 16384)).
