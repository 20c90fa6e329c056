(** Model of formula preparation: src/formula.rs. *)
From Verif Require Import Base.

(** src/formula.rs:1013-1176, the table of "future" functions: 0 = standard,
    1 = also dynamic, 2 = dynamic with an additional prefix. *)
Definition future_table : list (string * N) :=
  [("ACOTH", 0); ("ACOT", 0); ("AGGREGATE", 0); ("ARABIC", 0); ("ARRAYTOTEXT", 0); ("BASE", 0); ("BETA.DIST", 0);
   ("BETA.INV", 0); ("BINOM.DIST.RANGE", 0); ("BINOM.DIST", 0); ("BINOM.INV", 0); ("BITAND", 0); ("BITLSHIFT", 0);
   ("BITOR", 0); ("BITRSHIFT", 0); ("BITXOR", 0); ("CEILING.MATH", 0); ("CEILING.PRECISE", 0);
   ("CHISQ.DIST.RT", 0); ("CHISQ.DIST", 0); ("CHISQ.INV.RT", 0); ("CHISQ.INV", 0); ("CHISQ.TEST", 0);
   ("COMBINA", 0); ("CONCAT", 0); ("CONFIDENCE.NORM", 0); ("CONFIDENCE.T", 0); ("COTH", 0); ("COT", 0);
   ("COVARIANCE.P", 0); ("COVARIANCE.S", 0); ("CSCH", 0); ("CSC", 0); ("DAYS", 0); ("DECIMAL", 0);
   ("ERF.PRECISE", 0); ("ERFC.PRECISE", 0); ("EXPON.DIST", 0); ("F.DIST.RT", 0); ("F.DIST", 0); ("F.INV.RT", 0);
   ("F.INV", 0); ("F.TEST", 0); ("FIELDVALUE", 0); ("FILTERXML", 0); ("FLOOR.MATH", 0); ("FLOOR.PRECISE", 0);
   ("FORECAST.ETS.CONFINT", 0); ("FORECAST.ETS.SEASONALITY", 0); ("FORECAST.ETS.STAT", 0); ("FORECAST.ETS", 0);
   ("FORECAST.LINEAR", 0); ("FORMULATEXT", 0); ("GAMMA.DIST", 0); ("GAMMA.INV", 0); ("GAMMALN.PRECISE", 0);
   ("GAMMA", 0); ("GAUSS", 0); ("HYPGEOM.DIST", 0); ("IFNA", 0); ("IFS", 0); ("IMAGE", 0); ("IMCOSH", 0);
   ("IMCOT", 0); ("IMCSCH", 0); ("IMCSC", 0); ("IMSECH", 0); ("IMSEC", 0); ("IMSINH", 0); ("IMTAN", 0);
   ("ISFORMULA", 0); ("ISOMITTED", 0); ("ISOWEEKNUM", 0); ("LET", 0); ("LOGNORM.DIST", 0); ("LOGNORM.INV", 0);
   ("MAXIFS", 0); ("MINIFS", 0); ("MODE.MULT", 0); ("MODE.SNGL", 0); ("MUNIT", 0); ("NEGBINOM.DIST", 0);
   ("NORM.DIST", 0); ("NORM.INV", 0); ("NORM.S.DIST", 0); ("NORM.S.INV", 0); ("NUMBERVALUE", 0); ("PDURATION", 0);
   ("PERCENTILE.EXC", 0); ("PERCENTILE.INC", 0); ("PERCENTRANK.EXC", 0); ("PERCENTRANK.INC", 0);
   ("PERMUTATIONA", 0); ("PHI", 0); ("POISSON.DIST", 0); ("PQSOURCE", 0); ("PYTHON_STR", 0); ("PYTHON_TYPE", 0);
   ("PYTHON_TYPENAME", 0); ("QUARTILE.EXC", 0); ("QUARTILE.INC", 0); ("QUERYSTRING", 0); ("RANK.AVG", 0);
   ("RANK.EQ", 0); ("RRI", 0); ("SECH", 0); ("SEC", 0); ("SHEETS", 0); ("SHEET", 0); ("SKEW.P", 0);
   ("STDEV.P", 0); ("STDEV.S", 0); ("T.DIST.2T", 0); ("T.DIST.RT", 0); ("T.DIST", 0); ("T.INV.2T", 0);
   ("T.INV", 0); ("T.TEST", 0); ("TEXTAFTER", 0); ("TEXTBEFORE", 0); ("TEXTJOIN", 0); ("UNICHAR", 0);
   ("UNICODE", 0); ("VALUETOTEXT", 0); ("VAR.P", 0); ("VAR.S", 0); ("WEBSERVICE", 0); ("WEIBULL.DIST", 0);
   ("XMATCH", 0); ("XOR", 0); ("Z.TEST", 0); ("ANCHORARRAY", 1); ("BYCOL", 1); ("BYROW", 1); ("CHOOSECOLS", 1);
   ("CHOOSEROWS", 1); ("DROP", 1); ("EXPAND", 1); ("HSTACK", 1); ("LAMBDA", 1); ("MAKEARRAY", 1); ("MAP", 1);
   ("RANDARRAY", 1); ("REDUCE", 1); ("SCAN", 1); ("SEQUENCE", 1); ("SINGLE", 1); ("SORTBY", 1); ("SWITCH", 1);
   ("TAKE", 1); ("TEXTSPLIT", 1); ("TOCOL", 1); ("TOROW", 1); ("UNIQUE", 1); ("VSTACK", 1); ("WRAPCOLS", 1);
   ("WRAPROWS", 1); ("XLOOKUP", 1); ("FILTER", 2); ("SORT", 2); ("PY", 2)]%string.

(** src/formula.rs:1008-1180 future_functions: look-up in that map. *)
Fixpoint lookup (t : list (string * N)) (name : str) : option N :=
  match t with
  | [] => None
  | (n, k) :: r => if str_eqb (lit n) name then Some k else lookup r name
  end.
Definition future_functions (name : str) : option N := lookup future_table name.

(** src/formula.rs:861-862. *)
Definition is_function_char (c : char) : bool := is_ascii_upper c || is_ascii_digit c || (c =? 46).
(** src/formula.rs:936. *)
Definition is_function_start_char (c : char) : bool := is_ascii_upper c || is_ascii_digit c.

(** src/formula.rs:875-886: what is pushed for a token followed by an opening
    bracket, and whether the function is dynamic. *)
Definition prefix_for (token : str) : str * bool :=
  match future_functions token with
  | Some k => (lit "_xlfn." ++ (if k =? 2 then lit "_xlws." else []), 0 <? k)
  | None => ([], false)
  end.

(** src/formula.rs:839-909 escape_formula.  [tok] is the reversed text
    [formula[start_position..current_position]] while [in_function] (it goes on
    growing inside a string literal, as the slice does); [q] is
    [in_string_literal].  The result is what is still pushed to
    [escaped_formula], and whether a dynamic function is still met. *)
Fixpoint escape_loop (s : str) (tok : option str) (q : bool) : str * bool :=
  match s with
  | [] => (match tok with Some t => rev t | None => [] end, false)
  | c :: r =>
    let q := if c =? 34 then negb q else q in
    if q then
      let '(o, d) := escape_loop r (option_map (cons c) tok) q in (c :: o, d)
    else
      match tok with
      | Some t =>
        if is_function_char c then escape_loop r (Some (c :: t)) q
        else
          let token := rev t in
          let '(pre, dyn) := if c =? 40 then prefix_for token else ([], false) in
          let '(o, d) := escape_loop r None q in
          (pre ++ token ++ c :: o, dyn || d)
      | None =>
        if is_function_char c then escape_loop r (Some [c]) q
        else let '(o, d) := escape_loop r None q in (c :: o, d)
      end
  end.
Definition escape_formula (s : str) : str * bool := escape_loop s None false.

(** src/formula.rs:914-963 copy_escaped_formula. *)
Fixpoint copy_loop (s : str) (tok : option str) (q : bool) : bool :=
  match s with
  | [] => false
  | c :: r =>
    let q := if c =? 34 then negb q else q in
    if q then copy_loop r (option_map (cons c) tok) q
    else
      match tok with
      | Some t =>
        if is_function_char c then copy_loop r (Some (c :: t)) q
        else (if c =? 40 then match future_functions (rev t) with Some k => 0 <? k | None => false end else false)
             || copy_loop r None q
      | None => if is_function_start_char c then copy_loop r (Some [c]) q else copy_loop r None q
      end
  end.
Definition copy_escaped_formula (s : str) : str * bool := (s, copy_loop s None false).

(** [str::strip_prefix]/[strip_suffix] with a char pattern. *)
Definition strip_first (c : char) (s : str) : str :=
  match s with x :: r => if x =? c then r else s | [] => [] end.
Definition strip_last (c : char) (s : str) : str :=
  match rev s with x :: r => if x =? c then rev r else s | [] => [] end.

(** src/formula.rs:752-783 Formula::new: the stored text and
    [has_dynamic_function]. *)
Definition formula_new (s : str) : str * bool :=
  let s := strip_last 125 (strip_first 61 (strip_first 123 s)) in
  if str_contains (lit "_xlfn.") s then copy_escaped_formula s else escape_formula s.

(** src/formula.rs:968-1000 escape_table_functions. *)
Fixpoint table_loop (s : str) (q : bool) : str :=
  match s with
  | [] => []
  | c :: r =>
    let q := if c =? 34 then negb q else q in
    if q then c :: table_loop r q
    else if c =? 64 then lit "[#This Row]," ++ table_loop r q else c :: table_loop r q
  end.
Definition escape_table_functions (s : str) : str := if has_char 64 s then table_loop s false else s.
