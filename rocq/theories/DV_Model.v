(** Model of data validations: src/data_validation.rs (the builder), and
    src/worksheet.rs:9172-9209 (add_data_validation), 18014-18152 (the writers). *)
From Verif Require Import Base F64 Ref_Model Xml_Model Xml_Tree Rich_Model View_Model Cells_Model Url_Model Formula_Model Doc_Model StrMap.

(** src/data_validation.rs:1432-1448 *)
Inductive dv_type := TWhole | TDecimal | TDate | TTime | TTextLength | TCustom | TList | TAny.
(** 1450-1463 *)
Definition dv_type_name (t : dv_type) : string :=
  match t with
  | TAny => "any" | TDate => "date" | TList => "list" | TTime => "time" | TWhole => "whole" | TCustom => "custom"
  | TDecimal => "decimal" | TTextLength => "textLength"
  end%string.
(** 1473-1499; the parameter is the type of the values. *)
Inductive dv_rule (T : Type) :=
| DEqualTo (v : T) | DNotEqualTo (v : T) | DGreaterThan (v : T) | DGreaterThanOrEqualTo (v : T)
| DLessThan (v : T) | DLessThanOrEqualTo (v : T) | DBetween (v w : T) | DNotBetween (v w : T).
Arguments DEqualTo {T}. Arguments DNotEqualTo {T}. Arguments DGreaterThan {T}. Arguments DGreaterThanOrEqualTo {T}.
Arguments DLessThan {T}. Arguments DLessThanOrEqualTo {T}. Arguments DBetween {T}. Arguments DNotBetween {T}.
(** The types that implement IntoDataValidationValue (1337-1424): i32 and u32, f64,
    a date or time (by the f64 of its [to_excel]), a formula (by the text it was
    made from; its [formula_string] is that of [Formula::new]). *)
Inductive dv_value := VInt (z : Z) | VNum (x : f64) | VDate (serial : f64) | VFormula (s : str).
(** 1540-1560 *)
Inductive dv_internal :=
| IEqualTo (v : str) | INotEqualTo (v : str) | IGreaterThan (v : str) | IGreaterThanOrEqualTo (v : str)
| ILessThan (v : str) | ILessThanOrEqualTo (v : str) | IBetween (v w : str) | INotBetween (v w : str)
| ICustomFormula (v : str) | IListSource (v : str).
(** 1562-1577 *)
Definition dv_operator (r : dv_internal) : string :=
  match r with
  | IEqualTo _ => "equal" | ILessThan _ => "lessThan" | IBetween _ _ => "between" | IListSource _ => "list"
  | INotEqualTo _ => "notEqual" | IGreaterThan _ => "greaterThan" | ICustomFormula _ => "" | INotBetween _ _ => "notBetween"
  | ILessThanOrEqualTo _ => "lessThanOrEqual" | IGreaterThanOrEqualTo _ => "greaterThanOrEqual"
  end%string.
(** 1587-1606 *)
Inductive dv_style := SStop | SWarning | SInformation.
Definition dv_style_name (s : dv_style) : string := match s with SStop => "stop" | SWarning => "warning" | SInformation => "information" end.
(** 180-193 *)
Record dv := {
  dv_kind : dv_type; dv_check : dv_internal; dv_blank : bool; dv_input : bool; dv_error : bool; dv_dropdown : bool;
  dv_multi : str; dv_input_title : str; dv_error_title : str; dv_input_message : str; dv_error_message : str; dv_alert : dv_style }.
(** 203-218 *)
Definition dv_new : dv :=
  {| dv_kind := TAny; dv_check := IEqualTo []; dv_blank := true; dv_input := true; dv_error := true; dv_dropdown := true;
     dv_multi := []; dv_input_title := []; dv_error_title := []; dv_input_message := []; dv_error_message := []; dv_alert := SStop |}.
Definition dv_set_rule (d : dv) (t : dv_type) (r : dv_internal) : dv :=
  {| dv_kind := t; dv_check := r; dv_blank := dv_blank d; dv_input := dv_input d; dv_error := dv_error d; dv_dropdown := dv_dropdown d; dv_multi := dv_multi d;
     dv_input_title := dv_input_title d; dv_error_title := dv_error_title d; dv_input_message := dv_input_message d; dv_error_message := dv_error_message d; dv_alert := dv_alert d |}.
Definition dv_set_flags (d : dv) (blank input error dropdown : bool) : dv :=
  {| dv_kind := dv_kind d; dv_check := dv_check d; dv_blank := blank; dv_input := input; dv_error := error; dv_dropdown := dropdown; dv_multi := dv_multi d;
     dv_input_title := dv_input_title d; dv_error_title := dv_error_title d; dv_input_message := dv_input_message d; dv_error_message := dv_error_message d; dv_alert := dv_alert d |}.
Definition dv_set_texts (d : dv) (input_title input_message error_title error_message : str) : dv :=
  {| dv_kind := dv_kind d; dv_check := dv_check d; dv_blank := dv_blank d; dv_input := dv_input d; dv_error := dv_error d; dv_dropdown := dv_dropdown d; dv_multi := dv_multi d;
     dv_input_title := input_title; dv_error_title := error_title; dv_input_message := input_message; dv_error_message := error_message; dv_alert := dv_alert d |}.
Definition dv_set_rest (d : dv) (multi : str) (alert : dv_style) : dv :=
  {| dv_kind := dv_kind d; dv_check := dv_check d; dv_blank := dv_blank d; dv_input := dv_input d; dv_error := dv_error d; dv_dropdown := dv_dropdown d; dv_multi := multi;
     dv_input_title := dv_input_title d; dv_error_title := dv_error_title d; dv_input_message := dv_input_message d; dv_error_message := dv_error_message d; dv_alert := alert |}.

(** The builder methods.  The five pairs allow_whole_number(_formula),
    allow_decimal_number(_formula), allow_date(_formula), allow_time(_formula),
    allow_text_length(_formula) do the same (271-275 etc.): one call here, with
    any value for any kind. *)
Inductive dv_number := NWhole | NDecimal | NDate | NTime | NTextLength.
Definition dv_number_type (k : dv_number) : dv_type :=
  match k with NWhole => TWhole | NDecimal => TDecimal | NDate => TDate | NTime => TTime | NTextLength => TTextLength end.
Inductive dv_op :=
| AllowNumber (k : dv_number) (r : dv_rule dv_value) | AllowListStrings (l : list str) | AllowListFormula (s : str) | AllowCustom (s : str) | AllowAny
| IgnoreBlank (b : bool) | ShowDropdown (b : bool) | ShowInput (b : bool) | ShowError (b : bool)
| InputTitle (s : str) | InputMessage (s : str) | ErrorTitle (s : str) | ErrorMessage (s : str) | ErrorStyle (a : dv_style) | MultiRange (s : str).

(** [join(",")] *)
Fixpoint join_commas (l : list str) : str :=
  match l with [] => [] | [s] => s | s :: r => s ++ 44 :: join_commas r end.
Definition nchars (s : str) : N := N.of_nat (length s).
Section Validation.
  Variable num_text : f64 -> str.
  (** 1342-1424 *)
  Definition value_text (v : dv_value) : str :=
    match v with VInt z => int_text z | VNum x | VDate x => num_text x | VFormula s => fst (formula_new s) end.
  (** 1502-1530 *)
  Definition to_internal_rule (r : dv_rule dv_value) : dv_internal :=
    match r with
    | DEqualTo v => IEqualTo (value_text v) | DNotEqualTo v => INotEqualTo (value_text v)
    | DGreaterThan v => IGreaterThan (value_text v) | DGreaterThanOrEqualTo v => IGreaterThanOrEqualTo (value_text v)
    | DLessThan v => ILessThan (value_text v) | DLessThanOrEqualTo v => ILessThanOrEqualTo (value_text v)
    | DBetween v w => IBetween (value_text v) (value_text w) | DNotBetween v w => INotBetween (value_text v) (value_text w)
    end.
  (** 554-576 *)
  Definition list_text (l : list str) : str := join_commas (map (replace_char 34 [34; 34]) l).
  (** 271-969, 988-1314.  [None]: the call returns an error (and the validation,
      which it took by value, is gone). *)
  Definition dv_step (d : dv) (o : dv_op) : option dv :=
    match o with
    | AllowNumber k r => Some (dv_set_rule d (dv_number_type k) (to_internal_rule r))
    | AllowListStrings l => let joined := list_text l in
        if 255 <? nchars joined then None else Some (dv_set_rule d TList (IListSource (34 :: joined ++ [34])))
    | AllowListFormula s => Some (dv_set_rule d TList (IListSource (fst (formula_new s))))
    | AllowCustom s => Some (dv_set_rule d TCustom (ICustomFormula (fst (formula_new s))))
    | AllowAny => Some (dv_set_rule d TAny (IEqualTo []))
    | IgnoreBlank b => Some (dv_set_flags d b (dv_input d) (dv_error d) (dv_dropdown d))
    | ShowDropdown b => Some (dv_set_flags d (dv_blank d) (dv_input d) (dv_error d) b)
    | ShowInput b => Some (dv_set_flags d (dv_blank d) b (dv_error d) (dv_dropdown d))
    | ShowError b => Some (dv_set_flags d (dv_blank d) (dv_input d) b (dv_dropdown d))
    | InputTitle s => if 32 <? nchars s then None else Some (dv_set_texts d s (dv_input_message d) (dv_error_title d) (dv_error_message d))
    | InputMessage s => if 255 <? nchars s then None else Some (dv_set_texts d (dv_input_title d) s (dv_error_title d) (dv_error_message d))
    | ErrorTitle s => if 32 <? nchars s then None else Some (dv_set_texts d (dv_input_title d) (dv_input_message d) s (dv_error_message d))
    | ErrorMessage s => if 255 <? nchars s then None else Some (dv_set_texts d (dv_input_title d) (dv_input_message d) (dv_error_title d) s)
    | ErrorStyle a => Some (dv_set_rest d (dv_multi d) a)
    | MultiRange s => Some (dv_set_rest d (replace_char 44 [32] (replace_char 36 [] s)) (dv_alert d))
    end.
  Fixpoint dv_build (d : dv) (ops : list dv_op) : option dv :=
    match ops with [] => Some d | o :: r => d' <- dv_step d o ;; dv_build d' r end.

  (** 1322-1328 *)
  Definition is_any (t : dv_type) : bool := match t with TAny => true | _ => false end.
  Definition is_invalid_any (d : dv) : bool :=
    is_any (dv_kind d) && negb (given (dv_input_title d)) && negb (given (dv_input_message d)) &&
    negb (given (dv_error_title d)) && negb (given (dv_error_message d)).
  (** src/worksheet.rs:9172-9209; the result says whether an error was returned;
      [None]: panic (the arithmetic of cell_range). *)
  Definition add_data_validation (m : ovf) (s : list (str * dv)) (fr fc lr lc : N) (d : dv) : option (list (str * dv) * bool) :=
    if negb (check_dimensions_only fr fc) || negb (check_dimensions_only lr lc) then Some (s, true)
    else if (lr <? fr) || (lc <? fc) then Some (s, true)
    else if is_invalid_any d then Some (s, false)
    else range <- cell_range m fr fc lr lc ;;
         Some (sm_ins (if given (dv_multi d) then dv_multi d else range) d s, false).

  (** 18056-18088, 18117-18149 *)
  Definition dv_common_attrs (range : str) (d : dv) : list (str * str) :=
    yes (dv_blank d) "allowBlank" ++ yes (negb (dv_dropdown d)) "showDropDown" ++
    yes (dv_input d) "showInputMessage" ++ yes (dv_error d) "showErrorMessage" ++
    given_attr "errorTitle" (dv_error_title d) ++ given_attr "error" (dv_error_message d) ++
    given_attr "promptTitle" (dv_input_title d) ++ given_attr "prompt" (dv_input_message d) ++
    [(lit "sqref", range)].
  (** 18045-18054 *)
  Definition has_operator (r : dv_internal) : bool :=
    match r with IBetween _ _ | ICustomFormula _ | IListSource _ => false | _ => true end.
  Definition stops (a : dv_style) : bool := match a with SStop => true | _ => false end.
  (** 18093-18109 *)
  Definition formula_xml (k : string) (s : str) : wx := WData (lit k) s [].
  Definition dv_formulas (r : dv_internal) : list wx :=
    match r with
    | IEqualTo v | INotEqualTo v | ILessThan v | ILessThanOrEqualTo v | IGreaterThan v | IGreaterThanOrEqualTo v
    | IListSource v | ICustomFormula v => [formula_xml "formula1" v]
    | IBetween v w | INotBetween v w => [formula_xml "formula1" v; formula_xml "formula2" w]
    end.
  (** 18028-18152 *)
  Definition dv_xml (p : str * dv) : wx :=
    let (range, d) := p in
    if is_any (dv_kind d) then WEmpty (lit "dataValidation") (dv_common_attrs range d)
    else WElem (lit "dataValidation")
           ([(lit "type", lit (dv_type_name (dv_kind d)))] ++
            when (negb (stops (dv_alert d))) [(lit "errorStyle", lit (dv_style_name (dv_alert d)))] ++
            when (has_operator (dv_check d)) [(lit "operator", lit (dv_operator (dv_check d)))] ++
            dv_common_attrs range d)
           (dv_formulas (dv_check d)).
  (** 18014-18025; 17408: nothing is written when there are none. *)
  Definition validations_xml (s : list (str * dv)) : list wx :=
    match s with
    | [] => []
    | _ => [WElem (lit "dataValidations") [(lit "count", dec (N.of_nat (length s)))] (map dv_xml s)]
    end.
End Validation.
