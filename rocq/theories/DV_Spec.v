(** What a data validation means in the file (ECMA-376 part 1, 18.3.1.32-33), and
    what a user asked for.  Of the model only the names of the calls and their
    arguments are used. *)
From Verif Require Import Base F64 Xml_Spec Xml_Read Ref_Spec SheetXml_Spec Doc_Spec View_Spec Setup_Spec DV_Model.

(** ** Reading *)
Record validation := {
  q_type : str; q_operator : str; q_formula1 : option str; q_formula2 : option str; q_style : str;
  q_blank : bool; q_dropdown : bool; q_input : bool; q_error : bool;
  q_input_title : str; q_input_message : str; q_error_title : str; q_error_message : str }.
Definition attr_default (k : string) (d : str) (l : list (str * str)) : str := match attr k l with Some v => v | None => d end.
Definition opt_kid_text (k : string) (l : list node) : option (option str) :=
  match kid k l with None => Some None | Some n => bind (text_of n) (fun t => Some (Some t)) end.
(** Note that showDropDown, when set, hides the drop-down. *)
Definition read_validation (n : node) : option (str * validation) :=
  let l := attrs_of n in
  if is_elem "dataValidation" n then
    bind (attr "sqref" l) (fun t => bind (opt_kid_text "formula1" (kids_of n)) (fun f1 => bind (opt_kid_text "formula2" (kids_of n)) (fun f2 =>
    Some (t, {| q_type := attr_default "type" (lit "none") l; q_operator := attr_default "operator" (lit "between") l;
                q_formula1 := f1; q_formula2 := f2; q_style := attr_default "errorStyle" (lit "stop") l;
                q_blank := flag_of "allowBlank" l; q_dropdown := negb (flag_of "showDropDown" l);
                q_input := flag_of "showInputMessage" l; q_error := flag_of "showErrorMessage" l;
                q_input_title := attr_default "promptTitle" [] l; q_input_message := attr_default "prompt" [] l;
                q_error_title := attr_default "errorTitle" [] l; q_error_message := attr_default "error" [] l |}))))
  else None.
(** The validations of a sheet with their sqref texts; the count must be right. *)
Definition read_validations (root : node) : option (list (str * validation)) :=
  match kid "dataValidations" (kids_of root) with
  | None => Some []
  | Some n => bind (read_all read_validation (kids_of n)) (fun l =>
              bind (attr "count" (attrs_of n)) (fun c => bind (number_of c) (fun k =>
              if k =? N.of_nat (length l) then Some l else None)))
  end.
(** The items of a list given in the formula: in quotes, separated by commas, a
    quote within them doubled. *)
Fixpoint items_loop (item s : str) : option (list str) :=
  match s with
  | [] => None
  | c :: r =>
      if c =? 34 then match r with
                      | [] => Some [item]
                      | d :: r' => if d =? 34 then items_loop (item ++ [34]) r' else None
                      end
      else if c =? 44 then bind (items_loop [] r) (fun l => Some (item :: l))
      else items_loop (item ++ [c]) r
  end.
Definition list_items (s : str) : option (list str) := match s with c :: r => if c =? 34 then items_loop [] r else None | [] => None end.

(** ** What is asked for *)
Definition last_given {A O} (given_by : O -> option A) (start : A) (calls : list O) : A :=
  fold_left (fun a o => match given_by o with Some v => v | None => a end) calls start.
(** A list of items: quotes doubled, joined with commas, in quotes. *)
Definition doubled (s : str) : str := flat_map (fun c => if c =? 34 then [34; 34] else [c]) s.
Definition joined (l : list str) : str := match l with [] => [] | s :: r => doubled s ++ flat_map (fun t => 44 :: doubled t) r end.
(** type, operator, first and second value *)
Definition restriction := (string * string * option str * option str)%type.
Section Asked.
  Variable num_text : f64 -> str.                 (* shortest decimal text of a number *)
  Variable formula_text : str -> str.             (* the formula as stored (C14) *)
  Definition shown (v : dv_value) : str :=
    match v with
    | VInt z => if (z <? 0)%Z then 45 :: dec (Z.to_N (- z)) else dec (Z.to_N z)
    | VNum x | VDate x => num_text x
    | VFormula s => formula_text s
    end.
  Definition compared (r : dv_rule dv_value) : string * option str * option str :=
    match r with
    | DEqualTo v => ("equal", Some (shown v), None) | DNotEqualTo v => ("notEqual", Some (shown v), None)
    | DGreaterThan v => ("greaterThan", Some (shown v), None) | DGreaterThanOrEqualTo v => ("greaterThanOrEqual", Some (shown v), None)
    | DLessThan v => ("lessThan", Some (shown v), None) | DLessThanOrEqualTo v => ("lessThanOrEqual", Some (shown v), None)
    | DBetween v w => ("between", Some (shown v), Some (shown w)) | DNotBetween v w => ("notBetween", Some (shown v), Some (shown w))
    end%string.
  Definition of_rule (o : dv_op) : option restriction :=
    match o with
    | AllowNumber k r =>
        let '(op, a, b) := compared r in
        Some (match k with NWhole => "whole" | NDecimal => "decimal" | NDate => "date" | NTime => "time" | NTextLength => "textLength" end, op, a, b)
    | AllowListStrings l => Some ("list", "between", Some (34 :: joined l ++ [34])%list, None)
    | AllowListFormula s => Some ("list", "between", Some (formula_text s), None)
    | AllowCustom s => Some ("custom", "between", Some (formula_text s), None)
    | AllowAny => Some ("none", "between", None, None)
    | _ => None
    end%string.
  Definition of_blank o := match o with IgnoreBlank b => Some b | _ => None end.
  Definition of_dropdown o := match o with ShowDropdown b => Some b | _ => None end.
  Definition of_input o := match o with ShowInput b => Some b | _ => None end.
  Definition of_error o := match o with ShowError b => Some b | _ => None end.
  Definition of_input_title o := match o with InputTitle s => Some s | _ => None end.
  Definition of_input_message o := match o with InputMessage s => Some s | _ => None end.
  Definition of_error_title o := match o with ErrorTitle s => Some s | _ => None end.
  Definition of_error_message o := match o with ErrorMessage s => Some s | _ => None end.
  Definition of_style o := match o with ErrorStyle SStop => Some "stop"%string | ErrorStyle SWarning => Some "warning"%string | ErrorStyle SInformation => Some "information"%string | _ => None end.
  (** Dollar signs are dropped, commas separate. *)
  Definition of_multi o :=
    match o with MultiRange s => Some (map (fun c => if c =? 44 then 32 else c) (filter (fun c => negb (c =? 36)) s)) | _ => None end.
  Definition asked_rule (ops : list dv_op) : restriction := last_given of_rule ("none", "between", None, None)%string ops.
  (** Without a restriction the error style has no effect and is not stored. *)
  Definition asked (ops : list dv_op) : validation :=
    let '(type, operator, a, b) := asked_rule ops in
    {| q_type := lit type; q_operator := lit operator; q_formula1 := a; q_formula2 := b;
       q_style := if String.eqb type "none" then lit "stop" else lit (last_given of_style "stop"%string ops);
       q_blank := last_given of_blank true ops; q_dropdown := last_given of_dropdown true ops;
       q_input := last_given of_input true ops; q_error := last_given of_error true ops;
       q_input_title := last_given of_input_title [] ops; q_input_message := last_given of_input_message [] ops;
       q_error_title := last_given of_error_title [] ops; q_error_message := last_given of_error_message [] ops |}.
  (** The limits: 32 characters for titles, 255 for messages and lists. *)
  Definition too_long (o : dv_op) : bool :=
    match o with
    | AllowListStrings l => 255 <? N.of_nat (length (joined l))
    | InputTitle s | ErrorTitle s => 32 <? N.of_nat (length s)
    | InputMessage s | ErrorMessage s => 255 <? N.of_nat (length s)
    | _ => false
    end.
  (** A validation that neither restricts nor says anything. *)
  Definition idle (ops : list dv_op) : bool :=
    let v := asked ops in
    str_eqb (q_type v) (lit "none") && match q_input_title v, q_input_message v, q_error_title v, q_error_message v with [], [], [], [] => true | _, _, _, _ => false end.
  (** Texts that XML can hold; in attributes neither tabs nor carriage returns (C08). *)
  Definition attr_text (s : str) : Prop := forall c, In c s -> xml_char c = true /\ c <> 9 /\ c <> 13.
  Definition value_ok (v : dv_value) : Prop := match v with VFormula s => doc_text (formula_text s) | _ => True end.
  Definition op_texts (o : dv_op) : Prop :=
    match o with
    | AllowNumber _ r => match r with
        | DEqualTo v | DNotEqualTo v | DGreaterThan v | DGreaterThanOrEqualTo v | DLessThan v | DLessThanOrEqualTo v => value_ok v
        | DBetween v w | DNotBetween v w => value_ok v /\ value_ok w end
    | AllowListStrings l => Forall doc_text l
    | AllowListFormula s | AllowCustom s => doc_text (formula_text s)
    | InputTitle s | InputMessage s | ErrorTitle s | ErrorMessage s | MultiRange s => attr_text s
    | _ => True
    end.
End Asked.

(** A call of add_data_validation: first and last cell, and how the validation was built. *)
Definition dv_add := ((N * N * (N * N)) * list dv_op)%type.
Definition proper_range (q : N * N * (N * N)) : bool :=
  let '(fr, fc, (lr, lc)) := q in on_grid fr fc && on_grid lr lc && (fr <=? lr) && (fc <=? lc).
