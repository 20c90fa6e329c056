(** Reading an [<autoFilter>] element (ECMA-376 part 1, 18.3.2 and 18.18.31), and
    what the calls on a FilterCondition ask for. *)
From Verif Require Import Base F64 Xml_Spec Xml_Read Xml_Tree SheetXml_Spec Doc_Spec View_Spec Fmt_Model Cells_Model Filter_Model Filter_Spec Props_Filter.

(** ** Reading *)
Inductive fcompare := IsEqual | IsLess | IsLessOrEqual | IsNotEqual | IsGreaterOrEqual | IsGreater.
(** The operator attribute; without it, equality. *)
Definition compare_of (l : list (str * str)) : option fcompare :=
  match attr "operator" l with
  | None => Some IsEqual
  | Some o =>
      if str_eqb o (lit "equal") then Some IsEqual else if str_eqb o (lit "lessThan") then Some IsLess
      else if str_eqb o (lit "lessThanOrEqual") then Some IsLessOrEqual else if str_eqb o (lit "notEqual") then Some IsNotEqual
      else if str_eqb o (lit "greaterThanOrEqual") then Some IsGreaterOrEqual else if str_eqb o (lit "greaterThan") then Some IsGreater else None
  end.
(** A list of values, or one or two comparisons. *)
Inductive rfilter := RList (blanks : bool) (vals : list str) | RCustom (both : bool) (tests : list (fcompare * str)).
Definition read_value (n : node) : option str :=
  match n with Elem tag l _ => if str_eqb tag (lit "filter") then attr "val" l else None | Txt _ => None end.
Definition read_test (n : node) : option (fcompare * str) :=
  match n with
  | Elem tag l _ => if str_eqb tag (lit "customFilter") then bind (compare_of l) (fun o => bind (attr "val" l) (fun v => Some (o, v))) else None
  | Txt _ => None end.
Definition read_condition (n : node) : option rfilter :=
  match n with
  | Elem tag l kids =>
      if str_eqb tag (lit "filters") then bind (read_all read_value kids) (fun vs => Some (RList (flag_of "blank" l) vs))
      else if str_eqb tag (lit "customFilters") then bind (read_all read_test kids) (fun ts => Some (RCustom (flag_of "and" l) ts))
      else None
  | Txt _ => None end.
Definition read_filter_column (n : node) : option (N * rfilter) :=
  match n with
  | Elem tag l [k] => if str_eqb tag (lit "filterColumn") then
      bind (attr "colId" l) (fun i => bind (number_of i) (fun i => bind (read_condition k) (fun r => Some (i, r)))) else None
  | _ => None end.
Definition read_auto_filter (n : node) : option ((N * N * (N * N)) * list (N * rfilter)) :=
  match n with
  | Elem tag l kids => if str_eqb tag (lit "autoFilter") then
      bind (attr "ref" l) (fun t => bind (range_of t) (fun r => bind (read_all read_filter_column kids) (fun cols => Some (r, cols)))) else None
  | Txt _ => None end.
Definition read_element (t : str) : option ((N * N * (N * N)) * list (N * rfilter)) :=
  match read_xml t with Some [n] => read_auto_filter n | _ => None end.

(** ** Asked for *)

(** The text of a value given to a filter. *)
Definition value_text (num_text : f64 -> str) (v : fvalue) : str := match v with FText s => s | FNumber x => num_text x end.
(** The comparison and pattern of a criterion: [*] stands for any text. *)
Definition test_of (k : criteria) (t : str) : fcompare * str :=
  let star := lit "*" in
  match k with
  | EqualTo => (IsEqual, t) | NotEqualTo => (IsNotEqual, t)
  | GreaterThan => (IsGreater, t) | GreaterThanOrEqualTo => (IsGreaterOrEqual, t)
  | LessThan => (IsLess, t) | LessThanOrEqualTo => (IsLessOrEqual, t)
  | BeginsWith => (IsEqual, t ++ star) | DoesNotBeginWith => (IsNotEqual, t ++ star)
  | EndsWith => (IsEqual, star ++ t) | DoesNotEndWith => (IsNotEqual, star ++ t)
  | Contains => (IsEqual, star ++ t ++ star) | DoesNotContain => (IsNotEqual, star ++ t ++ star)
  end.
Definition tests_of num_text (l : list bcall) : list (fcompare * str) :=
  flat_map (fun b => match b with BCustom k v => [test_of k (value_text num_text v)] | _ => [] end) l.
Definition values_of num_text (l : list bcall) : list str :=
  flat_map (fun b => match b with BList v => [value_text num_text v] | _ => [] end) l.
(** What a series of calls on a condition asks for.  The kind is that of the last
    call; two comparisons are joined by "and" unless add_custom_boolean_or comes
    after the second one. *)
Definition asked (num_text : f64 -> str) (l : list bcall) (r : rfilter) : Prop :=
  match r with
  | RList blanks vals => match rev l with [] => True | b :: _ => is_list_call b = true end /\
      (blanks = true <-> In BBlanks l) /\ vals = values_of num_text l
  | RCustom both tests => match rev l with [] => False | b :: _ => is_list_call b = false end /\
      tests = firstn 2 (tests_of num_text l) /\
      (both = true <-> exists before k v after, l = before ++ BCustom k v :: after /\
                       length (tests_of num_text before) = 1%nat /\ ~ In BOr after)
  end.
(** The texts fit in attributes. *)
Definition call_fits (num_text : f64 -> str) (b : bcall) : Prop :=
  match b with BList v | BCustom _ v => forallb attr_char (value_text num_text v) = true | _ => True end.
Definition made_of_calls num_text (ops : list fop) : Prop :=
  forall col c, In (FFilterColumn col c) ops -> exists l, c = build num_text l /\ Forall (call_fits num_text) l.

(** What a stored comparison accepts, of texts: patterns for equality, the order
    of texts for the others. *)
Definition test_accepts (f : fcompare * str) (t : str) : Prop :=
  match fst f with
  | IsEqual => wild (snd f) t | IsNotEqual => ~ wild (snd f) t
  | IsLess => Book_Spec.str_lt t (snd f) | IsGreater => Book_Spec.str_lt (snd f) t
  | IsLessOrEqual => t = snd f \/ Book_Spec.str_lt t (snd f) | IsGreaterOrEqual => t = snd f \/ Book_Spec.str_lt (snd f) t
  end.
