(** What serializing to a worksheet promises: the ordinary worksheet calls a
    user would make by hand to get the same sheet. *)
From Verif Require Import Base F64 Fmt_Model Cells_Model Cells_Spec Sheet_Model Geom_Model Serde_Model.

Definition latest {O A} (f : O -> option A) (d : A) (l : list O) : A :=
  fold_left (fun a o => match f o with Some v => v | None => a end) l d.

(** ** Data *)

(** What a single value puts into its cell. *)
Inductive entry := EBool (b : bool) | ENumber (x : f64) | EText (s : str) | ENothing.
Fixpoint single (v : value) : option entry :=
  match v with
  | SVBool b => Some (EBool b)
  | SVInt z => Some (ENumber (f_of_Z z))
  | SVFloat x => Some (ENumber x)
  | SVStr s => Some (EText s)
  | SVChar c => Some (EText [c])
  | SVBytes _ => Some ENothing
  | SVNone | SVUnit | SVUnitStruct _ => Some (EText [])
  | SVUnitVariant _ variant => Some (EText variant)
  | SVSome v | SVNewtype _ v | SVNewtypeVariant _ _ v => single v
  | _ => None
  end.
(** The fields of a record: all of them hold single values. *)
Fixpoint singles (l : list (str * value)) : option (list (str * entry)) :=
  match l with
  | [] => Some []
  | (k, v) :: r => match single v, singles r with Some e, Some r => Some ((k, e) :: r) | _, _ => None end
  end.
(** The records in a value made of records, sequences and tuples, in order: for
    each the name of its struct and its fields. *)
Fixpoint records (v : value) {struct v} : option (list (str * list (str * entry))) :=
  match v with
  | SVStruct name l => match singles l with Some es => Some [(name, es)] | None => None end
  | SVSome v | SVNewtype _ v | SVNewtypeVariant _ _ v => records v
  | SVSeq l | SVTuple l | SVTupleStruct _ l =>
    (fix all (l : list value) : option (list (str * list (str * entry))) :=
       match l with
       | [] => Some []
       | x :: r => match records x, all r with Some a, Some b => Some (a ++ b) | _, _ => None end
       end) l
  | _ => None
  end.

(** ** Headers *)

(** A column of a serialization area. *)
Inductive width := WCharacters (x : f64) | WPixels (n : N).
Record column := { co_field : str; co_header : str; co_header_format : option Format; co_column_format : option Format;
                   co_value_format : option Format; co_width : option width }.
Definition plain_column (name : str) : column :=
  {| co_field := name; co_header := name; co_header_format := None; co_column_format := None; co_value_format := None;
     co_width := None |}.
(** A CustomSerializeField with its options; a width in characters has priority
    over one in pixels. *)
Definition column_of (x : str * list fcall) : column :=
  let calls := snd x in
  {| co_field := fst x;
     co_header := latest (fun c => match c with FRename s => Some s | _ => None end) (fst x) calls;
     co_header_format := latest (fun c => match c with FHeaderFormat f => Some (Some f) | _ => None end) None calls;
     co_column_format := latest (fun c => match c with FColumnFormat f => Some (Some f) | _ => None end) None calls;
     co_value_format := latest (fun c => match c with FValueFormat f => Some (Some f) | _ => None end) None calls;
     co_width :=
       match latest (fun c => match c with FWidth x => Some (Some x) | _ => None end) None calls,
             latest (fun c => match c with FPixels n => Some (Some n) | _ => None end) None calls with
       | Some x, _ => Some (WCharacters x)
       | None, Some n => Some (WPixels n)
       | None, None => None
       end |}.
Definition skipped (x : str * list fcall) : bool :=
  latest (fun c => match c with FSkip b => Some b | _ => None end) false (snd x).
Definition customs (o : list ocall) : list (str * list fcall) :=
  latest (fun c => match c with OCustom l => Some l | _ => None end) [] o.
Definition customs_only (o : list ocall) : bool :=
  latest (fun c => match c with OOnly b => Some b | _ => None end) false o.
Definition custom (name : str) (o : list ocall) : option (str * list fcall) :=
  latest (fun x => if str_eqb (fst x) name then Some (Some x) else None) None (customs o).
(** The columns for a struct with the given fields: those of the struct, in its
    order, with the custom options where there are any; or only the custom ones,
    in the order given.  Skipped ones are left out. *)
Definition kept (l : list (str * list fcall)) : list column := map column_of (filter (fun x => negb (skipped x)) l).
Definition columns (fields : list str) (o : list ocall) : list column :=
  if customs_only o then kept (customs o)
  else flat_map (fun name => match custom name o with Some x => kept [x] | None => [plain_column name] end) fields.

Record heading := { h_name : str; h_row : N; h_col : N; h_shown : bool; h_format : option Format;
                    h_columns : list column; h_table : option tbl }.
Definition heading_plain (row col : N) (name : str) (fields : list str) (f : Format) : heading :=
  {| h_name := name; h_row := row; h_col := col; h_shown := true; h_format := Some f;
     h_columns := map plain_column fields; h_table := None |}.
Definition heading_with (row col : N) (name : str) (cols : list column) (o : list ocall) : heading :=
  let shown := latest (fun c => match c with OHideHeaders b => Some (negb b) | _ => None end) true o in
  {| h_name := name; h_row := row; h_col := col; h_shown := shown;
     h_format := latest (fun c => match c with OHeaderFormat f => Some (Some f) | _ => None end) None o;
     h_columns := cols;
     h_table := match latest (fun c => match c with OTable t => Some (Some t) | _ => None end) None o with
                | Some t => Some {| t_columns := t_columns t; t_name := t_name t;
                                    t_header := t_header t && shown; t_total := t_total t;
                                    t_autofilter := t_autofilter t; t_serde := true; t_range := t_range t |}
                | None => None end |}.

(** ** A history, as the events that matter *)
Inductive event :=
| EvHeading (h : heading)
| EvRecord (name : str) (fields : list (str * entry))
| EvSheet (o : sop)
| EvSave (order : list str).
Definition record_event (x : str * list (str * entry)) : event := EvRecord (fst x) (snd x).
(** Headers are given by a value of the struct or its field names; serialized
    values must be [records]. *)
Definition events_of (c : call) : option (list event) :=
  match c with
  | Headers row col (SVStruct name l) f => Some [EvHeading (heading_plain row col name (map fst l) f)]
  | HeadersWith row col (SVStruct name l) o => Some [EvHeading (heading_with row col name (columns (map fst l) o) o)]
  | HeadersFor row col name l f => Some [EvHeading (heading_plain row col name l f)]
  | HeadersForWith row col name l o => Some [EvHeading (heading_with row col name (columns l o) o)]
  | HeadersSet row col o =>
    Some [EvHeading (heading_with row col (latest (fun c => match c with OStructName s => Some s | _ => None end) [] o)
                       (kept (customs o)) o)]
  | Serialize v => option_map (map record_event) (records v)
  | Sheet o => Some [EvSheet o]
  | Save order => Some [EvSave order]
  | _ => None
  end.
Fixpoint all_events (l : list call) : option (list event) :=
  match l with
  | [] => Some []
  | c :: r => match events_of c, all_events r with Some a, Some b => Some (a ++ b) | _, _ => None end
  end.

(** The area of a struct: its most recent heading, and the number of records of
    that struct since.  ([recent]: the events so far, the latest first.) *)
Fixpoint area_of (name : str) (recent : list event) : option (heading * N) :=
  match recent with
  | [] => None
  | EvHeading h :: r => if str_eqb (h_name h) name then Some (h, 0) else area_of name r
  | EvRecord n _ :: r => match area_of name r with
                         | Some (h, k) => Some (h, if str_eqb n name then k + 1 else k)
                         | None => None end
  | _ :: r => area_of name r
  end.
Definition first_record (h : heading) : N := if h_shown h then h_row h + 1 else h_row h.
Definition last_column (h : heading) : N := h_col h + (N.of_nat (length (h_columns h)) - 1).
(** The table asked for and not written yet. *)
Fixpoint table_due (name : str) (recent : list event) : option tbl :=
  match recent with
  | [] => None
  | EvHeading h :: r => if str_eqb (h_name h) name then h_table h else table_due name r
  | EvSave _ :: _ => None
  | _ :: r => table_due name r
  end.

(** ** The calls made by hand *)
Definition entry_ops (row col : N) (e : entry) (f : option Format) : list sop :=
  match e with
  | EBool b => [SCell (WriteBool row col b f)]
  | ENumber x => [SCell (WriteNumber row col x f)]
  | EText s => [SCell (WriteString row col s f)]
  | ENothing => []
  end.
(** The position of a field among the columns (the last one, should a name occur
    twice). *)
Fixpoint place (name : str) (i : N) (l : list column) : option (N * column) :=
  match l with
  | [] => None
  | c :: r => match place name (i + 1) r with
              | Some x => Some x
              | None => if str_eqb (co_field c) name then Some (i, c) else None end
  end.
Definition record_ops (recent : list event) (name : str) (fields : list (str * entry)) : list sop :=
  match area_of name recent with
  | None => []
  | Some (h, k) =>
    flat_map (fun x => match place (fst x) 0 (h_columns h) with
                       | Some (i, c) => entry_ops (first_record h + k) (h_col h + i) (snd x) (co_value_format c)
                       | None => [] end) fields
  end.
Fixpoint heading_ops (h : heading) (i : N) (l : list column) : list sop :=
  match l with
  | [] => []
  | c :: r =>
    map SCell
      (match co_width c with
       | Some (WCharacters x) => [SetColumnWidth (h_col h + i) x false]
       | Some (WPixels n) => [SetColumnWidth (h_col h + i) (pixels_to_width n) false]
       | None => [] end ++
       match co_column_format c with Some f => [SetColumnFormat (h_col h + i) f] | None => [] end ++
       (if h_shown h
        then [WriteString (h_row h) (h_col h + i) (co_header c)
                (match co_header_format c with Some f => Some f | None => h_format h end)]
        else [])) ++ heading_ops h (i + 1) r
  end.
(** The table covers the area from its header row (or first record) to its last
    record, and one row more for a total row. *)
Definition table_ops (recent : list event) (name : str) : list sop :=
  match area_of name recent, table_due name recent with
  | Some (h, k), Some t =>
    [STable (h_row h) (h_col h) (first_record h + k - 1 + (if t_total t then 1 else 0)) (last_column h) t]
  | _, _ => []
  end.
Definition by_hand (recent : list event) (e : event) : list sop :=
  match e with
  | EvHeading h => heading_ops h 0 (h_columns h) ++ table_ops recent (h_name h)
  | EvRecord n fs => record_ops recent n fs
  | EvSheet o => [o]
  | EvSave order => flat_map (table_ops recent) order
  end.
Fixpoint all_by_hand (recent : list event) (l : list event) : list sop :=
  match l with [] => [] | e :: r => by_hand recent e ++ all_by_hand (e :: recent) r end.

(** Calls made one after the other, up to the first error. *)
Fixpoint perform (lower : str -> str) (s : sheet) (l : list sop) : outcome :=
  match l with
  | [] => Some (s, None)
  | o :: r => match sstep lower s o with Some (s, None) => perform lower s r | x => x end
  end.
(** A history in which every call succeeds. *)
Fixpoint succeeds (lower : str -> str) (s : ser) (l : list call) : option ser :=
  match l with
  | [] => Some s
  | c :: r => match call_step lower c s with Some (s, None) => succeeds lower s r | _ => None end
  end.

(** The contents of a cell holding an entry; [None] for an empty cell. *)
Definition entry_value (e : entry) : option Cells_Spec.value :=
  match e with
  | EBool b => Some (VBool b)
  | ENumber x => if is_finite x then Some (VNumber x) else None
  | EText [] => None
  | EText s => Some (VText s)
  | ENothing => None
  end.
