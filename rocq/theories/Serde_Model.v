(** Model of the serde support of a worksheet (src/serializer.rs and
    src/worksheet.rs:10780-12175, feature serde): storing the headers of a
    struct, serializing values below them, the tables made from the areas. *)
From Verif Require Import Base F64 Fmt_Model Cells_Model Sheet_Model Geom_Model.

(** The serde data model: the calls a [Serialize] implementation makes on a
    serializer, as a tree.  All integer types are [SVInt], both float types
    [SVFloat] (a f32 is exactly a f64); 128 bit integers, which the serializer
    rejects through serde's default methods, are left out. *)
Inductive value :=
| SVBool (b : bool) | SVInt (z : Z) | SVFloat (x : f64) | SVStr (s : str) | SVChar (c : N) | SVBytes (l : list N)
| SVNone | SVUnit | SVUnitStruct (name : str) | SVUnitVariant (name variant : str)
| SVSome (v : value) | SVNewtype (name : str) (v : value) | SVNewtypeVariant (name variant : str) (v : value)
| SVSeq (l : list value) | SVTuple (l : list value) | SVTupleStruct (name : str) (l : list value)
| SVTupleVariant (name variant : str) (l : list value)
| SVMap (l : list (value * value))
| SVStruct (name : str) (l : list (str * value))
| SVStructVariant (name variant : str) (l : list (str * value)).

(** ** Field options *)

(** src/serializer.rs:3018-3028 [CustomSerializeField]. *)
Record field := { fl_field : str; fl_header : str; fl_header_format : option Format; fl_column_format : option Format;
                  fl_value_format : option Format; fl_skip : bool; fl_col : N; fl_width : option f64;
                  fl_pixels : option N }.
(** src/serializer.rs:3044-3059. *)
Definition field_new (name : str) : field :=
  {| fl_field := name; fl_header := name; fl_header_format := None; fl_column_format := None; fl_value_format := None;
     fl_skip := false; fl_col := 0; fl_width := None; fl_pixels := None |}.
(** The builder methods, src/serializer.rs:3156-3514. *)
Inductive fcall :=
| FRename (name : str) | FHeaderFormat (f : Format) | FColumnFormat (f : Format) | FValueFormat (f : Format)
| FSkip (b : bool) | FWidth (x : f64) | FPixels (n : N).
Definition fcall_step (x : field) (c : fcall) : field :=
  match c with
  | FRename s => {| fl_field := fl_field x; fl_header := s; fl_header_format := fl_header_format x; fl_column_format := fl_column_format x; fl_value_format := fl_value_format x; fl_skip := fl_skip x; fl_col := fl_col x; fl_width := fl_width x; fl_pixels := fl_pixels x |}
  | FHeaderFormat f => {| fl_field := fl_field x; fl_header := fl_header x; fl_header_format := Some f; fl_column_format := fl_column_format x; fl_value_format := fl_value_format x; fl_skip := fl_skip x; fl_col := fl_col x; fl_width := fl_width x; fl_pixels := fl_pixels x |}
  | FColumnFormat f => {| fl_field := fl_field x; fl_header := fl_header x; fl_header_format := fl_header_format x; fl_column_format := Some f; fl_value_format := fl_value_format x; fl_skip := fl_skip x; fl_col := fl_col x; fl_width := fl_width x; fl_pixels := fl_pixels x |}
  | FValueFormat f => {| fl_field := fl_field x; fl_header := fl_header x; fl_header_format := fl_header_format x; fl_column_format := fl_column_format x; fl_value_format := Some f; fl_skip := fl_skip x; fl_col := fl_col x; fl_width := fl_width x; fl_pixels := fl_pixels x |}
  | FSkip b => {| fl_field := fl_field x; fl_header := fl_header x; fl_header_format := fl_header_format x; fl_column_format := fl_column_format x; fl_value_format := fl_value_format x; fl_skip := b; fl_col := fl_col x; fl_width := fl_width x; fl_pixels := fl_pixels x |}
  | FWidth w => {| fl_field := fl_field x; fl_header := fl_header x; fl_header_format := fl_header_format x; fl_column_format := fl_column_format x; fl_value_format := fl_value_format x; fl_skip := fl_skip x; fl_col := fl_col x; fl_width := Some w; fl_pixels := fl_pixels x |}
  | FPixels n => {| fl_field := fl_field x; fl_header := fl_header x; fl_header_format := fl_header_format x; fl_column_format := fl_column_format x; fl_value_format := fl_value_format x; fl_skip := fl_skip x; fl_col := fl_col x; fl_width := fl_width x; fl_pixels := Some n |}
  end.
Definition field_of (x : str * list fcall) : field := fold_left fcall_step (snd x) (field_new (fst x)).
Definition at_col (x : field) (col : N) : field :=      (* src/worksheet.rs:12027-12028 *)
  {| fl_field := fl_field x; fl_header := fl_header x; fl_header_format := fl_header_format x; fl_column_format := fl_column_format x; fl_value_format := fl_value_format x; fl_skip := fl_skip x; fl_col := col; fl_width := fl_width x; fl_pixels := fl_pixels x |}.

(** src/serializer.rs:2220-2227 [SerializeFieldOptions]. *)
Record options := { o_struct : str; o_format : option Format; o_has : bool; o_headers : list field; o_only : bool;
                    o_table : option tbl }.
Definition options_new : options :=                       (* src/serializer.rs:2246-2255 *)
  {| o_struct := []; o_format := None; o_has := true; o_headers := []; o_only := false; o_table := None |}.
(** The builder methods, src/serializer.rs:2335-2911.  set_table_default and
    set_table_style are set_table with a table built there. *)
Inductive ocall :=
| OHeaderFormat (f : Format) | OHideHeaders (b : bool) | OCustom (l : list (str * list fcall)) | OTable (t : tbl)
| OOnly (b : bool) | OStructName (s : str).
Definition ocall_step (x : options) (c : ocall) : options :=
  match c with
  | OHeaderFormat f => {| o_struct := o_struct x; o_format := Some f; o_has := o_has x; o_headers := o_headers x; o_only := o_only x; o_table := o_table x |}
  | OHideHeaders b => {| o_struct := o_struct x; o_format := o_format x; o_has := negb b; o_headers := o_headers x; o_only := o_only x; o_table := o_table x |}
  | OCustom l => {| o_struct := o_struct x; o_format := o_format x; o_has := o_has x; o_headers := map field_of l; o_only := o_only x; o_table := o_table x |}
  | OTable t => {| o_struct := o_struct x; o_format := o_format x; o_has := o_has x; o_headers := o_headers x; o_only := o_only x; o_table := Some t |}
  | OOnly b => {| o_struct := o_struct x; o_format := o_format x; o_has := o_has x; o_headers := o_headers x; o_only := b; o_table := o_table x |}
  | OStructName s => {| o_struct := s; o_format := o_format x; o_has := o_has x; o_headers := o_headers x; o_only := o_only x; o_table := o_table x |}
  end.
Definition options_of (l : list ocall) : options := fold_left ocall_step l options_new.

(** ** The serializer state *)

(** A HashMap with string keys, for [get] and [insert]; where the code iterates
    over it (get_tables) the order is a parameter. *)
Section Hash.
  Context {V : Type}.
  Fixpoint hm_get (k : str) (m : list (str * V)) : option V :=
    match m with [] => None | (j, v) :: r => if str_eqb j k then Some v else hm_get k r end.
  Fixpoint hm_ins (k : str) (v : V) (m : list (str * V)) : list (str * V) :=
    match m with
    | [] => [(k, v)]
    | (j, w) :: r => if str_eqb j k then (k, v) :: r else (j, w) :: hm_ins k v r
    end.
End Hash.

(** src/serializer.rs:2092-2099 [SerializationHeaderConfig]. *)
Record area := { a_fields : list (str * field); a_min_row : N; a_min_col : N; a_max_row : N; a_max_col : N;
                 a_table : option tbl }.
Definition no_table (a : area) : area :=
  {| a_fields := a_fields a; a_min_row := a_min_row a; a_min_col := a_min_col a; a_max_row := a_max_row a;
     a_max_col := a_max_col a; a_table := None |}.
Definition next_row (a : area) : area :=
  {| a_fields := a_fields a; a_min_row := a_min_row a; a_min_col := a_min_col a; a_max_row := a_max_row a + 1;
     a_max_col := a_max_col a; a_table := a_table a |}.

(** The worksheet and its [SerializerState] (src/serializer.rs:1979-1983). *)
Record ser := { se_sheet : sheet; se_structs : list (str * area); se_struct : str; se_field : str }.
Definition ser_new (s : sheet) : ser :=                   (* src/serializer.rs:1987-1993 *)
  {| se_sheet := s; se_structs := []; se_struct := []; se_field := [] |}.
Definition with_sheet (s : ser) (x : sheet) : ser :=
  {| se_sheet := x; se_structs := se_structs s; se_struct := se_struct s; se_field := se_field s |}.
Definition with_structs (s : ser) (x : list (str * area)) : ser :=
  {| se_sheet := se_sheet s; se_structs := x; se_struct := se_struct s; se_field := se_field s |}.
Definition with_field (s : ser) (k : str) : ser :=
  {| se_sheet := se_sheet s; se_structs := se_structs s; se_struct := se_struct s; se_field := k |}.

Inductive sd_error := SdSheet (e : serror) | SdParameter.
(** [None] is a panic. *)
Definition out : Type := option (ser * option sd_error).
Definition done (s : ser) : out := Some (s, None).
Definition and_then (o : out) (k : ser -> out) : out :=    (* the [?] operator *)
  match o with Some (s, None) => k s | _ => o end.
Definition on_sheet (s : ser) (o : outcome) : out :=
  match o with None => None | Some (x, e) => Some (with_sheet s x, option_map SdSheet e) end.

(** ** Writing values *)

(** The IntoExcelData arguments used: src/worksheet.rs:20014-20115. *)
Inductive datum := DBool (b : bool) | DNumber (x : f64) | DText (s : str).
Definition data_op (row col : N) (d : datum) (f : option Format) : op :=
  match d with
  | DBool b => WriteBool row col b f
  | DNumber x => WriteNumber row col x f
  | DText s => WriteString row col s f
  end.

(** src/serializer.rs:1997-2012 and src/worksheet.rs:12128-12144.  [max_row - 1]
    of an u32 0 panics in a debug build; the model panics in both. *)
Definition put (d : datum) (s : ser) : out :=
  match hm_get (se_struct s) (se_structs s) with
  | None => done s
  | Some a =>
    match hm_get (se_field s) (a_fields a) with
    | None => done s
    | Some f =>
      if a_max_row a =? 0 then None
      else on_sheet s (lift (se_sheet s) (step (cells (se_sheet s)) (data_op (a_max_row a - 1) (fl_col f) d (fl_value_format f))))
    end
  end.

(** src/serializer.rs:2015-2025. *)
Definition set_current_struct (name : str) (s : ser) : ser :=
  {| se_sheet := se_sheet s;
     se_structs := match hm_get name (se_structs s) with
                   | Some a => hm_ins name (next_row a) (se_structs s)
                   | None => se_structs s end;
     se_struct := name; se_field := se_field s |}.

(** The Serializer of a worksheet: src/serializer.rs:3522-3750 and the compound
    types 3757-3890.  An integer is stored as f64 ([as f64]). *)
Fixpoint serialize (v : value) (s : ser) {struct v} : out :=
  match v with
  | SVBool b => put (DBool b) s
  | SVInt z => put (DNumber (f_of_Z z)) s
  | SVFloat x => put (DNumber x) s
  | SVStr t => put (DText t) s
  | SVChar c => put (DText [c]) s
  | SVBytes _ => done s
  | SVNone | SVUnit | SVUnitStruct _ => put (DText []) s
  | SVUnitVariant _ variant => put (DText variant) s
  | SVSome v | SVNewtype _ v | SVNewtypeVariant _ _ v => serialize v s
  | SVSeq l | SVTuple l | SVTupleStruct _ l =>
    (fix go (l : list value) (s : ser) : out :=
       match l with [] => done s | x :: r => and_then (serialize x s) (go r) end) l s
  | SVTupleVariant _ variant l =>
    and_then (put (DText variant) s)
      ((fix go (l : list value) (s : ser) : out :=
          match l with [] => done s | x :: r => and_then (serialize x s) (go r) end) l)
  | SVMap l =>
    (fix go (l : list (value * value)) (s : ser) : out :=
       match l with
       | [] => done s
       | (k, x) :: r => and_then (and_then (serialize k s) (serialize x)) (go r)
       end) l s
  | SVStruct name l =>
    (fix go (l : list (str * value)) (s : ser) : out :=
       match l with [] => done s | (k, x) :: r => and_then (serialize x (with_field s k)) (go r) end)
      l (set_current_struct name s)
  | SVStructVariant _ variant l =>
    and_then (put (DText variant) s)
      ((fix go (l : list (str * value)) (s : ser) : out :=
          match l with
          | [] => done s
          | (k, x) :: r => and_then (and_then (put (DText k) s) (serialize x)) (go r)
          end) l)
  end.

(** ** Headers *)

(** The header serializer, src/serializer.rs:3897-4197: the name of the struct
    and the field names it collects. *)
Fixpoint headers (v : value) (h : str * list str) {struct v} : str * list str :=
  match v with
  | SVStr t => (fst h, snd h ++ [t])
  | SVStruct name l => (name, snd h ++ map fst l)
  | SVTuple l =>
    (fix go (l : list value) (h : str * list str) : str * list str :=
       match l with [] => h | x :: r => go r (headers x h) end) l h
  | SVTupleVariant _ variant _ | SVStructVariant _ variant _ => (fst h, snd h ++ [variant])
  | _ => h
  end.
Definition headers_of (v : value) : str * list str := headers v ([], []).

(** src/worksheet.rs:12032-12065: the calls made for one column. *)
Definition column_ops (row : N) (o : options) (f : field) (col : N) : list op :=
  match fl_width f with
  | Some x => [SetColumnWidth col x false]
  | None => match fl_pixels f with Some p => [SetColumnWidth col (pixels_to_width p) false] | None => [] end
  end ++
  match fl_column_format f with Some x => [SetColumnFormat col x] | None => [] end ++
  (if o_has o
   then [WriteString row col (fl_header f) (match fl_header_format f with Some x => Some x | None => o_format o end)]
   else []).

(** The loop 12020-12068.  [col_initial + col_offset as u16] overflows only for
    more than 49000 columns; the model panics there. *)
Fixpoint store_columns (l : list field) (row col off max_col : N) (o : options) (fields : list (str * field)) (w : ws)
  : option (ws * option error * list (str * field) * N) :=
  match l with
  | [] => Some (w, None, fields, max_col)
  | f :: r =>
    if fl_skip f then store_columns r row col off max_col o fields w
    else if 65535 <? col + off then None
    else
      let c := col + off in
      match write_all w (column_ops row o f c) with
      | (w, Some e) => Some (w, Some e, fields, c)
      | (w, None) => store_columns r row col (off + 1) c o (hm_ins (fl_field f) (at_col f c) fields) w
      end
  end.

Section Save.
Variable lower : str -> str.      (* str::to_lowercase, for the column names of tables *)

(** src/serializer.rs:2103-2116 and src/worksheet.rs:12160-12175: the table of
    an area.  [max_row - 1] of 0 is a panic. *)
Definition write_area_table (s : ser) (a : area) (t : tbl) : out :=
  if a_max_row a =? 0 then None
  else on_sheet s (add_table lower (se_sheet s) (a_min_row a) (a_min_col a)
                    (if t_total t then a_max_row a - 1 + 1 else a_max_row a - 1) (a_max_col a) t).

(** src/worksheet.rs:11984-12114. *)
Definition store_custom_headers (row col : N) (o : options) (s : ser) : out :=
  if negb (check_dimensions_only row col) then Some (s, Some (SdSheet (SE RowColumnLimit)))
  else match o_struct o with
  | [] => Some (s, Some SdParameter)
  | _ =>
    match o_headers o with
    | [] => Some (s, Some SdParameter)
    | _ =>
      match store_columns (o_headers o) row col 0 col o [] (cells (se_sheet s)) with
      | None => None
      | Some (w, Some e, _, _) => Some (with_sheet s (with_cells (se_sheet s) w), Some (SdSheet (SE e)))
      | Some (w, None, fields, max_col) =>
        let s := with_sheet s (with_cells (se_sheet s) w) in
        let max_row := if o_has o then row + 1 else row in
        and_then
          (match hm_get (o_struct o) (se_structs s) with
           | Some a => match a_table a with
                       | Some t => write_area_table (with_structs s (hm_ins (o_struct o) (no_table a) (se_structs s))) a t
                       | None => done s end
           | None => done s end)
          (fun s =>
             let table := match o_table o with
                          | Some t => Some {| t_columns := t_columns t; t_name := t_name t;
                                              t_header := if o_has o then t_header t else false;
                                              t_total := t_total t; t_autofilter := t_autofilter t; t_serde := true;
                                              t_range := t_range t |}
                          | None => None end in
             done (with_structs s (hm_ins (o_struct o)
                     {| a_fields := fields; a_min_row := row; a_min_col := col; a_max_row := max_row;
                        a_max_col := max_col; a_table := table |} (se_structs s))))
      end
    end
  end.

(** src/worksheet.rs:11957-11980. *)
Definition store_headers (row col : N) (h : str * list str) (f : Format) (s : ser) : out :=
  store_custom_headers row col
    {| o_struct := fst h; o_format := Some f; o_has := true; o_headers := map field_new (snd h); o_only := false;
       o_table := None |} s.

(** The HashMap [custom_fields] of 11923-11926: the last entry for a name. *)
Definition custom_for (name : str) (l : list field) : option field :=
  fold_left (fun found f => if str_eqb (fl_field f) name then Some f else found) l None.
(** src/worksheet.rs:11903-11953. *)
Definition store_headers_with (row col : N) (h : str * list str) (o : options) (s : ser) : out :=
  if negb (forallb (fun f => existsb (str_eqb (fl_field f)) (snd h)) (o_headers o)) then Some (s, Some SdParameter)
  else
    let chosen :=
      if o_only o then o_headers o
      else flat_map (fun name => match custom_for name (o_headers o) with
                                 | Some f => if fl_skip f then [] else [f]
                                 | None => [field_new name] end) (snd h) in
    store_custom_headers row col
      {| o_struct := fst h; o_format := o_format o; o_has := o_has o; o_headers := chosen; o_only := o_only o;
         o_table := o_table o |} s.

(** src/worksheet.rs:12148-12156 with src/serializer.rs:2075-2085: all tables are
    taken first, in the order [order] of the HashMap, then written. *)
Definition pending_tables (order : list str) (s : ser) : list (area * tbl) :=
  flat_map (fun n => match hm_get n (se_structs s) with
                     | Some a => match a_table a with Some t => [(a, t)] | None => [] end
                     | None => [] end) order.
Definition take_tables (s : ser) : ser := with_structs s (map (fun x => (fst x, no_table (snd x))) (se_structs s)).
Fixpoint write_tables (l : list (area * tbl)) (s : ser) : out :=
  match l with
  | [] => done s
  | (a, t) :: r => and_then (write_area_table s a t) (write_tables r)
  end.
(** [max_row - 1] is taken in get_tables, before any table is written. *)
Definition store_tables (order : list str) (s : ser) : out :=
  let l := pending_tables order s in
  if existsb (fun x => a_max_row (fst x) =? 0) l then None else write_tables l (take_tables s).

(** ** Queries: src/serializer.rs:2029-2072.  [None] is a panic. *)
Definition get_dimensions (name : str) (s : ser) : option (option (N * N * N * N)) :=
  match hm_get name (se_structs s) with
  | None => Some None
  | Some a => if a_max_row a =? 0 then None else Some (Some (a_min_row a, a_min_col a, a_max_row a - 1, a_max_col a))
  end.
Definition get_column_dimensions (name field : str) (s : ser) : option (option (N * N * N * N)) :=
  match hm_get name (se_structs s) with
  | None => Some None
  | Some a => match hm_get field (a_fields a) with
              | None => Some None
              | Some f => if a_max_row a =? 0 then None
                          else Some (Some (a_min_row a, fl_col f, a_max_row a - 1, fl_col f)) end
  end.

(** ** The API *)
Inductive call :=
| Headers (row col : N) (v : value) (f : Format)     (* serialize_headers(_with_format), 10939-11067 *)
| HeadersWith (row col : N) (v : value) (o : list ocall) (* serialize_headers_with_options, 11190-11208 *)
| HeadersFor (row col : N) (name : str) (fields : list str) (f : Format)
    (* deserialize_headers(_with_format), 11300-11420: the names a Deserialize implementation announces *)
| HeadersForWith (row col : N) (name : str) (fields : list str) (o : list ocall)   (* 11542-11555 *)
| HeadersSet (row col : N) (o : list ocall)           (* set_serialize_headers, 11649-11659 *)
| Serialize (v : value)                               (* 10780-10787, 12118-12124 *)
| Sheet (o : sop)                                     (* the other calls on the worksheet *)
| Save (order : list str).                            (* src/workbook.rs:2090-2093 *)
Definition call_step (c : call) (s : ser) : out :=
  match c with
  | Headers row col v f => store_headers row col (headers_of v) f s
  | HeadersWith row col v o => store_headers_with row col (headers_of v) (options_of o) s
  | HeadersFor row col n l f => store_headers row col (n, l) f s
  | HeadersForWith row col n l o => store_headers_with row col (n, l) (options_of o) s
  | HeadersSet row col o => store_custom_headers row col (options_of o) s
  | Serialize v => serialize v s
  | Sheet o => on_sheet s (sstep lower (se_sheet s) o)
  | Save order => store_tables order s
  end.
End Save.
