(** Reading a saved worksheet: what a consumer of the file finds in <sheetData>
    and in the shared string part.  Uses the XML reader (Xml_Read) and the A1
    reader (Ref_Spec); no writer function. *)
From Verif Require Import Base F64 Xml_Spec Xml_Read Ref_Spec Cells_Spec.

(** A cached formula result, by its type attribute. *)
Inductive result := RNumber (t : str) | RBool (b : bool) | RError (t : str) | RText (t : str).
(** What a <c> element says. Numbers are kept as the decimal text found. *)
Inductive fvalue :=
| FBlank
| FNumber (t : str)
| FText (s : str)
| FRich (runs : list node)
| FBool (b : bool)
| FFormula (text : str) (array : option str) (r : result)
| FImage (vm : N).
(** [fc_meta] is the number of the cell's metadata record, the cm attribute. *)
Record fcell := { fc_row : N; fc_col : N; fc_style : N; fc_value : fvalue; fc_meta : option N }.
Record frow := { fr_row : N; fr_style : option N; fr_height : option str; fr_hidden : bool;
                 fr_level : N; fr_collapsed : bool; fr_cells : list fcell }.

Definition attr (k : string) (l : list (str * str)) : option str :=
  match find (fun p => str_eqb (fst p) (lit k)) l with Some p => Some (snd p) | None => None end.
Definition number_of (s : str) : option N := match s with [] => None | _ => dec_number 0 s end.
Definition is_elem (k : string) (n : node) : bool := match n with Elem m _ _ => str_eqb m (lit k) | Txt _ => false end.
Definition kid (k : string) (l : list node) : option node := find (is_elem k) l.
Definition text_of (n : node) : option str :=
  match n with Elem _ _ [] => Some [] | Elem _ _ [Txt t] => Some t | _ => None end.
Definition kid_text (k : string) (l : list node) : option str :=
  match kid k l with Some n => text_of n | None => None end.

(** <si> or <is>: a <t> with text, or runs. *)
Definition read_item (n : node) : option fvalue :=
  match n with
  | Elem _ _ (k :: r) =>
      if is_elem "t" k then match r, text_of k with [], Some t => Some (FText (excel_decode t)) | _, _ => None end
      else if forallb (is_elem "r") (k :: r) then Some (FRich (k :: r)) else None
  | _ => None
  end.
Definition read_result (t : option str) (v : str) : option result :=
  match t with
  | None => Some (RNumber v)
  | Some k => if str_eqb k (lit "b") then (if str_eqb v (lit "1") then Some (RBool true) else if str_eqb v (lit "0") then Some (RBool false) else None)
              else if str_eqb k (lit "e") then Some (RError v)
              else if str_eqb k (lit "str") then Some (RText (excel_decode v)) else None
  end.
Definition bind {A B} (o : option A) (f : A -> option B) : option B := match o with Some x => f x | None => None end.
Definition read_value (items : list node) (attrs : list (str * str)) (kids : list node) : option fvalue :=
  match kids with
  | [] => Some FBlank
  | _ =>
    match kid "f" kids with
    | Some (Elem _ fa _ as f) =>
        bind (text_of f) (fun text => bind (kid_text "v" kids) (fun v => bind (read_result (attr "t" attrs) v) (fun r =>
          Some (FFormula (excel_decode text) (match attr "t" fa with Some k => if str_eqb k (lit "array") then attr "ref" fa else None | None => None end) r))))
    | _ =>
        match attr "t" attrs with
        | None => bind (kid_text "v" kids) (fun v => Some (FNumber v))
        | Some k =>
            if str_eqb k (lit "s") then bind (kid_text "v" kids) (fun v => bind (number_of v) (fun i => bind (nth_error items (N.to_nat i)) read_item))
            else if str_eqb k (lit "inlineStr") then bind (kid "is" kids) read_item
            else if str_eqb k (lit "b") then bind (kid_text "v" kids) (fun v => bind (read_result (Some k) v) (fun r => match r with RBool b => Some (FBool b) | _ => None end))
            else if str_eqb k (lit "e") then bind (attr "vm" attrs) (fun v => bind (number_of v) (fun i => Some (FImage i)))
            else None
        end
    end
  end.
Definition style_of (attrs : list (str * str)) : option N := match attr "s" attrs with Some s => number_of s | None => Some 0 end.
Definition meta_of (attrs : list (str * str)) : option (option N) :=
  match attr "cm" attrs with Some s => bind (number_of s) (fun i => Some (Some i)) | None => Some None end.
Definition read_cell (items : list node) (n : node) : option fcell :=
  match n with
  | Elem k attrs kids =>
      if str_eqb k (lit "c") then
        bind (attr "r" attrs) (fun r => bind (parse_a1 r) (fun a => bind (style_of attrs) (fun st => bind (read_value items attrs kids) (fun v => bind (meta_of attrs) (fun mt =>
          Some {| fc_row := a1_row a; fc_col := a1_col a; fc_style := st; fc_value := v; fc_meta := mt |})))))
      else None
  | Txt _ => None
  end.
Fixpoint read_all {A B} (f : A -> option B) (l : list A) : option (list B) :=
  match l with [] => Some [] | x :: r => bind (f x) (fun a => bind (read_all f r) (fun b => Some (a :: b))) end.
Definition flag_of (k : string) (attrs : list (str * str)) : bool := match attr k attrs with Some v => str_eqb v (lit "1") | None => false end.
Definition read_row (items : list node) (n : node) : option frow :=
  match n with
  | Elem k attrs kids =>
      if str_eqb k (lit "row") then
        bind (attr "r" attrs) (fun r => bind (number_of r) (fun num => bind (read_all (read_cell items) kids) (fun cells =>
        bind (match attr "s" attrs with None => Some None | Some s => bind (number_of s) (fun i => Some (Some i)) end) (fun st =>
        bind (match attr "outlineLevel" attrs with None => Some 0 | Some s => number_of s end) (fun lv =>
        if (1 <=? num) && forallb (fun c => fc_row c =? num - 1) cells then
          Some {| fr_row := num - 1; fr_style := if flag_of "customFormat" attrs then st else None;
                  fr_height := if flag_of "customHeight" attrs then attr "ht" attrs else None;
                  fr_hidden := flag_of "hidden" attrs; fr_level := lv; fr_collapsed := flag_of "collapsed" attrs; fr_cells := cells |}
        else None)))))
      else None
  | Txt _ => None
  end.
Definition read_sheet_data (items : list node) (s : str) : option (list frow) :=
  match read_xml s with
  | Some [Elem k _ rows] => if str_eqb k (lit "sheetData") then read_all (read_row items) rows else None
  | _ => None
  end.
(** The cells found for (r, c). *)
Definition cells_at (rows : list frow) (r c : N) : list (fvalue * N) :=
  flat_map (fun o => flat_map (fun x => if (fc_row x =? r) && (fc_col x =? c) then [(fc_value x, fc_style x)] else []) (fr_cells o)) rows.
(** The metadata records of the cells found for (r, c). *)
Definition metas_at (rows : list frow) (r c : N) : list (option N) :=
  flat_map (fun o => flat_map (fun x => if (fc_row x =? r) && (fc_col x =? c) then [fc_meta x] else []) (fr_cells o)) rows.

(** ** Decimal numbers and results *)
Definition all_digits (s : str) : Prop := forall c, In c s -> 48 <= c <= 57.
Definition is_sign (s : str) : Prop := s = [] \/ s = [43] \/ s = [45].
Definition decimal_number (s : str) : Prop :=
  exists sg ip fp ex, s = sg ++ ip ++ fp ++ ex /\ is_sign sg /\ all_digits ip /\
    (fp = [] \/ exists d, fp = 46 :: d /\ all_digits d) /\ (ip <> [] \/ (exists c d, fp = 46 :: c :: d)) /\
    (ex = [] \/ exists e sg2 d, ex = e :: sg2 ++ d /\ (e = 101 \/ e = 69) /\ is_sign sg2 /\ all_digits d /\ d <> []).
(** "inf", "infinity", "nan" in any case, signed or not. *)
Definition special_word (s : str) : Prop :=
  exists sg w, s = sg ++ w /\ is_sign sg /\ In (map ascii_lower w) [lit "inf"; lit "infinity"; lit "nan"].
Definition error_value (s : str) : Prop :=
  In s (map lit ["#DIV/0!"; "#N/A"; "#NAME?"; "#NULL!"; "#NUM!"; "#REF!"; "#VALUE!"; "#GETTING_DATA"]%string).
(** What the result text [r] given by the user should be read as. *)
Inductive result_read : str -> result -> Prop :=
| rr_number r : decimal_number r -> result_read r (RNumber r)
| rr_error r : error_value r -> result_read r (RError r)
| rr_true : result_read (lit "TRUE") (RBool true)
| rr_false : result_read (lit "FALSE") (RBool false)
| rr_text r : ~ decimal_number r -> ~ error_value r -> r <> lit "TRUE" -> r <> lit "FALSE" -> result_read r (RText r).

(** How a value is found in the file. *)
Section Values.
  Variable read_num : str -> option f64.
  Variable image_id : N -> N.
  Inductive value_read : value -> fvalue -> Prop :=
  | vr_blank : value_read VBlank FBlank
  | vr_number x t : read_num t = Some x -> value_read (VNumber x) (FNumber t)
  | vr_datetime x t : read_num t = Some x -> value_read (VDateTime x) (FNumber t)
  | vr_text s : value_read (VText s) (FText s)
  | vr_rich mk runs : read_xml mk = Some runs -> value_read (VRich mk) (FRich runs)
  | vr_bool b : value_read (VBool b) (FBool b)
  | vr_formula t r q : result_read r q -> value_read (VFormula t r) (FFormula t None q)
  | vr_array t r g q : result_read r q -> value_read (VArray t r g) (FFormula t (Some g) q)
  | vr_image n : value_read (VImage n) (FImage (image_id n)).
End Values.

(** ** Texts that can be stored: every Unicode scalar except U+FFFE and U+FFFF. *)
Definition storable (s : str) : Prop := forall c, In c s -> is_scalar c = true /\ c <> 0xFFFE /\ c <> 0xFFFF.
(** Formula and result texts: moreover no control characters but tab and newline,
    and nothing Excel would take for an escape. *)
Definition plain_text (s : str) : Prop :=
  storable s /\ (forall c, In c s -> 32 <= c \/ c = 9 \/ c = 10) /\ excel_decode s = s.
Definition looks_like_runs (s : str) : Prop := (exists r, s = lit "<r>" ++ r) /\ (exists r, s = r ++ lit "</r>").
