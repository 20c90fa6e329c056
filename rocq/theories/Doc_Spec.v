(** Reading docProps/app.xml, core.xml, custom.xml and xl/workbook.xml.  Uses the
    XML reader only; no writer function. *)
From Verif Require Import Base Xml_Spec Xml_Read SheetXml_Spec.

(** Text a property can hold and get back: any XML characters except CR. *)
Definition doc_text (s : str) : Prop := forallb (fun c => xml_char c && negb (c =? 13)) s = true.

Definition kids_of (n : node) : list node := match n with Elem _ _ k => k | Txt _ => [] end.
Definition attrs_of (n : node) : list (str * str) := match n with Elem _ l _ => l | Txt _ => [] end.
Definition root (k : string) (n : node) : bool := is_elem k n.
(** A property with no element is the empty text. *)
Definition prop (k : string) (n : node) : option str :=
  match kid k (kids_of n) with Some e => text_of e | None => Some [] end.
(** How many children of that name there are. *)
Definition count_kids (k : string) (n : node) : nat := length (filter (is_elem k) (kids_of n)).

(** <vt:vector size= baseType=> with as many children as it says. *)
Definition vector (k : string) (base : string) (n : node) : option (list node) :=
  bind (kid k (kids_of n)) (fun h =>
  match kids_of h with
  | [Elem v l items] =>
      if str_eqb v (lit "vt:vector") then
        bind (attr "size" l) (fun s => bind (number_of s) (fun sz => bind (attr "baseType" l) (fun b =>
        if (sz =? N.of_nat (length items)) && str_eqb b (lit base) then Some items else None)))
      else None
  | _ => None
  end).
Definition read_leaf (k : string) (n : node) : option str := if is_elem k n then text_of n else None.
Definition titles (n : node) : option (list str) :=
  bind (vector "TitlesOfParts" "lpstr" n) (read_all (read_leaf "vt:lpstr")).
Definition variant (k : string) (n : node) : option str :=
  if is_elem "vt:variant" n then match kids_of n with [e] => read_leaf k e | _ => None end else None.
Fixpoint read_pairs (l : list node) : option (list (str * N)) :=
  match l with
  | [] => Some []
  | a :: b :: r => bind (variant "vt:lpstr" a) (fun k => bind (variant "vt:i4" b) (fun v => bind (number_of v) (fun n =>
                   bind (read_pairs r) (fun t => Some ((k, n) :: t)))))
  | _ => None
  end.
Definition heading_pairs (n : node) : option (list (str * N)) := bind (vector "HeadingPairs" "variant" n) read_pairs.

(** ** custom.xml *)
Inductive read_custom := RText (s : str) | RInt (z : Z) | RReal (s : str) | RBool (b : bool) | RDate (s : str).
Definition int_of (s : str) : option Z :=
  match s with
  | 45 :: r => bind (number_of r) (fun n => Some (- Z.of_N n)%Z)
  | _ => bind (number_of s) (fun n => Some (Z.of_N n))
  end.
Definition custom_value_of (n : node) : option read_custom :=
  bind (text_of n) (fun t =>
  if is_elem "vt:lpwstr" n then Some (RText t)
  else if is_elem "vt:i4" n then bind (int_of t) (fun z => Some (RInt z))
  else if is_elem "vt:r8" n then Some (RReal t)
  else if is_elem "vt:bool" n then
    (if str_eqb t (lit "true") then Some (RBool true) else if str_eqb t (lit "false") then Some (RBool false) else None)
  else if is_elem "vt:filetime" n then Some (RDate t) else None).
Definition custom_of (n : node) : option (N * str * read_custom) :=
  match n with
  | Elem k l [v] =>
      if str_eqb k (lit "property") then
        bind (attr "pid" l) (fun p => bind (number_of p) (fun pid => bind (attr "name" l) (fun nm =>
        bind (custom_value_of v) (fun x => Some (pid, nm, x)))))
      else None
  | _ => None
  end.

(** YYYY-MM-DDThh:mm:ssZ *)
Definition two (a b : char) : option N := number_of [a; b].
Definition read_w3c (s : str) : option (N * N * N * (N * N * N)) :=
  match s with
  | [y1; y2; y3; y4; 45; m1; m2; 45; d1; d2; 84; h1; h2; 58; i1; i2; 58; s1; s2; 90] =>
      bind (number_of [y1; y2; y3; y4]) (fun y => bind (two m1 m2) (fun mo => bind (two d1 d2) (fun d =>
      bind (two h1 h2) (fun h => bind (two i1 i2) (fun mi => bind (two s1 s2) (fun s => Some (y, mo, d, (h, mi, s))))))))
  | _ => None
  end.

(** ** workbook.xml *)
Inductive state := Shown | Hidden | VeryHidden.
Record fsheet := { fs_name : str; fs_id : N; fs_state : state; fs_rel : str }.
Record fname := { fn_name : str; fn_local : option N; fn_hidden : bool; fn_text : str }.
Definition state_of (l : list (str * str)) : option state :=
  match attr "state" l with
  | None => Some Shown
  | Some s => if str_eqb s (lit "hidden") then Some Hidden
              else if str_eqb s (lit "veryHidden") then Some VeryHidden else None
  end.
Definition read_sheet (n : node) : option fsheet :=
  match n with
  | Elem k l [] =>
      if str_eqb k (lit "sheet") then
        bind (attr "name" l) (fun nm => bind (attr "sheetId" l) (fun i => bind (number_of i) (fun id =>
        bind (state_of l) (fun st => bind (attr "r:id" l) (fun r =>
        Some {| fs_name := nm; fs_id := id; fs_state := st; fs_rel := r |})))))
      else None
  | _ => None
  end.
Definition read_sheets (n : node) : option (list fsheet) :=
  bind (kid "sheets" (kids_of n)) (fun s => read_all read_sheet (kids_of s)).
Definition opt_number (k : string) (l : list (str * str)) : option (option N) :=
  match attr k l with None => Some None | Some s => bind (number_of s) (fun n => Some (Some n)) end.
Definition read_name (n : node) : option fname :=
  if is_elem "definedName" n then
    bind (attr "name" (attrs_of n)) (fun nm => bind (opt_number "localSheetId" (attrs_of n)) (fun lo =>
    bind (text_of n) (fun t => Some {| fn_name := nm; fn_local := lo; fn_hidden := flag_of "hidden" (attrs_of n); fn_text := t |})))
  else None.
Definition read_names (n : node) : option (list fname) :=
  match kid "definedNames" (kids_of n) with None => Some [] | Some d => read_all read_name (kids_of d) end.
(** firstSheet and activeTab of the first view. *)
Definition read_view (n : node) : option (option N * option N) :=
  bind (kid "bookViews" (kids_of n)) (fun v => bind (kid "workbookView" (kids_of v)) (fun w =>
  bind (opt_number "firstSheet" (attrs_of w)) (fun a => bind (opt_number "activeTab" (attrs_of w)) (fun b => Some (a, b))))).
