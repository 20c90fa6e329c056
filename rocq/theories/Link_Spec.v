(** What a hyperlink is asked to be, and how a reader finds it in the sheet part and
    its relationships. *)
From Verif Require Import Base Fmt_Model Xml_Model Xml_Spec Xml_Read Xml_Tree SheetXml_Spec Doc_Spec DV_Spec View_Spec Setup_Spec Part_Groups Cells_Model Pkg_Model Pkg_Spec Url_Model Url_Proofs Link_Model.

(** A path that names a share or a drive. 92 is the backslash, 58 the colon. *)
Definition absolute_path (p : str) : Prop :=
  (exists r, p = [92; 92] ++ r) \/ (exists c r, p = c :: 58 :: r /\ c < 128 /\ c <> 58).
(** The file name in a file link. *)
Definition file_path (l : str) : str := replace_first (lit "file://") [] (replace_first (lit "file:///") [] l).

(** How a link text is to be understood: the address it leads to, the place in it (after the
    first '#'), whether it is a place in this workbook, the text shown when no text is
    given, and the address to use when the link belongs to an image. *)
Record reading := { w_base : str; w_place : str; w_inside : bool; w_text : str; w_object : str }.
Inductive leads : str -> reading -> Prop :=
| leads_web l base frag : is_web l -> splits l base frag ->
    leads l {| w_base := base; w_place := frag; w_inside := false; w_text := l; w_object := stored_target l |}
| leads_mail r : let l := lit "mailto:" ++ r in
    leads l {| w_base := l; w_place := []; w_inside := false; w_text := r; w_object := stored_target l |}
| leads_inside r : let l := lit "internal:" ++ r in
    leads l {| w_base := l; w_place := r; w_inside := true; w_text := r; w_object := [] |}
| leads_relative l base frag : has_prefix "file://" l -> ~ absolute_path (file_path l) -> splits (file_path l) base frag ->
    leads l {| w_base := base; w_place := frag; w_inside := false; w_text := file_path l;
               w_object := stored_target (replace_char 92 (lit "/") base) |}
| leads_absolute l base frag : has_prefix "file://" l -> absolute_path (file_path l) -> splits l base frag ->
    leads l {| w_base := base; w_place := frag; w_inside := false; w_text := file_path l;
               w_object := replace_char 35 (lit "%23") (stored_target l) |}.

(** The entry a reader is to find. *)
Inductive place := Outside (target location : str) | Inside (location : str).
Record entry := { e_place : place; e_tip : str; e_display : str }.

(** An accepted call at a cell, with what it asks for; the limits are those of Excel. *)
Record ask := { k_reading : reading; k_text : str; k_tip : str; k_object : bool }.
Definition within (w : reading) (tip : str) : Prop :=
  char_count (w_base w) <= 2080 /\ char_count (w_place w) <= 2080 /\ char_count tip <= 255.
Inductive asked : lop -> N -> N -> ask -> Prop :=
| asked_write r c l shown tip f w : on_grid r c = true -> leads l w -> within w tip -> char_count (text_or shown (w_text w)) <= 32767 ->
    asked (LWrite r c l shown tip f) r c {| k_reading := w; k_text := text_or shown (w_text w); k_tip := tip; k_object := false |}
| asked_embed r c image l shown tip f w : on_grid r c = true -> leads l w -> within w tip ->
    asked (LEmbed r c image l shown tip f) r c {| k_reading := w; k_text := text_or shown (w_text w); k_tip := tip; k_object := true |}.
(** The last call accepted at a cell. *)
Definition last_asked (ops : list lop) (r c : N) (k : ask) : Prop :=
  exists h1 o h2, ops = h1 ++ o :: h2 /\ asked o r c k /\ forall o' k', In o' h2 -> ~ asked o' r c k'.

(** The cell holds a string or nothing when the file is saved. *)
Definition plain_cell (w : ws) (r c : N) : bool :=
  match table_get r c (data w) with Some (CString _ _, _) | None => true | _ => false end.
Definition entry_for (plain : bool) (k : ask) : entry :=
  let w := k_reading k in
  {| e_place := if w_inside w then Inside (w_place w)
                else Outside (if k_object k then w_object w else stored_target (w_base w)) (w_place w);
     e_tip := k_tip k;
     e_display := if w_inside w then k_text k else if k_object k || negb plain then stored_target (w_base w) else [] |}.

(** Reading: the entries of <hyperlinks>, the identifiers resolved in the
    relationships of the part ([find_rel]). *)
Definition read_link (find_rel : str -> option rel) (n : node) : option (N * N * entry) :=
  if is_elem "hyperlink" n then
    let l := attrs_of n in
    bind (attr "ref" l) (fun t => bind (cell_of t) (fun rc =>
    bind (match attr "r:id" l with
          | None => Some (Inside (attr_default "location" [] l))
          | Some id => bind (find_rel id) (fun r =>
              if str_eqb (r_type r) (DOC "hyperlink") && str_eqb (r_mode r) (lit "External")
              then Some (Outside (r_target r) (attr_default "location" [] l)) else None)
          end) (fun p =>
    Some (rc, {| e_place := p; e_tip := attr_default "tooltip" [] l; e_display := attr_default "display" [] l |}))))
  else None.
Definition read_links (find_rel : str -> option rel) (root : node) : option (list (N * N * entry)) :=
  match kids_named "hyperlinks" (kids_of root) with
  | [] => Some []
  | [h] => read_all (read_link find_rel) (kids_of h)
  | _ => None
  end.

(** Row by row, and from left to right within a row. *)
Definition before (a b : N * N) : Prop := fst a < fst b \/ (fst a = fst b /\ snd a < snd b).
(** The texts given are made of characters that an attribute keeps (no tab, no carriage
    return, no control character: see C08). *)
Definition keepable (s : str) : Prop := forallb attr_char s = true.
Definition clean (o : lop) : Prop :=
  match o with
  | LWrite _ _ l shown tip _ | LEmbed _ _ _ l shown tip _ => keepable l /\ keepable shown /\ keepable tip
  | LSheet _ => True
  end.
