(** How a consumer of the package (OPC) reads it: looking up parts, resolving
    relationships, content types; and which workbook states the API can reach.
    No function of the writer is used in the reading part. *)
From Verif Require Import Base Url_Model Pkg_Model.

(** ** Part names and relationships *)

(** Segments of a path, separated by '/' (47). *)
Fixpoint segs (s : str) : list str :=
  match s with
  | [] => [[]]
  | c :: s' => if c =? 47 then [] :: segs s'
               else match segs s' with [] => [[c]] | h :: t => (c :: h) :: t end
  end.
Fixpoint join (l : list str) : str :=
  match l with [] => [] | [x] => x | x :: l' => x ++ 47 :: join l' end.
Definition dir_of (part : str) : list str := removelast (segs part).
(** ".." goes up one level; [acc] is the reversed path so far. *)
Fixpoint walk (acc : list str) (l : list str) : list str :=
  match l with
  | [] => rev acc
  | s :: l' => if str_eqb s (lit "..") then walk (tl acc) l' else walk (s :: acc) l'
  end.
(** The part a relative target of a relationship of part [source] denotes. *)
Definition resolve (source target : str) : str := join (walk (rev (dir_of source)) (segs target)).
(** The part holding the relationships of [source] ("" is the package itself). *)
Definition rels_part_of (source : str) : str :=
  join (dir_of source ++ [lit "_rels"; last (segs source) [] ++ lit ".rels"]).

Fixpoint assoc {A} (k : str) (l : list (str * A)) : option A :=
  match l with [] => None | (k', v) :: l' => if str_eqb k k' then Some v else assoc k l' end.
Definition find_part (pkg : package) (name : str) : option content := assoc name pkg.
Definition rel_of (pkg : package) (source id : str) : option rel :=
  match find_part pkg (rels_part_of source) with Some (CRels l) => assoc id l | _ => None end.
Definition DOC (ty : string) : str :=
  lit "http://schemas.openxmlformats.org/officeDocument/2006/relationships/" ++ lit ty.
(** Relationship [id] of [source] has type [ty] and leads to the part [name] with contents [c]. *)
Definition opens (pkg : package) (source id : str) (ty : string) (name : str) (c : content) : Prop :=
  exists r, rel_of pkg source id = Some r /\ r_type r = DOC ty /\ r_mode r = [] /\
            resolve source (r_target r) = name /\ find_part pkg name = Some c.
(** Relationship [id] of [source] is the hyperlink [u]: to its target, external
    unless it is a link inside the workbook. *)
Definition links_to (pkg : package) (source id : str) (u : url) : Prop :=
  rel_of pkg source id =
  Some {| r_type := DOC "hyperlink"; r_target := relationship_link u;
          r_mode := match ltype u with LInternal => [] | _ => lit "External" end |}.

(** ** Content types *)
Definition extension (name : str) : str :=
  (fix go (s acc : str) := match s with
     | [] => acc
     | c :: s' => if c =? 46 then go s' s' else go s' acc
     end) name [].
(** A part has a content type: XML parts have one of their own (the default for
    "xml" says nothing about what they are), others at least by extension. *)
Definition typed (pkg : package) (name : str) : Prop :=
  exists defaults overrides, find_part pkg (lit "[Content_Types].xml") = Some (CTypes defaults overrides) /\
    (In (lit "/" ++ name) overrides \/ extension name <> lit "xml" /\ In (extension name) defaults).

(** A closed package. *)
Record closed (pkg : package) : Prop := {
  cl_names : NoDup (map fst pkg);
  cl_types : forall name c, In (name, c) pkg -> name <> lit "[Content_Types].xml" -> typed pkg name;
  cl_declared : forall d o, In (lit "[Content_Types].xml", CTypes d o) pkg ->
                forall n, In (lit "/" ++ n) o -> exists c, In (n, c) pkg;
  cl_rels : forall name l, In (name, CRels l) pkg ->
            NoDup (map fst l) /\
            exists source, name = rels_part_of source /\ (source = [] \/ exists c, In (source, c) pkg) /\
            forall id r, In (id, r) l ->
              r_mode r = lit "External" \/ (exists t, r_target r = 35 :: t) \/
              exists c, In (resolve source (r_target r), c) pkg }.

(** ** Which states the API can reach *)

(** A sheet that has never been saved; possibly with another default note author. *)
Definition fresh (s : psheet) : Prop :=
  ps_h s = hidden_new \/ exists a, ps_h s = set_default_note_author hidden_new a.
(** A sheet edited by the user: objects can be added and replaced but no method
    removes the last image or shape of a sheet, and only the default author of
    notes reaches the hidden state. *)
Definition edited (s s' : psheet) : Prop :=
  (ps_h s' = ps_h s \/ exists a, ps_h s' = set_default_note_author (ps_h s) a) /\
  (u_images (ps_u s) <> [] -> u_images (ps_u s') <> []) /\
  (u_shapes (ps_u s) <> [] -> u_shapes (ps_u s') <> []).
(** Any history of editing (adding, removing, reordering and changing sheets) and
    successful saves.  A save that fails before anything is prepared (duplicate
    sheet names, chartsheet without chart) does not change this state. *)
Inductive reach (m : ovf) (lower : str -> str) : pbook -> Prop :=
| reach_new : forall b, (forall s, In s (w_sheets b) -> fresh s) -> reach m lower b
| reach_edit : forall b b', reach m lower b ->
    (forall s', In s' (w_sheets b') -> fresh s' \/ exists s, In s (w_sheets b) /\ edited s s') ->
    reach m lower b'
| reach_save : forall b b' pkg, reach m lower b -> save_pkg m lower b = Some (b', Saved pkg) -> reach m lower b'.

(** ** User content *)
Definition sheet_imgs (u : usheet) : list img :=
  match u_bg u with Some i => [i] | None => [] end ++ map fst (u_images u) ++ u_hf u.
Definition book_imgs (l : list usheet) : list img := flat_map u_embedded l ++ flat_map sheet_imgs l.
(** No two different images of the workbook have the same digest, and digests are decimal numbers. *)
Definition hashes_ok (l : list usheet) : Prop :=
  (forall i j, In i (book_imgs l) -> In j (book_imgs l) -> im_hash i = im_hash j -> i = j) /\
  (forall i, In i (book_imgs l) -> forallb is_ascii_digit (im_hash i) = true).
(** Hyperlinks of the drawing objects of one sheet. *)
Definition sheet_urls (u : usheet) : list url :=
  flat_map (fun x => match snd x with Some l => [l] | None => [] end) (u_images u)
  ++ flat_map (fun x => match snd x with Some l => [l] | None => [] end) (u_shapes u).
(** Links of one sheet with the same address also have the same target and kind
    (they differ at most in the anchor, text and tip), and no address is the word
    "Chart" or a bare number. *)
Definition links_ok (u : usheet) : Prop :=
  (forall a b, In a (sheet_urls u) -> In b (sheet_urls u) -> link a = link b ->
     relationship_link a = relationship_link b /\ ltype a = ltype b) /\
  (forall a, In a (sheet_urls u) -> forallb is_ascii_digit (link a) = false /\ link a <> lit "Chart").
(** Every link was accepted by the library. *)
Definition accepted (u : url) : Prop := exists v, initialize v = Ok u.
Definition urls_ok (l : list usheet) : Prop :=
  forall u x, In u l -> In x (u_links u ++ sheet_urls u) -> accepted x.
(** The 16-bit counters do not overflow. *)
Definition counts_ok (l : list usheet) : Prop :=
  N.of_nat (length l) < 65536 /\ N.of_nat (length (flat_map u_charts l)) < 65536 /\
  N.of_nat (length (flat_map u_tables l)) < 65536.
Definition rels_ok (m : ovf) (pkg : package) : Prop :=
  m = Debug \/ forall name l, In (name, CRels l) pkg -> N.of_nat (length l) < 65535.
(** Header and footer images: either there are none, or there are no embedded
    images and no sheet after the first sheet that has them has a background
    image or inserted images. *)
Definition hf_last (l : list usheet) : Prop :=
  (forall u, In u l -> u_hf u = []) \/
  ((forall u, In u l -> u_embedded u = []) /\
   exists l1 u0 l2, l = l1 ++ u0 :: l2 /\ (forall u, In u l1 -> u_hf u = []) /\
                    forall u, In u l2 -> u_bg u = None /\ u_images u = []).
(** The part of the i-th sheet, found as a reader finds it: through the i-th
    relationship of the workbook part. *)
Definition sheet_part (pkg : package) (i : nat) (u : usheet) (name : str) (d : sheet_doc) : Prop :=
  opens pkg (lit "xl/workbook.xml") (lit "rId" ++ dec (N.of_nat i + 1))
    (if u_chartsheet u then "chartsheet"%string else "worksheet"%string) name (CSheet d).

(** ** References of a sheet *)

(** An element with an r:id is written exactly when [want], and its id satisfies [P]. *)
Definition ref_when (want : bool) (id : option str) (P : str -> Prop) : Prop :=
  if want then exists k, id = Some k /\ P k else id = None.
Definition nonempty {A} (l : list A) : bool := match l with [] => false | _ => true end.
Definition has_objects (u : usheet) : bool := nonempty (u_images u) || nonempty (u_charts u) || nonempty (u_shapes u).
(** <hyperlink> elements: external ones lead to their target, internal ones have no relationship. *)
Definition hyperlinks_ok (pkg : package) (name : str) (links : list url) (ids : list (option str)) : Prop :=
  Forall2 (fun u id => match ltype u with
                       | LUrl | LFile => exists k, id = Some k /\ links_to pkg name k u
                       | _ => id = None end) links ids.
(** The objects of a drawing part, by kind, in order. *)
Definition pics_in (l : list anchor) : list (str * option str) :=
  flat_map (fun a => match a with APic e c => [(e, c)] | _ => [] end) l.
Definition charts_in (l : list anchor) : list str :=
  flat_map (fun a => match a with AChart i | AAbsChart i => [i] | _ => [] end) l.
Definition shapes_in (l : list anchor) : list (option N * option str) :=
  flat_map (fun a => match a with AShape b c => [(b, c)] | _ => [] end) l.
(** The drawing part of the i-th sheet. *)
Definition sheet_drawing (pkg : package) (i : nat) (u : usheet) (part : str) (l : list anchor) : Prop :=
  exists name d id, sheet_part pkg i u name d /\ sd_drawing d = Some id /\ opens pkg name id "drawing" part (CDrawing l).
(** The name under which a table given the (possibly empty) name [nm] is saved as table number [k]. *)
Definition table_name (nm : str) (k : N) : str := match nm with [] => lit "Table" ++ dec k | _ => nm end.
(** Number of charts, tables and drawings on the first [i] sheets. *)
Definition before {A} (f : usheet -> list A) (i : nat) (b : pbook) : N :=
  N.of_nat (length (flat_map f (map ps_u (firstn i (w_sheets b))))).

(** ** Notes *)

(** The author shown for a note: its own, or the default author [d]. *)
Definition author_of (d : str) (n : note) : str := match nt_author n with Some a => a | None => d end.
(** [known] followed by the new elements of [l], in the order of their first appearance. *)
Fixpoint firsts (known l : list str) : list str :=
  match l with
  | [] => known
  | a :: l' => if existsb (str_eqb a) known then firsts known l' else firsts (known ++ [a]) l'
  end.
(** The comments part of the i-th sheet, a worksheet. *)
Definition sheet_comments (pkg : package) (i : nat) (u : usheet) (c : comments_doc) : Prop :=
  exists name d id part, sheet_part pkg i u name d /\ opens pkg name id "comments" part (CComments c).
(** Each note is listed at its cell and shown with its author. *)
Definition attributed (d : str) (notes : list note) (c : comments_doc) : Prop :=
  Forall2 (fun n e => fst e = (nt_row n, nt_col n) /\ nth_error (cd_authors c) (N.to_nat (snd e)) = Some (author_of d n))
    notes (cd_list c).
(** Shape ids of notes and buttons, and of header images, in all VML parts. *)
Definition note_shape_ids (pkg : package) : list N :=
  flat_map (fun x => match snd x with CVml v => map fst (vd_buttons v) ++ map fst (vd_notes v) | _ => [] end) pkg.
Definition header_shape_ids (pkg : package) : list N :=
  flat_map (fun x => match snd x with CVml v => map fst (vd_images v) | _ => [] end) pkg.
(** Numbers separated by commas. *)
Fixpoint commas (l : list N) : str :=
  match l with [] => [] | [d] => dec d | d :: l' => dec d ++ lit "," ++ commas l' end.
(** The buttons and notes of a sheet fit in the shape ids set aside for its notes:
    one block of 1024 ids, and one more for every 1024 notes. *)
Definition shapes_fit (u : usheet) : Prop :=
  N.of_nat (length (u_buttons u) + length (u_notes u)) <= 1024 * (N.of_nat (length (u_notes u)) / 1024 + 1).

(** Relationship [id] of [src] opens a media file with the bytes of image [i]. *)
Definition shows (pkg : package) (src id : str) (i : img) : Prop :=
  exists n, opens pkg src id "image" (lit "xl/media/image" ++ dec n ++ lit "." ++ ext_name (im_ext i)) (CBytes (im_data i)).
(** The hyperlink of a drawing object. *)
Definition click_ok (pkg : package) (src : str) (u : option url) (id : option str) : Prop :=
  match u with None => id = None | Some u => exists k, id = Some k /\ links_to pkg src k u end.
