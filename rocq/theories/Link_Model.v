(** Model of cell hyperlinks: the calls that store them, and the <hyperlinks>
    element (src/worksheet.rs, src/url.rs). *)
From Verif Require Import Base SMap Fmt_Model Ref_Model Xml_Tree Cells_Model Sheet_Model Pkg_Model View_Model Part_Model Url_Model.

(** The sheet and its field [hyperlinks : BTreeMap<(RowNum, ColNum), Url>]
    (src/worksheet.rs:1597), as a map of rows of maps of columns: the order of the
    pairs is that of the rows, then of the columns. *)
Record lsheet := { ls_sheet : sheet; ls_links : smap (smap url) }.
Definition links_get (r c : N) (l : smap (smap url)) : option url :=
  match get r l with Some cs => get c cs | None => None end.
Definition links_put (r c : N) (u : url) (l : smap (smap url)) : smap (smap url) :=
  ins r (ins c u (match get r l with Some cs => cs | None => [] end)) l.

Inductive lerror := LS (e : serror) | LU (e : url_error) | LPrevious.

(** src/worksheet.rs:15348-15369 store_url; the public calls write_url (4061),
    write_url_with_text (4157), write_url_with_format (4232) and
    write_url_with_options (4278) build the link with [Url::new] (282), [set_text]
    and [set_tip] and call it. *)
Definition store_url (s : lsheet) (row col : N) (u : url) (f : option Format) : lsheet * option lerror :=
  match initialize u with
  | Err e => (s, Some (LU e))
  | Ok h =>
      let f := match f with Some f => f | None => format_hyperlink end in
      match store_string (cells (ls_sheet s)) row col (text h) (Some f) with
      | (w, Some e) => ({| ls_sheet := with_cells (ls_sheet s) w; ls_links := ls_links s |}, Some (LS (SE e)))
      | (w, None) => ({| ls_sheet := with_cells (ls_sheet s) w; ls_links := links_put row col h (ls_links s) |}, None)
      end
  end.

(** src/worksheet.rs:15372-15437 store_embedded_image, of an image with a link.
    [u] is the image's [url] as [Image::set_url] (src/image.rs:755-763) left it,
    [image] the number given to the image (the list of images is modelled in
    Pkg_Model). *)
Definition store_embedded (s : lsheet) (row col image : N) (u : url) (f : option Format) : lsheet * option lerror :=
  let '(w, okd) := check_dimensions (cells (ls_sheet s)) row col in
  let s1 := {| ls_sheet := with_cells (ls_sheet s) w; ls_links := ls_links s |} in
  if negb okd then (s1, Some (LS (SE RowColumnLimit)))
  else if constant_memory w && (row <? current_row w) then (s1, Some LPrevious)
  else
    let '(w, i) := reg w (match f with Some f => f | None => format_hyperlink end) in
    ({| ls_sheet := with_cells (ls_sheet s) (insert_cell w row col (CError image, i)); ls_links := links_put row col u (ls_links s) |}, None).

(** The calls, as data: the link text given, the text to show and the tool tip
    (empty when not given). *)
Inductive lop :=
| LWrite (row col : N) (given shown tip : str) (f : option Format)
| LEmbed (row col image : N) (given shown tip : str) (f : option Format)
| LSheet (o : sop).
(** [Image::set_url] fails before there is an image to embed. *)
Definition lstep (lower : str -> str) (s : lsheet) (o : lop) : option (lsheet * option lerror) :=
  match o with
  | LWrite r c g t p f => Some (store_url s r c (url_new g t p false) f)
  | LEmbed r c k g t p f => match initialize (url_new g t p true) with
                            | Err e => Some (s, Some (LU e))
                            | Ok u => Some (store_embedded s r c k u f) end
  | LSheet o => match sstep lower (ls_sheet s) o with
                | None => None
                | Some (s', e) => Some ({| ls_sheet := s'; ls_links := ls_links s |}, option_map LS e) end
  end.
Fixpoint lrun (lower : str -> str) (s : lsheet) (ops : list lop) : option lsheet :=
  match ops with
  | [] => Some s
  | o :: rest => match lstep lower s o with None => None | Some (s, _) => lrun lower s rest end
  end.
Definition links_list (l : smap (smap url)) : list (N * N * url) :=
  flat_map (fun p => map (fun q => (fst p, fst q, snd q)) (snd p)) l.

(** src/worksheet.rs:18158-18169: the cell holds something other than a string. *)
Definition overwritten (t : table) (r c : N) : bool :=
  match table_get r c t with Some (CString _ _, _) => false | Some _ => true | None => false end.
(** src/worksheet.rs:18155-18209 write_hyperlink. *)
Definition hyperlink_xml (m : ovf) (t : table) (r c : N) (u : url) : option wx :=
  obind (row_col_to_cell m r c) (fun cell =>
    let object := is_object_link u || overwritten t r c in
    Some (WEmpty (lit "hyperlink")
      ([(lit "ref", cell)] ++
       match ltype u with
       | LUrl | LFile =>
           [(lit "r:id", rid (rel_id u))]
           ++ when (negb (is_nil (anchor u))) [(lit "location", anchor u)]
           ++ when object [(lit "display", link u)]
           ++ when (negb (is_nil (tool_tip u))) [(lit "tooltip", tool_tip u)]
       | LInternal =>
           [(lit "location", anchor u)]
           ++ when (negb (is_nil (tool_tip u))) [(lit "tooltip", tool_tip u)]
           ++ [(lit "display", text u)]
       | LUnknown => []
       end))).
(** src/worksheet.rs:17902-17914 write_hyperlinks: the loop; the second result is
    [rel_id] at the end. *)
Fixpoint hyperlinks_loop (m : ovf) (t : table) (n : N) (l : list (N * N * url)) : option (list wx * N) :=
  match l with
  | [] => Some ([], n)
  | (r, c, u) :: l' =>
      let '(u, n) := increment_rel_id u n in
      obind (hyperlink_xml m t r c u) (fun x =>
      obind (hyperlinks_loop m t n l') (fun rest => Some (x :: fst rest, snd rest)))
  end.
(** src/worksheet.rs:17412-17415: only when there are links. *)
Definition hyperlinks_xml (m : ovf) (t : table) (links : smap (smap url)) : option (list wx) :=
  match links_list links with
  | [] => Some []
  | l => obind (hyperlinks_loop m t 1 l) (fun x => Some [WElem (lit "hyperlinks") [] (fst x)])
  end.
