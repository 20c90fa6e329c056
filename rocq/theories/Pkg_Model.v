(** Model of the package level: relationships, part numbering, drawings, images,
    charts, tables, notes, VML and content types.

    src/workbook.rs 2036-2202 (save_internal, the steps below), 2222-2376, 2729-2829;
    src/worksheet.rs 16158-16560, 16787-16828, 17451-17473, 17902-17914, 18155-18209, 19450-19504;
    src/packager.rs 110-1107; src/content_types.rs; src/relationship.rs; src/comment.rs; src/vml.rs 57-106.

    Simplifications, made once for the whole file:
    - a part's contents are kept as the structured data that is relevant to other
      parts (relationship ids, part numbers, author lists, shape ids); parts that
      refer to nothing (theme, styles, core, app, ...) are [COther];
    - BTreeMaps of worksheet objects keyed by position are the lists of their
      values in key order;
    - a chart, shape, button or table body is represented by an opaque number;
    - u32 counters (image, drawing, chart, table, shape and VML ids) do not overflow;
    - formats, cell data and positions are not repeated here. *)
From Verif Require Import Base Xml_Model Url_Model Book_Model.

(** src/image.rs:1168-1186 XlsxImageType; [Unknown] is rejected when an image is
    constructed (src/image.rs:915-918). *)
Inductive img_ext := Png | Jpg | Gif | Bmp.
Definition ext_name (e : img_ext) : str :=
  match e with Png => lit "png" | Jpg => lit "jpeg" | Gif => lit "gif" | Bmp => lit "bmp" end.
Definition ext_eqb (a b : img_ext) : bool :=
  match a, b with Png, Png | Jpg, Jpg | Gif, Gif | Bmp, Bmp => true | _, _ => false end.
(** src/image.rs:60-73: the data, the type and the hash used to detect duplicates
    (925-928: decimal form of a hash of the data). *)
Record img := { im_hash : str; im_ext : img_ext; im_data : list N }.

(** src/note.rs: the cell and the optional author. *)
Record note := { nt_row : N; nt_col : N; nt_author : option str }.

(** What a user has put on a worksheet.  [u_hf] is header_footer_images
    ([Option<Image>; 6], src/worksheet.rs:1514) flattened. *)
Record usheet := {
  u_chartsheet : bool;
  u_links : list url;                      (* hyperlinks *)
  u_bg : option img;                       (* background_image *)
  u_images : list (img * option url);
  u_charts : list N;
  u_shapes : list (N * option url);
  u_notes : list note;
  u_buttons : list N;
  u_hf : list img;
  u_tables : list (str * N);               (* name (possibly empty), body *)
  u_embedded : list img;
  u_dynamic : bool }.

(** HashMap<String, u32> as an association list. *)
Definition amap := list (str * N).
Fixpoint am_get (k : str) (m : amap) : option N :=
  match m with [] => None | (k', v) :: r => if str_eqb k k' then Some v else am_get k r end.
Fixpoint am_insert (k : str) (v : N) (m : amap) : amap :=
  match m with
  | [] => [(k, v)]
  | (k', v') :: r => if str_eqb k k' then (k, v) :: r else (k', v') :: am_insert k v r
  end.
Definition am_len (m : amap) : N := N.of_nat (length m).
(** BTreeMap<String, usize>: kept sorted by key. *)
Fixpoint bt_insert (k : str) (v : N) (m : amap) : amap :=
  match m with
  | [] => [(k, v)]
  | (k', v') :: r => if str_eqb k k' then (k, v) :: r
                     else if str_leb k k' then (k, v) :: (k', v') :: r else (k', v') :: bt_insert k v r
  end.

(** The worksheet state that is left over from one save to the next:
    has_drawing_object_linkage, note_authors, image_types, drawing.shapes,
    drawing.shape_id, comments_vml_info, buttons_vml_info.  None of these is
    cleared by reset() (src/worksheet.rs:16787-16810). *)
Record hidden := {
  h_linkage : bool; h_authors : amap; h_types : list img_ext;
  h_shapes : list N; h_shape_pos : N; h_cvml : list note; h_bvml : list N }.
(** src/worksheet.rs:1744-1858 (new). *)
Definition hidden_new : hidden :=
  {| h_linkage := false; h_authors := [(lit "Author", 0)]; h_types := [];
     h_shapes := []; h_shape_pos := 0; h_cvml := []; h_bvml := [] |}.
(** src/worksheet.rs:6049-6059 set_default_note_author (names over 52 characters are ignored). *)
Definition set_default_note_author (h : hidden) (name : str) : hidden :=
  if 52 <? char_count name then h else
  {| h_linkage := h_linkage h; h_authors := [(name, 0)]; h_types := h_types h;
     h_shapes := h_shapes h; h_shape_pos := h_shape_pos h; h_cvml := h_cvml h; h_bvml := h_bvml h |}.

Record psheet := { ps_u : usheet; ps_h : hidden }.
(** Workbook-level state: the sheets, whether the shared string table is
    non-empty, the VBA project and signature, whether there are custom
    properties, the feature property bags, and two flags standing for errors
    raised by steps modelled elsewhere: a chart range naming an unknown sheet
    (prepare_chart_cache_data, 2404-2415) and a defined name naming an unknown
    sheet (set_package_options, 2836-2850). *)
Record pbook := {
  w_sheets : list psheet; w_sst : bool; w_vba : option (list N); w_sig : list N;
  w_custom : bool; w_bags : bool; w_bad_chart : bool; w_bad_name : bool }.

Definition is_nil {A} (l : list A) : bool := match l with [] => true | _ => false end.

(** ** Relationships *)
Record rel := { r_type : str; r_target : str; r_mode : str }.
(** src/relationship.rs:36-77. *)
Definition doc_rel (ty target mode : str) : rel :=
  {| r_type := lit "http://schemas.openxmlformats.org/officeDocument/2006/relationships/" ++ ty;
     r_target := target; r_mode := mode |}.
Definition pkg_rel (ty target : str) : rel :=
  {| r_type := lit "http://schemas.openxmlformats.org/package/2006/relationships/" ++ ty;
     r_target := target; r_mode := [] |}.
Definition office_rel (version ty target : str) : rel :=
  {| r_type := lit "http://schemas.microsoft.com/office/" ++ version ++ lit "/relationships/" ++ ty;
     r_target := target; r_mode := [] |}.
(** format!("rId{}", n) *)
Definition rid (n : N) : str := lit "rId" ++ dec n.
(** src/relationship.rs:101-121: ids are numbered from 1 with a u16 counter that
    is incremented after each entry. *)
Fixpoint write_rels_from (m : ovf) (n : N) (l : list rel) : option (list (str * rel)) :=
  match l with
  | [] => Some []
  | r :: l' => n' <- add16 m n 1 ;; rest <- write_rels_from m n' l' ;; Some ((rid n, r) :: rest)
  end.
Definition write_rels (m : ovf) (l : list rel) : option (list (str * rel)) := write_rels_from m 1 l.

(** format!("{prefix}{n}{suffix}") *)
Definition numbered (prefix : string) (n : N) (suffix : string) : str := lit prefix ++ dec n ++ lit suffix.
Definition media_name (dir : string) (n : N) (e : img_ext) : str :=
  lit dir ++ lit "image" ++ dec n ++ lit "." ++ ext_name e.

(** Url target mode, src/url.rs:503-509. *)
Definition url_mode (u : url) : str := if target_external u then lit "External" else [].

(** ** prepare_embedded_images, src/workbook.rs:2256-2285 *)
Fixpoint embed_loop (ids : amap) (next : N) (acc : list img) (l : list img) : amap * N * list img * list N :=
  match l with
  | [] => (ids, next, acc, [])
  | i :: l' =>
      match am_get (im_hash i) ids with
      | Some n => let '(ids', next', acc', out) := embed_loop ids next acc l' in (ids', next', acc', n :: out)
      | None => let n := next + 1 in
                let '(ids', next', acc', out) := embed_loop (am_insert (im_hash i) n ids) n (acc ++ [i]) l' in
                (ids', next', acc', n :: out)
      end
  end.
Fixpoint embed_sheets (ids : amap) (next : N) (acc : list img) (l : list usheet) : list img * list (list N) :=
  match l with
  | [] => (acc, [])
  | u :: l' =>
      let '(ids', next', acc', out) := embed_loop ids next acc (u_embedded u) in
      let '(all, rest) := embed_sheets ids' next' acc' l' in (all, out :: rest)
  end.
(** The global list of embedded images and, per sheet, the global id of each of its images. *)
Definition prepare_embedded (l : list usheet) : list img * list (list N) := embed_sheets [] 0 [] l.

(** ** Drawings *)
Inductive dkind := DImage | DChart | DShape | DChartSheet.
(** DrawingInfo: the type, the rel_id and the rel_id of the hyperlink. *)
Record dinfo := { di_kind : dkind; di_rel : N; di_url : option N }.

(** src/worksheet.rs:16179-16205 and 16270-16296: relationship for an object's hyperlink. *)
Definition link_rel (rids : amap) (rels : list rel) (u : option url) : amap * list rel * option N :=
  match u with
  | None => (rids, rels, None)
  | Some u =>
      match am_get (link u) rids with
      | Some n => (rids, rels, Some n)
      | None => let n := 1 + am_len rids in
                (am_insert (link u) n rids,
                 rels ++ [doc_rel (lit "hyperlink") (relationship_link u) (url_mode u)], Some n)
      end
  end.
(** src/worksheet.rs:16158-16236 prepare_worksheet_images, the loop. *)
Fixpoint images_loop (ids : amap) (image_id : N) (rids : amap) (rels : list rel) (l : list (img * option url))
  : amap * N * amap * list rel * list dinfo :=
  match l with
  | [] => (ids, image_id, rids, rels, [])
  | (i, u) :: l' =>
      let '(ids1, image_id1, n) :=
        match am_get (im_hash i) ids with
        | Some n => (ids, image_id, n)
        | None => (am_insert (im_hash i) (image_id + 1) ids, image_id + 1, image_id + 1)
        end in
      let '(rids1, rels1, url_id) := link_rel rids rels u in
      let '(rids2, rels2, rel_id) :=
        match am_get (im_hash i) rids1 with
        | Some r => (rids1, rels1, r)
        | None => let r := 1 + am_len rids1 in
                  (am_insert (im_hash i) r rids1,
                   rels1 ++ [doc_rel (lit "image") (media_name "../media/" n (im_ext i)) []], r)
        end in
      let '(ids', id', rids', rels', ds) := images_loop ids1 image_id1 rids2 rels2 l' in
      (ids', id', rids', rels', {| di_kind := DImage; di_rel := rel_id; di_url := url_id |} :: ds)
  end.
(** src/worksheet.rs:16487-16513 prepare_worksheet_charts, the loop over charts. *)
Fixpoint charts_loop (cs : bool) (chart_id rel_id : N) (rels : list rel) (l : list N) : list rel * list dinfo :=
  match l with
  | [] => (rels, [])
  | _ :: l' =>
      let '(rels', ds) := charts_loop cs (chart_id + 1) (rel_id + 1)
                            (rels ++ [doc_rel (lit "chart") (numbered "../charts/chart" chart_id ".xml") []]) l' in
      (rels', {| di_kind := if cs then DChartSheet else DChart; di_rel := rel_id + 1; di_url := None |} :: ds)
  end.
(** src/worksheet.rs:16261-16307 prepare_worksheet_shapes, the loop. *)
Fixpoint shapes_loop (shape_id : N) (rids : amap) (rels : list rel) (l : list (N * option url))
  : amap * list rel * list dinfo :=
  match l with
  | [] => (rids, rels, [])
  | (_, u) :: l' =>
      let '(rids1, rels1, url_id) := link_rel rids rels u in
      let '(rids', rels', ds) := shapes_loop (shape_id + 1) rids1 rels1 l' in
      (rids', rels', {| di_kind := DShape; di_rel := shape_id; di_url := url_id |} :: ds)
  end.
(** src/worksheet.rs:16325-16371 prepare_header_footer_images. *)
Fixpoint hf_loop (ids : amap) (base : N) (rids : amap) (rels : list rel) (l : list img)
  : amap * list rel * list N :=
  match l with
  | [] => (ids, rels, [])
  | i :: l' =>
      let '(ids1, n) :=
        match am_get (im_hash i) ids with
        | Some n => (ids, n)
        | None => let n := 1 + base + am_len ids in (am_insert (im_hash i) n ids, n)
        end in
      let '(rids1, rels1, r) :=
        match am_get (im_hash i) rids with
        | Some r => (rids, rels, r)
        | None => let r := 1 + am_len rids in
                  (am_insert (im_hash i) r rids,
                   rels ++ [doc_rel (lit "image") (media_name "../media/" n (im_ext i)) []], r)
        end in
      let '(ids', rels', out) := hf_loop ids1 base rids1 rels1 l' in (ids', rels', r :: out)
  end.

(** What preparing one sheet produces (the relationship vectors etc., all cleared by reset()). *)
Record dprep := {
  d_bg : list rel;              (* background_relationships *)
  d_dobj : list rel;            (* drawing_object_relationships *)
  d_rels : list rel;            (* drawing_relationships *)
  d_infos : list dinfo;         (* drawing.drawings *)
  d_vmlrels : list rel;         (* vml_drawing_relationships *)
  d_hf : list N;                (* header_footer_vml_info: rel ids *)
  d_linkage : bool }.
Record dstate := { g_chart : N; g_drawing : N; g_shape : N; g_image : N; g_ws : amap; g_hf : amap; g_bg : amap }.

Definition drawing_link (drawing_id : N) : rel :=
  doc_rel (lit "drawing") (numbered "../drawings/drawing" drawing_id ".xml") [].

(** The body of the loop of prepare_drawings, src/workbook.rs:2299-2348, with
    prepare_background_image (worksheet.rs:16250), prepare_worksheet_images (16158),
    prepare_worksheet_charts (16479) and prepare_worksheet_shapes (16261). *)
Definition prepare_sheet_drawings (g : dstate) (linkage0 : bool) (u : usheet) : dstate * dprep :=
  (* background image *)
  let '(bg_ids, image0, bg) :=
    match u_bg u with
    | None => (g_bg g, g_image g, [])
    | Some i =>
        let '(ids, nxt, n) := match am_get (im_hash i) (g_bg g) with
                              | Some n => (g_bg g, g_image g, n)
                              | None => (am_insert (im_hash i) (g_image g + 1) (g_bg g), g_image g + 1, g_image g + 1)
                              end in
        (ids, nxt, [doc_rel (lit "image") (media_name "../media/" n (im_ext i)) []])
    end in
  (* images *)
  let '(ws, image1, rids1, rels1, infos1) := images_loop (g_ws g) image0 [] [] (u_images u) in
  let '(dobj1, linkage1) := if is_nil (u_images u) then ([], linkage0)
                            else ([drawing_link (g_drawing g)], true) in
  (* charts *)
  let '(rids2, rels2, infos2, dobj2) :=
    if is_nil (u_charts u) then (rids1, rels1, [], dobj1)
    else
      let rel_id := N.of_nat (length rels1) in
      let '(rels2, infos2) := charts_loop (u_chartsheet u) (g_chart g) rel_id rels1 (u_charts u) in
      (am_insert (lit "Chart") rel_id rids1, rels2, infos2,
       if linkage1 then dobj1 else dobj1 ++ [drawing_link (g_drawing g)]) in
  (* shapes *)
  let '(rids3, rels3, infos3) := shapes_loop (g_shape g) rids2 rels2 (u_shapes u) in
  let '(dobj3, linkage3) :=
    if is_nil (u_shapes u) then (dobj2, linkage1)
    else if is_nil dobj2 then ([drawing_link (g_drawing g)], true) else (dobj2, linkage1) in
  (* header and footer images *)
  let base := am_len bg_ids + am_len ws in
  let '(hf_ids, vmlrels, hf) := hf_loop (g_hf g) base [] [] (u_hf u) in
  ({| g_chart := g_chart g + N.of_nat (length (u_charts u));
      g_drawing := if is_nil (u_images u) && is_nil (u_charts u) && is_nil (u_shapes u)
                   then g_drawing g else g_drawing g + 1;
      g_shape := g_shape g + N.of_nat (length (u_shapes u));
      g_image := image1; g_ws := ws; g_hf := hf_ids; g_bg := bg_ids |},
   {| d_bg := bg; d_dobj := dobj3; d_rels := rels3; d_infos := infos1 ++ infos2 ++ infos3;
      d_vmlrels := vmlrels; d_hf := hf; d_linkage := linkage3 |}).
Fixpoint prepare_drawings_from (g : dstate) (l : list psheet) : list dprep :=
  match l with
  | [] => []
  | s :: l' => let '(g', d) := prepare_sheet_drawings g (h_linkage (ps_h s)) (ps_u s) in
               d :: prepare_drawings_from g' l'
  end.
(** src/workbook.rs:2288-2297. *)
Definition prepare_drawings (embedded : N) (l : list psheet) : list dprep :=
  prepare_drawings_from {| g_chart := 1; g_drawing := 1; g_shape := 1; g_image := embedded;
                           g_ws := []; g_hf := []; g_bg := [] |} l.

(** ** Notes and VML *)

(** src/worksheet.rs:16389-16413: authors to ids. *)
Fixpoint assign_authors (m : amap) (l : list note) : amap * list N :=
  match l with
  | [] => (m, [])
  | n :: l' =>
      match nt_author n with
      | None => let '(m', out) := assign_authors m l' in (m', 0 :: out)
      | Some a =>
          match am_get a m with
          | Some i => let '(m', out) := assign_authors m l' in (m', i :: out)
          | None => let i := am_len m in
                    let '(m', out) := assign_authors (bt_insert a i m) l' in (m', i :: out)
          end
      end
  end.
(** src/worksheet.rs:16457-16462: "d,d+1,...". *)
Fixpoint oid_map (d : N) (k : nat) : str :=
  match k with O => dec d | S k' => oid_map d k' ++ lit "," ++ dec (d + N.of_nat k) end.

Definition has_vml (u : usheet) : bool := negb (is_nil (u_notes u) && is_nil (u_buttons u)).
Record vprep := {
  v_dobj : list rel; v_comment : list rel; v_authors : amap; v_author_ids : list N;
  v_data : str; v_shape : N }.
Record vstate := { q_comment : N; q_vml : N; q_data : N; q_shape : N }.
Definition vml_link (n : N) : rel := doc_rel (lit "vmlDrawing") (numbered "../drawings/vmlDrawing" n ".vml") [].
(** The body of the loop of prepare_vml, src/workbook.rs:2228-2249. *)
Definition prepare_sheet_vml (q : vstate) (authors : amap) (u : usheet) : vstate * vprep :=
  let nc := N.of_nat (length (u_notes u)) in
  let blocks := (1024 + nc) / 1024 in
  let '(q1, v1) :=
    if has_vml u then
      let '(au, ids) := assign_authors authors (u_notes u) in
      ({| q_comment := if is_nil (u_notes u) then q_comment q else q_comment q + 1;
          q_vml := q_vml q + 1; q_data := q_data q + blocks; q_shape := q_shape q + 1024 * blocks |},
       {| v_dobj := [vml_link (q_vml q)];
          v_comment := if is_nil (u_notes u) then []
                       else [doc_rel (lit "comments") (numbered "../comments" (q_comment q) ".xml") []];
          v_authors := au; v_author_ids := ids;
          v_data := oid_map (q_data q) (N.to_nat (nc / 1024)); v_shape := q_shape q |})
    else (q, {| v_dobj := []; v_comment := []; v_authors := authors; v_author_ids := []; v_data := []; v_shape := 0 |}) in
  if is_nil (u_hf u) then (q1, v1)
  else ({| q_comment := q_comment q1; q_vml := q_vml q1 + 1; q_data := q_data q1; q_shape := q_shape q1 |},
        {| v_dobj := v_dobj v1 ++ [vml_link (q_vml q1)]; v_comment := v_comment v1; v_authors := v_authors v1;
           v_author_ids := v_author_ids v1; v_data := v_data v1; v_shape := v_shape v1 |}).
Fixpoint prepare_vml_from (q : vstate) (l : list psheet) : list vprep :=
  match l with
  | [] => []
  | s :: l' => let '(q', v) := prepare_sheet_vml q (h_authors (ps_h s)) (ps_u s) in v :: prepare_vml_from q' l'
  end.
Definition prepare_vml (l : list psheet) : list vprep :=
  prepare_vml_from {| q_comment := 1; q_vml := 1; q_data := 1; q_shape := 1024 |} l.

(** ** Tables *)

(** src/worksheet.rs:16536-16560: ids, default names, relationships. *)
Fixpoint name_tables (table_id : N) (l : list (str * N)) : N * list (str * N) * list N * list rel :=
  match l with
  | [] => (table_id, [], [], [])
  | (nm, body) :: l' =>
      let nm' := if is_nil nm then numbered "Table" table_id "" else nm in
      let '(id', ts, ids, rels) := name_tables (table_id + 1) l' in
      (id', (nm', body) :: ts, table_id :: ids,
       doc_rel (lit "table") (numbered "../tables/table" table_id ".xml") [] :: rels)
  end.
Record tprep := { t_tables : list (str * N); t_ids : list N; t_rels : list rel }.
Fixpoint prepare_tables_from (table_id : N) (l : list usheet) : list tprep :=
  match l with
  | [] => []
  | u :: l' => let '(id', ts, ids, rels) := name_tables table_id (u_tables u) in
               {| t_tables := ts; t_ids := ids; t_rels := rels |} :: prepare_tables_from id' l'
  end.
Definition prepare_tables (l : list usheet) : list tprep := prepare_tables_from 1 l.
(** src/workbook.rs:2365-2373: the first repeated (lower-cased) name. *)
Fixpoint dup_table (lower : str -> str) (seen : list str) (l : list str) : option str :=
  match l with
  | [] => None
  | n :: l' => if existsb (str_eqb (lower n)) seen then Some n else dup_table lower (lower n :: seen) l'
  end.

(** ** Parts of the package *)
Record sheet_doc := {
  sd_links : list (option str);      (* r:id of each <hyperlink>, None for internal ones *)
  sd_drawing : option str; sd_legacy : option str; sd_legacy_hf : option str; sd_picture : option str;
  sd_tables : list str;
  sd_vm : list N }.                  (* value metadata ids of the embedded images *)
Inductive anchor :=
| APic (embed : str) (click : option str)
| AChart (id : str)
| AAbsChart (id : str)
| AShape (body : option N) (click : option str).
Record vml_doc := { vd_data : str; vd_buttons : list (N * N); vd_notes : list (N * note); vd_images : list (N * str) }.
Record comments_doc := { cd_authors : list str; cd_list : list (N * N * N) }.   (* row, column, authorId *)
Inductive content :=
| CTypes (defaults overrides : list str)      (* extensions and part names declared *)
| CRels (l : list (str * rel))
| CSheet (d : sheet_doc)
| CDrawing (l : list anchor)
| CVml (d : vml_doc)
| CComments (d : comments_doc)
| CBytes (l : list N)
| CChart (body : N)
| CTable (id : N) (name : str) (body : N)
| CRichRel (ids : list str)
| COther.
Definition package := list (str * content).

(** Everything prepared for one sheet. *)
Record prep := { p_sheet : psheet; p_d : dprep; p_v : vprep; p_t : tprep; p_emb : list N }.
Fixpoint zip_prep (l : list psheet) (ds : list dprep) (vs : list vprep) (ts : list tprep) (es : list (list N)) : list prep :=
  match l, ds, vs, ts, es with
  | s :: l', d :: ds', v :: vs', t :: ts', e :: es' =>
      {| p_sheet := s; p_d := d; p_v := v; p_t := t; p_emb := e |} :: zip_prep l' ds' vs' ts' es'
  | _, _, _, _, _ => []
  end.
Definition p_u (p : prep) : usheet := ps_u (p_sheet p).
Definition p_dobj (p : prep) : list rel := d_dobj (p_d p) ++ v_dobj (p_v p).

(** src/worksheet.rs:17902-17914 write_hyperlinks and 18155-18209 write_hyperlink. *)
Fixpoint write_links (n : N) (l : list url) : list (option str) * list rel * N :=
  match l with
  | [] => ([], [], n)
  | u :: l' =>
      match ltype u with
      | LUrl | LFile => let '(ids, rels, n') := write_links (n + 1) l' in
                        (Some (rid n) :: ids, doc_rel (lit "hyperlink") (relationship_link u) (url_mode u) :: rels, n')
      | _ => let '(ids, rels, n') := write_links n l' in (None :: ids, rels, n')
      end
  end.
Fixpoint seq_from (n : N) (k : nat) : list N := match k with O => [] | S k' => n :: seq_from (n + 1) k' end.
(** src/worksheet.rs:17413-17473 with 19450-19504: r:ids are handed out by
    incrementing rel_count in the order in which the elements are written. *)
Definition bump (b : bool) (n : N) : option str * N := if b then (Some (rid (n + 1)), n + 1) else (None, n).
Definition write_sheet_doc (p : prep) : sheet_doc * list rel :=
  let u := p_u p in
  let '(links, lrels, n1) := write_links 1 (u_links u) in
  let c0 := n1 - 1 in
  let '(dr, c1) := bump (negb (is_nil (d_infos (p_d p)))) c0 in
  let '(lg, c2) := bump (has_vml u) c1 in
  let '(hf, c3) := bump (negb (is_nil (u_hf u))) c2 in
  let '(pic, c4) := bump (is_some (u_bg u)) c3 in
  ({| sd_links := links; sd_drawing := dr; sd_legacy := lg; sd_legacy_hf := hf; sd_picture := pic;
      sd_tables := map rid (seq_from (c4 + 1) (length (u_tables u))); sd_vm := p_emb p |}, lrels).
(** src/worksheet.rs:17485-17537 assemble_chartsheet. *)
Definition write_chartsheet_doc (p : prep) : sheet_doc :=
  let u := p_u p in
  let '(dr, c1) := bump (negb (is_nil (d_infos (p_d p)))) 0 in
  let '(hf, _) := bump (negb (is_nil (u_hf u))) c1 in
  {| sd_links := []; sd_drawing := dr; sd_legacy := None; sd_legacy_hf := hf; sd_picture := None;
     sd_tables := []; sd_vm := [] |}.
(** src/worksheet.rs:16813-16818 has_relationships. *)
Definition has_relationships (links : list rel) (p : prep) : bool :=
  negb (is_nil links && is_nil (p_dobj p) && is_nil (t_rels (p_t p)) && is_nil (d_bg (p_d p))).

(** src/packager.rs:146-159, 499-534. *)
Fixpoint write_worksheets (m : ovf) (index : N) (l : list prep) : option package :=
  match l with
  | [] => Some []
  | p :: l' =>
      if u_chartsheet (p_u p) then write_worksheets m index l'
      else
        let '(doc, links) := write_sheet_doc p in
        rels <- (if has_relationships links p then
                   es <- write_rels m (links ++ p_dobj p ++ d_bg (p_d p) ++ t_rels (p_t p) ++ v_comment (p_v p)) ;;
                   Some [(numbered "xl/worksheets/_rels/sheet" index ".xml.rels", CRels es)]
                 else Some []) ;;
        rest <- write_worksheets m (index + 1) l' ;;
        Some ((numbered "xl/worksheets/sheet" index ".xml", CSheet doc) :: rels ++ rest)
  end.
(** src/packager.rs:161-174, 486-496, 537-556. *)
Fixpoint write_chartsheets (m : ovf) (index : N) (l : list prep) : option package :=
  match l with
  | [] => Some []
  | p :: l' =>
      if negb (u_chartsheet (p_u p)) then write_chartsheets m index l'
      else
        rels <- (if has_relationships [] p then
                   es <- write_rels m (p_dobj p) ;;
                   Some [(numbered "xl/chartsheets/_rels/sheet" index ".xml.rels", CRels es)]
                 else Some []) ;;
        rest <- write_chartsheets m (index + 1) l' ;;
        Some ((numbered "xl/chartsheets/sheet" index ".xml", CSheet (write_chartsheet_doc p)) :: rels ++ rest)
  end.

(** src/drawing.rs:50-70, 89-122, 165-310, 480-497: anchors; [shapes] is
    drawing.shapes and [pos] drawing.shape_id.  An index outside [shapes] would
    panic: [AShape None]. *)
Fixpoint write_anchors (shapes : list N) (pos : N) (l : list dinfo) : list anchor * N :=
  match l with
  | [] => ([], pos)
  | d :: l' =>
      let click := match di_url d with Some n => Some (rid n) | None => None end in
      let '(a, pos') := match di_kind d with
                        | DImage => (APic (rid (di_rel d)) click, pos)
                        | DChart => (AChart (rid (di_rel d)), pos)
                        | DChartSheet => (AAbsChart (rid (di_rel d)), pos)
                        | DShape => (AShape (nth_error shapes (N.to_nat pos)) click, pos + 1)
                        end in
      let '(rest, pos'') := write_anchors shapes pos' l' in (a :: rest, pos'')
  end.
(** drawing.shapes after prepare_worksheet_shapes (16304). *)
Definition all_shapes (p : prep) : list N := h_shapes (ps_h (p_sheet p)) ++ map fst (u_shapes (p_u p)).
Definition sheet_anchors (p : prep) : list anchor * N :=
  write_anchors (all_shapes p) (h_shape_pos (ps_h (p_sheet p))) (d_infos (p_d p)).
(** src/packager.rs:874-888. *)
Fixpoint write_drawings (index : N) (l : list prep) : package :=
  match l with
  | [] => []
  | p :: l' => if is_nil (d_infos (p_d p)) then write_drawings index l'
               else (numbered "xl/drawings/drawing" index ".xml", CDrawing (fst (sheet_anchors p))) :: write_drawings (index + 1) l'
  end.
(** src/packager.rs:193-203, 559-578. *)
Fixpoint write_drawing_rels (m : ovf) (index : N) (l : list prep) : option package :=
  match l with
  | [] => Some []
  | p :: l' =>
      let index' := if is_nil (d_infos (p_d p)) then index else index + 1 in
      here <- (if is_nil (d_rels (p_d p)) then Some []
               else es <- write_rels m (d_rels (p_d p)) ;;
                    Some [(numbered "xl/drawings/_rels/drawing" index' ".xml.rels", CRels es)]) ;;
      rest <- write_drawing_rels m index' l' ;; Some (here ++ rest)
  end.
(** src/vml.rs:57-106: shape ids count up from shape_id + 1, buttons first. *)
Fixpoint number_from {A} (n : N) (l : list A) : list (N * A) :=
  match l with [] => [] | x :: l' => (n, x) :: number_from (n + 1) l' end.
(** src/packager.rs:913-960 write_vml_files, 581-600. *)
Fixpoint write_vmls (m : ovf) (index header : N) (l : list prep) : option package :=
  match l with
  | [] => Some []
  | p :: l' =>
      let u := p_u p in
      let buttons := h_bvml (ps_h (p_sheet p)) ++ u_buttons u in
      let notes := h_cvml (ps_h (p_sheet p)) ++ u_notes u in
      let sid := v_shape (p_v p) in
      let first := if has_vml u then
          [(numbered "xl/drawings/vmlDrawing" index ".vml",
            CVml {| vd_data := v_data (p_v p); vd_buttons := number_from (sid + 1) buttons;
                    vd_notes := number_from (sid + N.of_nat (length buttons) + 1) notes; vd_images := [] |})]
        else [] in
      let index1 := if has_vml u then index + 1 else index in
      second <- (if is_nil (u_hf u) then Some []
                 else es <- write_rels m (d_vmlrels (p_d p)) ;;
                      Some [(numbered "xl/drawings/vmlDrawing" index1 ".vml",
                             CVml {| vd_data := dec header; vd_buttons := []; vd_notes := [];
                                     vd_images := number_from (1024 * header + 1) (map rid (d_hf (p_d p))) |});
                            (numbered "xl/drawings/_rels/vmlDrawing" index1 ".vml.rels", CRels es)]) ;;
      rest <- write_vmls m (if is_nil (u_hf u) then index1 else index1 + 1)
                (if is_nil (u_hf u) then header else header + 1) l' ;;
      Some (first ++ second ++ rest)
  end.
(** src/packager.rs:891-910; comment.rs:76-121. *)
Fixpoint zip_notes (l : list note) (ids : list N) : list (N * N * N) :=
  match l, ids with n :: l', i :: ids' => (nt_row n, nt_col n, i) :: zip_notes l' ids' | _, _ => [] end.
Fixpoint write_comments (index : N) (l : list prep) : package :=
  match l with
  | [] => []
  | p :: l' => if is_nil (u_notes (p_u p)) then write_comments index l'
               else (numbered "xl/comments" index ".xml",
                     CComments {| cd_authors := map fst (v_authors (p_v p));
                                  cd_list := zip_notes (u_notes (p_u p)) (v_author_ids (p_v p)) |})
                    :: write_comments (index + 1) l'
  end.
(** src/packager.rs:963-1020 write_image_files. *)
Fixpoint write_new_images (index : N) (seen : list str) (l : list img) : package * N * list str :=
  match l with
  | [] => ([], index, seen)
  | i :: l' =>
      if existsb (str_eqb (im_hash i)) seen then write_new_images index seen l'
      else let '(ps, index', seen') := write_new_images (index + 1) (im_hash i :: seen) l' in
           ((media_name "xl/media/" index (im_ext i), CBytes (im_data i)) :: ps, index', seen')
  end.
Fixpoint write_sheet_images (index : N) (ws hf bg : list str) (l : list usheet) : package :=
  match l with
  | [] => []
  | u :: l' =>
      let '(p1, i1, bg') := write_new_images index bg (match u_bg u with Some i => [i] | None => [] end) in
      let '(p2, i2, ws') := write_new_images i1 ws (map fst (u_images u)) in
      let '(p3, i3, hf') := write_new_images i2 hf (u_hf u) in
      p1 ++ p2 ++ p3 ++ write_sheet_images i3 ws' hf' bg' l'
  end.
Fixpoint write_embedded (index : N) (l : list img) : package :=
  match l with [] => [] | i :: l' => (media_name "xl/media/" index (im_ext i), CBytes (im_data i)) :: write_embedded (index + 1) l' end.
Definition write_images (embedded : list img) (l : list usheet) : package :=
  write_embedded 1 embedded ++ write_sheet_images (1 + N.of_nat (length embedded)) [] [] [] l.
(** src/packager.rs:1023-1054: charts and tables are numbered sequentially. *)
Definition write_charts (l : list usheet) : package :=
  map (fun c => (numbered "xl/charts/chart" (fst c) ".xml", CChart (snd c))) (number_from 1 (flat_map u_charts l)).
Definition write_tables (l : list prep) : package :=
  map (fun t => (numbered "xl/tables/table" (fst t) ".xml", snd t))
    (number_from 1 (flat_map (fun p => map (fun it => CTable (fst it) (fst (snd it)) (snd (snd it)))
                                           (combine (t_ids (p_t p)) (t_tables (p_t p)))) l)).

(** ** Package options (src/workbook.rs:2747-2829) and content types (packager.rs:229-329) *)
Definition any {A} (f : A -> bool) (l : list A) : bool := existsb f l.
(** Number of parts of a kind; the u16 counters are taken modulo 2^16. *)
Definition count_if {A} (f : A -> bool) (l : list A) : N := N.of_nat (length (filter f l)) mod 65536.
Definition sum_len {A B} (f : A -> list B) (l : list A) : N := N.of_nat (length (flat_map f l)) mod 65536.
Definition types_of (p : prep) : list img_ext :=
  h_types (ps_h (p_sheet p))
  ++ map im_ext (match u_bg (p_u p) with Some i => [i] | None => [] end)
  ++ map (fun x => im_ext (fst x)) (u_images (p_u p)) ++ map im_ext (u_hf (p_u p))
  ++ map im_ext (u_embedded (p_u p)).
Definition uses_ext (e : img_ext) (l : list prep) : bool := any (fun p => existsb (ext_eqb e) (types_of p)) l.
Definition when {A} (b : bool) (l : list A) : list A := if b then l else [].
Definition up_to (n : N) : list N := seq_from 1 (N.to_nat n).

Record popts := {
  o_sst : bool; o_metadata : bool; o_embedded : bool; o_vml : bool; o_xlsm : bool; o_sig : bool; o_custom : bool; o_bags : bool }.
Definition package_options (b : pbook) (l : list prep) : popts :=
  {| o_sst := w_sst b;
     o_metadata := any (fun p => u_dynamic (p_u p) || negb (is_nil (u_embedded (p_u p)))) l;
     o_embedded := any (fun p => negb (is_nil (u_embedded (p_u p)))) l;
     o_vml := any (fun p => has_vml (p_u p) || negb (is_nil (u_hf (p_u p)))) l;
     o_xlsm := is_some (w_vba b); o_sig := is_some (w_vba b) && negb (is_nil (w_sig b));
     o_custom := w_custom b; o_bags := w_bags b |}.

Definition content_types (b : pbook) (o : popts) (l : list prep) : content :=
  CTypes
    ([lit "rels"; lit "xml"] ++ when (o_vml o) [lit "vml"]
     ++ when (uses_ext Png l) [lit "png"] ++ when (uses_ext Jpg l) [lit "jpeg"]
     ++ when (uses_ext Gif l) [lit "gif"] ++ when (uses_ext Bmp l) [lit "bmp"]
     ++ when (o_xlsm o) [lit "bin"])
    ([lit "/docProps/app.xml"; lit "/docProps/core.xml"; lit "/xl/styles.xml"; lit "/xl/theme/theme1.xml";
      lit "/xl/workbook.xml"] ++ when (o_sig o) [lit "/xl/vbaProjectSignature.bin"]
     ++ map (fun i => numbered "/xl/worksheets/sheet" i ".xml") (up_to (count_if (fun p => negb (u_chartsheet (p_u p))) l))
     ++ map (fun i => numbered "/xl/chartsheets/sheet" i ".xml") (up_to (count_if (fun p => u_chartsheet (p_u p)) l))
     ++ map (fun i => numbered "/xl/drawings/drawing" i ".xml") (up_to (count_if (fun p => negb (is_nil (d_infos (p_d p)))) l))
     ++ map (fun i => numbered "/xl/charts/chart" i ".xml") (up_to (sum_len (fun p => u_charts (p_u p)) l))
     ++ map (fun i => numbered "/xl/tables/table" i ".xml") (up_to (sum_len (fun p => u_tables (p_u p)) l))
     ++ map (fun i => numbered "/xl/comments" i ".xml") (up_to (count_if (fun p => negb (is_nil (u_notes (p_u p)))) l))
     ++ when (o_sst o) [lit "/xl/sharedStrings.xml"]
     ++ when (o_metadata o) [lit "/xl/metadata.xml"]
     ++ when (o_embedded o) [lit "/xl/richData/rdRichValueTypes.xml"; lit "/xl/richData/rdrichvalue.xml";
                             lit "/xl/richData/rdrichvaluestructure.xml"; lit "/xl/richData/richValueRel.xml"]
     ++ when (o_bags o) [lit "/xl/featurePropertyBag/featurePropertyBag.xml"]
     ++ when (o_custom o) [lit "/docProps/custom.xml"]).

(** src/packager.rs:332-348. *)
Definition root_rels (o : popts) : list rel :=
  [doc_rel (lit "officeDocument") (lit "xl/workbook.xml") [];
   pkg_rel (lit "metadata/core-properties") (lit "docProps/core.xml");
   doc_rel (lit "extended-properties") (lit "docProps/app.xml") []]
  ++ when (o_custom o) [doc_rel (lit "custom-properties") (lit "docProps/custom.xml") []].
(** src/packager.rs:351-436. *)
Fixpoint sheet_rels (wi ci : N) (l : list prep) : list rel :=
  match l with
  | [] => []
  | p :: l' => if u_chartsheet (p_u p)
               then doc_rel (lit "chartsheet") (numbered "chartsheets/sheet" ci ".xml") [] :: sheet_rels wi (ci + 1) l'
               else doc_rel (lit "worksheet") (numbered "worksheets/sheet" wi ".xml") [] :: sheet_rels (wi + 1) ci l'
  end.
Definition workbook_rels (o : popts) (l : list prep) : list rel :=
  sheet_rels 1 1 l
  ++ [doc_rel (lit "theme") (lit "theme/theme1.xml") []; doc_rel (lit "styles") (lit "styles.xml") []]
  ++ when (o_sst o) [doc_rel (lit "sharedStrings") (lit "sharedStrings.xml") []]
  ++ when (o_metadata o) [doc_rel (lit "sheetMetadata") (lit "metadata.xml") []]
  ++ when (o_xlsm o) [office_rel (lit "2006") (lit "vbaProject") (lit "vbaProject.bin")]
  ++ when (o_embedded o)
       [office_rel (lit "2022/10") (lit "richValueRel") (lit "richData/richValueRel.xml");
        office_rel (lit "2017/06") (lit "rdRichValue") (lit "richData/rdrichvalue.xml");
        office_rel (lit "2017/06") (lit "rdRichValueStructure") (lit "richData/rdrichvaluestructure.xml");
        office_rel (lit "2017/06") (lit "rdRichValueTypes") (lit "richData/rdRichValueTypes.xml")]
  ++ when (o_bags o) [office_rel (lit "2022/11") (lit "FeaturePropertyBag") (lit "featurePropertyBag/featurePropertyBag.xml")].
(** src/packager.rs:603-624 write_rich_value_rels_file. *)
Fixpoint rich_rels (index : N) (l : list img) : list rel :=
  match l with
  | [] => []
  | i :: l' => doc_rel (lit "image") (media_name "../media/" index (im_ext i)) [] :: rich_rels (index + 1) l'
  end.

(** src/packager.rs:110-222 assemble_file, in its order. *)
Definition assemble (m : ovf) (b : pbook) (embedded : list img) (l : list prep) : option package :=
  let o := package_options b l in
  let us := map p_u l in
  rr <- write_rels m (root_rels o) ;;
  wr <- write_rels m (workbook_rels o l) ;;
  ws <- write_worksheets m 1 l ;;
  cs <- write_chartsheets m 1 l ;;
  vml <- write_vmls m 1 1 l ;;
  vr <- write_rels m [office_rel (lit "2006") (lit "vbaProjectSignature") (lit "vbaProjectSignature.bin")] ;;
  dr <- write_drawing_rels m 0 l ;;
  ri <- write_rels m (rich_rels 1 embedded) ;;
  Some ([(lit "[Content_Types].xml", content_types b o l);
         (lit "_rels/.rels", CRels rr);
         (lit "xl/_rels/workbook.xml.rels", CRels wr);
         (lit "xl/theme/theme1.xml", COther);
         (lit "xl/styles.xml", COther);
         (lit "xl/workbook.xml", COther)]
        ++ ws ++ cs
        ++ when (o_sst o) [(lit "xl/sharedStrings.xml", COther)]
        ++ [(lit "docProps/core.xml", COther); (lit "docProps/app.xml", COther)]
        ++ when (o_custom o) [(lit "docProps/custom.xml", COther)]
        ++ write_drawings 1 l
        ++ vml
        ++ write_comments 1 l
        ++ write_images embedded us
        ++ write_charts us
        ++ write_tables l
        ++ match w_vba b with
           | Some v => (lit "xl/vbaProject.bin", CBytes v)
                       :: when (negb (is_nil (w_sig b)))
                            [(lit "xl/vbaProjectSignature.bin", CBytes (w_sig b)); (lit "xl/_rels/vbaProject.bin.rels", CRels vr)]
           | None => []
           end
        ++ dr
        ++ when (o_metadata o) [(lit "xl/metadata.xml", COther)]
        ++ when (o_embedded o)
             [(lit "xl/richData/_rels/richValueRel.xml.rels", CRels ri);
              (lit "xl/richData/rdrichvalue.xml", COther); (lit "xl/richData/rdRichValueTypes.xml", COther);
              (lit "xl/richData/rdrichvaluestructure.xml", COther);
              (lit "xl/richData/richValueRel.xml", CRichRel (map rid (up_to (N.of_nat (length embedded)))))]
        ++ when (o_bags o) [(lit "xl/featurePropertyBag/featurePropertyBag.xml", COther)]).

(** ** Saving *)
Inductive pkg_error := ETableNameReused (n : str) | EBadChartRange | EBadDefinedName.
Inductive pkg_result := Saved (p : package) | NotSaved (e : pkg_error).

(** The sheet as prepare_drawings and prepare_vml leave it; [written]: also
    write_vml_files and the drawing writer ran (they drain the VML lists and
    advance shape_id); [named]: prepare_tables ran. *)
Definition sheet_after (p : prep) (named written : bool) : psheet :=
  let u := p_u p in let h := ps_h (p_sheet p) in
  {| ps_u := {| u_chartsheet := u_chartsheet u; u_links := u_links u; u_bg := u_bg u; u_images := u_images u;
                u_charts := u_charts u; u_shapes := u_shapes u; u_notes := u_notes u; u_buttons := u_buttons u;
                u_hf := u_hf u; u_tables := if named then t_tables (p_t p) else u_tables u;
                u_embedded := u_embedded u; u_dynamic := u_dynamic u |};
     ps_h := {| h_linkage := d_linkage (p_d p); h_authors := v_authors (p_v p); h_types := types_of p;
                h_shapes := all_shapes p;
                h_shape_pos := if written then snd (sheet_anchors p) else h_shape_pos h;
                h_cvml := if written && has_vml u then [] else if has_vml u then h_cvml h ++ u_notes u else h_cvml h;
                h_bvml := if written && has_vml u then [] else if has_vml u then h_bvml h ++ u_buttons u else h_bvml h |} |}.
Definition with_sheets (b : pbook) (l : list psheet) : pbook :=
  {| w_sheets := l; w_sst := w_sst b; w_vba := w_vba b; w_sig := w_sig b; w_custom := w_custom b;
     w_bags := w_bags b; w_bad_chart := w_bad_chart b; w_bad_name := w_bad_name b |}.

(** src/workbook.rs:2167-2199. *)
Definition prepare (b : pbook) : list img * list prep :=
  let us := map ps_u (w_sheets b) in
  let '(embedded, emb_ids) := prepare_embedded us in
  (embedded, zip_prep (w_sheets b) (prepare_drawings (N.of_nat (length embedded)) (w_sheets b))
               (prepare_vml (w_sheets b)) (prepare_tables us) emb_ids).
Definition save_pkg (m : ovf) (lower : str -> str) (b : pbook) : option (pbook * pkg_result) :=
  let '(embedded, l) := prepare b in
  if w_bad_chart b then Some (with_sheets b (map (fun p => sheet_after p false false) l), NotSaved EBadChartRange)
  else match dup_table lower [] (flat_map (fun p => map fst (t_tables (p_t p))) l) with
       | Some n => Some (with_sheets b (map (fun p => sheet_after p true false) l), NotSaved (ETableNameReused n))
       | None =>
           if w_bad_name b then Some (with_sheets b (map (fun p => sheet_after p true false) l), NotSaved EBadDefinedName)
           else pkg <- assemble m b embedded l ;;
                Some (with_sheets b (map (fun p => sheet_after p true true) l), Saved pkg)
       end.
