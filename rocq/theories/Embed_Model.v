(** Images embedded in cells, and the parts that connect a cell to its image or to
    the properties of a dynamic array: src/worksheet.rs:15371-15437
    store_embedded_image, 15237-15245 (has_dynamic_arrays), 18562-18571 and
    18804-18814 (the cells); src/workbook.rs:2252-2285 prepare_embedded_images,
    2729-2779 (options); src/metadata.rs, src/rich_value.rs, src/rich_value_rel.rs,
    src/rich_value_structure.rs, src/rich_value_types.rs; src/packager.rs:602-624,
    786-880, 962-976.
    Not modelled: the hyperlink of a linked image (it is stored as by write_url, C66;
    only the format it brings is kept here). *)
From Verif Require Import Base SMap F64 Fmt_Model Sst_Model Ref_Model Xml_Model Xml_Tree Cells_Model Pkg_Model Rich_Model.

(** src/image.rs:60-80: what is used of an image here. *)
Record image := { i_img : img; i_alt : str; i_decorative : bool; i_linked : bool }.
Definition i_hash (x : image) : str := im_hash (i_img x).

(** src/worksheet.rs:1500, 1520-1522, 1619: has_dynamic_arrays,
    has_embedded_image_descriptions, embedded_images, global_embedded_image_indices,
    embedded_image_ids. *)
Record esheet := { e_ws : ws; e_ids : amap; e_images : list image; e_described : bool; e_dynamic : bool; e_global : list N }.
(** src/worksheet.rs:1744-1834 *)
Definition esheet_new (w : ws) : esheet :=
  {| e_ws := w; e_ids := []; e_images := []; e_described := false; e_dynamic := false; e_global := [] |}.

Inductive eop :=
| ECell (o : op)                                            (* any call of Cells_Model *)
| EImage (row col : N) (x : image) (f : option Format).     (* embed_image(_with_format), 5281-5319 *)
Inductive eerror := EC (e : error) | EFlushed.

(** src/worksheet.rs:15243-15245: the flag is set by a dynamic formula, once the
    limits and the order of the range have been checked; nothing fails after that. *)
Definition makes_dynamic (o : op) : bool :=
  match o with
  | WriteFormula _ _ fm _ _ => f_dynamic fm
  | WriteArray _ _ _ _ fm _ d _ => d || f_dynamic fm
  | _ => false
  end.

(** src/worksheet.rs:15372-15437. *)
Definition store_embedded_image (s : esheet) (row col : N) (x : image) (f : option Format) : esheet * option eerror :=
  let '(w, okd) := check_dimensions (e_ws s) row col in
  let s := {| e_ws := w; e_ids := e_ids s; e_images := e_images s; e_described := e_described s; e_dynamic := e_dynamic s; e_global := e_global s |} in
  if negb okd then (s, Some (EC RowColumnLimit))
  else if constant_memory w && (row <? current_row w) then (s, Some EFlushed)
  else
    let '(ids, images, id) :=
      match am_get (i_hash x) (e_ids s) with
      | Some id => (e_ids s, e_images s, id)
      | None => let id := am_len (e_ids s) in (am_insert (i_hash x) id (e_ids s), e_images s ++ [x], id)
      end in
    let described := e_described s || negb (is_nil (i_alt x)) in
    let '(w, xf) := cell_xf w row col (match f with Some f => Some f | None => if i_linked x then Some format_hyperlink else None end) in
    ({| e_ws := insert_cell w row col (CError id, xf); e_ids := ids; e_images := images; e_described := described;
        e_dynamic := e_dynamic s; e_global := e_global s |}, None).

(** src/worksheet.rs:18806: in constant memory mode rows are written as soon as a
    later row is reached; global_embedded_image_indices[value] panics when there is no
    such index. *)
Definition image_missing (global : list N) (x : N * cell * N) : bool :=
  match snd (fst x) with CError n => match nth_error global (N.to_nat n) with Some _ => false | None => true end | _ => false end.
Definition row_panics (global : list N) (o : orow) : bool :=
  match o_cells o with Some cs => existsb (image_missing global) cs | None => false end.
Definition newly_flushed (w w' : ws) : list orow := skipn (length (flushed w)) (flushed w').

Definition estep (s : esheet) (o : eop) : option (esheet * option eerror) :=
  let '(s', e) :=
    match o with
    | ECell o =>
        let '(w, e) := step (e_ws s) o in
        ({| e_ws := w; e_ids := e_ids s; e_images := e_images s; e_described := e_described s;
            e_dynamic := e_dynamic s || match e with None => makes_dynamic o | Some _ => false end; e_global := e_global s |},
         match e with Some e => Some (EC e) | None => None end)
    | EImage row col x f => store_embedded_image s row col x f
    end in
  if existsb (row_panics (e_global s)) (newly_flushed (e_ws s) (e_ws s')) then None else Some (s', e).
Fixpoint erun (s : esheet) (l : list eop) : option esheet :=
  match l with
  | [] => Some s
  | o :: r => match estep s o with Some (s', _) => erun s' r | None => None end
  end.

(** ** Saving *)
(** src/workbook.rs:2256-2285: the images of the workbook, one per hash, in the order
    of sheets and of embedding, and per sheet the number of each of its images. *)
Fixpoint number_images (ids : amap) (acc : list image) (l : list image) : amap * list image * list N :=
  match l with
  | [] => (ids, acc, [])
  | x :: r =>
      match am_get (i_hash x) ids with
      | Some k => let '(ids', acc', ks) := number_images ids acc r in (ids', acc', k :: ks)
      | None => let k := N.of_nat (length acc) + 1 in
                let '(ids', acc', ks) := number_images (am_insert (i_hash x) k ids) (acc ++ [x]) r in (ids', acc', k :: ks)
      end
  end.
Fixpoint number_sheets (ids : amap) (acc : list image) (l : list esheet) : list image * list (list N) :=
  match l with
  | [] => (acc, [])
  | s :: r =>
      let '(ids', acc', ks) := number_images ids acc (e_images s) in
      let '(all, rest) := number_sheets ids' acc' r in (all, ks :: rest)
  end.
Definition prepare_images (l : list esheet) : list image * list (list N) := number_sheets [] [] l.

(** src/worksheet.rs:18564: the vm attribute of a cell. The lookup panics if there is
    no such entry; [image_id] is 0 there and C89_numbers_exist shows it does not happen. *)
Definition image_id (global : list N) (n : N) : N :=
  match nth_error global (N.to_nat n) with Some k => k | None => 0 end.

(** src/workbook.rs:2729-2779 (the options of these parts). *)
Record eoptions := { has_dynamic : bool; has_embedded : bool; num_embedded : N; has_descriptions : bool }.
Definition embed_options (l : list esheet) (all : list image) : eoptions :=
  {| has_dynamic := existsb e_dynamic l; has_embedded := existsb (fun s => negb (is_nil (e_images s))) l;
     num_embedded := N.of_nat (length all) mod 2 ^ 32;
     has_descriptions := existsb (fun s => negb (is_nil (e_images s)) && e_described s) l |}.

(** for index in 0..n *)
Definition below (n : N) : list N := map N.of_nat (seq 0 (N.to_nat n)).

(** ** src/metadata.rs *)
Section Parts.
  Variable o : eoptions.

  (** 123-162 *)
  Definition type_attrs (name : string) : list (str * str) :=
    (lit "name", lit name) ::
    map (fun k => (lit (fst k), lit (snd k)))
      [("minSupportedVersion", "120000"); ("copy", "1"); ("pasteAll", "1"); ("pasteValues", "1"); ("merge", "1");
       ("splitFirst", "1"); ("rowColShift", "1"); ("clearFormats", "1"); ("clearComments", "1"); ("assign", "1"); ("coerce", "1")]%string.
  Definition write_cell_metadata_type : wx := WEmpty (lit "metadataType") (type_attrs "XLDAPR" ++ [(lit "cellMeta", lit "1")]).
  Definition write_value_metadata_type : wx := WEmpty (lit "metadataType") (type_attrs "XLRICHVALUE").
  (** 95-121 *)
  Definition write_metadata_types : wx :=
    WElem (lit "metadataTypes") [(lit "count", dec ((if has_dynamic o then 1 else 0) + (if has_embedded o then 1 else 0)))]
      (when (has_dynamic o) [write_cell_metadata_type] ++ when (has_embedded o) [write_value_metadata_type]).
  (** 270-275 *)
  Definition write_rc (t v : N) : wx := WEmpty (lit "rc") [(lit "t", dec t); (lit "v", dec v)].
  (** 164-178, 201-211, 232-237 *)
  Definition write_cell_future_metadata : wx :=
    WElem (lit "futureMetadata") [(lit "name", lit "XLDAPR"); (lit "count", lit "1")]
      [WElem (lit "bk") [] [WElem (lit "extLst") []
        [WElem (lit "ext") [(lit "uri", lit "{bdbb8cdc-fa1e-496e-a857-3c3f30c029c3}")]
          [WEmpty (lit "xda:dynamicArrayProperties") [(lit "fDynamic", lit "1"); (lit "fCollapsed", lit "0")]]]]].
  (** 180-199, 213-230 *)
  Definition write_value_bk (index : N) : wx :=
    WElem (lit "bk") [] [WElem (lit "extLst") []
      [WElem (lit "ext") [(lit "uri", lit "{3e2802c4-a4d2-4d8b-9148-e3be6c30e623}")]
        [WEmpty (lit "xlrd:rvb") [(lit "i", dec index)]]]].
  Definition write_value_future_metadata : wx :=
    WElem (lit "futureMetadata") [(lit "name", lit "XLRICHVALUE"); (lit "count", dec (num_embedded o))]
      (map write_value_bk (below (num_embedded o))).
  (** 239-251 *)
  Definition write_cell_metadata : wx :=
    WElem (lit "cellMetadata") [(lit "count", lit "1")] [WElem (lit "bk") [] [write_rc 1 0]].
  (** 253-268 *)
  Definition write_value_metadata : wx :=
    WElem (lit "valueMetadata") [(lit "count", dec (num_embedded o))]
      (map (fun index => WElem (lit "bk") [] [write_rc (if has_dynamic o then 2 else 1) index]) (below (num_embedded o))).
  (** 41-93 *)
  Definition metadata_part : str :=
    document (WElem (lit "metadata")
      ([(lit "xmlns", lit "http://schemas.openxmlformats.org/spreadsheetml/2006/main")]
       ++ when (has_embedded o) [(lit "xmlns:xlrd", lit "http://schemas.microsoft.com/office/spreadsheetml/2017/richdata")]
       ++ when (has_dynamic o) [(lit "xmlns:xda", lit "http://schemas.microsoft.com/office/spreadsheetml/2017/dynamicarray")])
      ([write_metadata_types] ++ when (has_dynamic o) [write_cell_future_metadata] ++ when (has_embedded o) [write_value_future_metadata]
       ++ when (has_dynamic o) [write_cell_metadata] ++ when (has_embedded o) [write_value_metadata])).

  (** src/rich_value.rs:38-91 *)
  Definition write_v (s : str) : wx := WData (lit "v") s [].
  Definition write_rv (index : N) (x : image) : wx :=
    WElem (lit "rv") [(lit "s", lit "0")]
      ([write_v (dec index); write_v (if i_decorative x then lit "6" else lit "5")]
       ++ when (negb (is_nil (i_alt x))) [write_v (i_alt x)]).
  Fixpoint write_rvs (index : N) (l : list image) : list wx :=
    match l with [] => [] | x :: r => write_rv index x :: write_rvs (index + 1) r end.
  Definition rich_value_part (all : list image) : str :=
    document (WElem (lit "rvData")
      [(lit "xmlns", lit "http://schemas.microsoft.com/office/spreadsheetml/2017/richdata"); (lit "count", dec (N.of_nat (length all)))]
      (write_rvs 0 all)).

  (** src/rich_value_structure.rs:36-85 *)
  Definition write_k (n t : string) : wx := WEmpty (lit "k") [(lit "n", lit n); (lit "t", lit t)].
  Definition rich_value_structure_part : str :=
    document (WElem (lit "rvStructures")
      [(lit "xmlns", lit "http://schemas.microsoft.com/office/spreadsheetml/2017/richdata"); (lit "count", lit "1")]
      [WElem (lit "s") [(lit "t", lit "_localImage")]
        ([write_k "_rvRel:LocalImageIdentifier" "i"; write_k "CalcOrigin" "i"] ++ when (has_descriptions o) [write_k "Text" "s"])]).

  (** src/rich_value_rel.rs:36-72; for index in 1..=n *)
  Definition rich_value_rel_part : str :=
    document (WElem (lit "richValueRels")
      [(lit "xmlns", lit "http://schemas.microsoft.com/office/spreadsheetml/2022/richvaluerel");
       (lit "xmlns:r", lit "http://schemas.openxmlformats.org/officeDocument/2006/relationships")]
      (map (fun index => WEmpty (lit "rel") [(lit "r:id", lit "rId" ++ dec (index + 1))]) (below (num_embedded o)))).

  (** src/rich_value_types.rs:34-113 *)
  Definition write_key (k : string * string * string) : wx :=
    let '(key, flag1, flag2) := k in
    let flag (n : string) := WEmpty (lit "flag") [(lit "name", lit n); (lit "value", lit "1")] in
    WElem (lit "key") [(lit "name", lit key)] ([flag flag1] ++ match flag2 with EmptyString => [] | _ => [flag flag2] end).
  Definition rich_value_types_part : str :=
    document (WElem (lit "rvTypesInfo")
      [(lit "xmlns", lit "http://schemas.microsoft.com/office/spreadsheetml/2017/richdata2");
       (lit "xmlns:mc", lit "http://schemas.openxmlformats.org/markup-compatibility/2006"); (lit "mc:Ignorable", lit "x");
       (lit "xmlns:x", lit "http://schemas.openxmlformats.org/spreadsheetml/2006/main")]
      [WElem (lit "global") [] [WElem (lit "keyFlags") []
        (map write_key [("_Self", "ExcludeFromFile", "ExcludeFromCalcComparison"); ("_DisplayString", "ExcludeFromCalcComparison", "");
          ("_Flags", "ExcludeFromCalcComparison", ""); ("_Format", "ExcludeFromCalcComparison", ""); ("_SubLabel", "ExcludeFromCalcComparison", "");
          ("_Attribution", "ExcludeFromCalcComparison", ""); ("_Icon", "ExcludeFromCalcComparison", ""); ("_Display", "ExcludeFromCalcComparison", "");
          ("_CanonicalPropertyNames", "ExcludeFromCalcComparison", ""); ("_ClassificationId", "ExcludeFromCalcComparison", "")]%string)]]).
End Parts.

(** ** Relationship parts: src/relationship.rs:84-121. The ids and the order are those
    of Pkg_Model.write_rels. *)
Definition write_relationship (e : str * rel) : wx :=
  let '(id, r) := e in
  WEmpty (lit "Relationship") ([(lit "Id", id); (lit "Type", r_type r); (lit "Target", r_target r)]
    ++ when (negb (is_nil (r_mode r))) [(lit "TargetMode", r_mode r)]).
Definition relationships_part (l : list (str * rel)) : str :=
  document (WElem (lit "Relationships") [(lit "xmlns", lit "http://schemas.openxmlformats.org/package/2006/relationships")]
    (map write_relationship l)).
(** src/packager.rs:603-624 *)
Definition rich_value_rels (m : ovf) (all : list image) : option (list (str * rel)) := write_rels m (rich_rels 1 (map i_img all)).
(** src/packager.rs:969-976: the media files of the embedded images. *)
Definition media_files (all : list image) : list (str * list N) :=
  flat_map (fun e => match snd e with CBytes b => [(fst e, b)] | _ => [] end) (write_embedded 1 (map i_img all)).
