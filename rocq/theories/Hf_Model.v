(** Model of pictures in headers and footers: set_header_image and set_footer_image
    (src/worksheet.rs 13268-13326, 13425-13484, 16816-16880), their numbering at save
    time (src/worksheet.rs 16325-16371, src/workbook.rs 2335-2350) and the VML part
    (src/vml.rs 57-134, 183-295, 403-455; src/packager.rs 912-960). *)
From Verif Require Import Base Xml_Model Xml_Tree Fmt_Model Note_Model.
From Verif Require Pkg_Model View_Model.

(** src/image.rs 1156-1164, [position as usize] *)
Inductive hpos := HLeft | HCenter | HRight.
Definition pos_index (p : hpos) : nat := match p with HLeft => 0 | HCenter => 1 | HRight => 2 end%nat.
(** What the part needs of an Image (src/image.rs 842-873): name, hash, extension,
    whether it was scaled, and the size in whole pixels: src/vml.rs:48-50 rounds
    [width * 96 / dpi * scale + 0.25] down; that f64 computation is not modelled. *)
Record hpic := { hp_name : str; hp_hash : str; hp_ext : str; hp_scaled : bool; hp_width : N; hp_height : N }.

(** [str::split] for the two-character texts "&x". *)
Definition cons_head (c : char) (l : list str) : list str := match l with [] => [[c]] | x :: r => (c :: x) :: r end.
Fixpoint split_mark (a : char) (s : str) : list str :=
  match s with
  | [] => [[]]
  | c :: r => match r with
              | [] => cons_head c (split_mark a r)
              | d :: r' => if (c =? 38) && (d =? a) then [] :: split_mark a r' else cons_head c (split_mark a r)
              end
  end.
(** src/worksheet.rs 16832-16880; 76, 67 and 82 are L, C and R. *)
Definition verify_section (a b c : char) (s : str) : bool :=
  match split_mark a s with
  | [_; right_segment] =>
      let left_segment := hd [] (split_mark b right_segment) in
      let left_segment := hd [] (split_mark c left_segment) in
      str_contains (lit "&[Picture]") left_segment || str_contains (lit "&G") left_segment
  | _ => false
  end.
Definition verify_header_footer_image (s : str) (p : hpos) : bool :=
  match p with HLeft => verify_section 76 67 82 s | HRight => verify_section 82 67 76 s | HCenter => verify_section 67 76 82 s end.

(** The fields header, footer, header_footer_images. *)
Record hsheet := { h_header : str; h_footer : str; h_pics : list (option (bool * hpos * hpic)) }.
Definition hsheet_new : hsheet := {| h_header := []; h_footer := []; h_pics := [None; None; None; None; None; None] |}.
Definition set_nth {A} (i : nat) (v : A) (l : list A) : list A := firstn i l ++ v :: skipn (S i) l.
Inductive hop := HText (header : bool) (s : str) | HImage (header : bool) (p : hpos) (i : hpic).
(** src/worksheet.rs 13268-13289, 13302-13326, 13425-13446, 13463-13484; the flag is an error *)
Definition hstep (s : hsheet) (o : hop) : hsheet * bool :=
  match o with
  | HText header t =>
      if 255 <? N.of_nat (length (View_Model.hf_expand t)) then (s, false)
      else ((if header then {| h_header := t; h_footer := h_footer s; h_pics := h_pics s |}
             else {| h_header := h_header s; h_footer := t; h_pics := h_pics s |}), false)
  | HImage header p i =>
      if negb (verify_header_footer_image (if header then h_header s else h_footer s) p) then (s, true)
      else ({| h_header := h_header s; h_footer := h_footer s;
               h_pics := set_nth (if header then pos_index p else 3 + pos_index p)%nat (Some (header, p, i)) (h_pics s) |}, false)
  end.
Definition hrun (s : hsheet) (ops : list hop) : hsheet := fold_left (fun s o => fst (hstep s o)) ops s.

(** ** Saving *)
Definition flatten {A} (l : list (option A)) : list A := flat_map (fun o => match o with Some x => [x] | None => [] end) l.
(** A HashMap from hashes to numbers filled with 1, 2, ...: the hashes in order. *)
Fixpoint index_of (h : str) (l : list str) : option N :=
  match l with [] => None | x :: r => if str_eqb x h then Some 0 else option_map N.succ (index_of h r) end.
Definition number_in (h : str) (l : list str) : N * list str :=
  match index_of h l with Some i => (i, l) | None => (N.of_nat (length l), l ++ [h]) end.
(** src/worksheet.rs 16325-16371: the relationship targets and, for each picture, its relationship.
    Numbers stay far below 2^32. *)
Fixpoint prepare_pics (base : N) (ids rels : list str) (targets : list str) (l : list (bool * hpos * hpic))
  : list str * list str * list (bool * hpos * hpic * N) :=
  match l with
  | [] => (ids, targets, [])
  | (hd, p, i) :: r =>
      let '(image_id, ids) := number_in (hp_hash i) ids in
      let '(targets, rel, rels) :=
        match index_of (hp_hash i) rels with
        | Some k => (targets, k, rels)
        | None => (targets ++ [lit "../media/image" ++ dec (1 + base + image_id) ++ lit "." ++ hp_ext i], N.of_nat (length rels), rels ++ [hp_hash i])
        end in
      let '(ids', targets', infos) := prepare_pics base ids rels targets r in
      (ids', targets', (hd, p, i, 1 + rel) :: infos)
  end.
(** src/image.rs 876-890 *)
Definition vml_position (header : bool) (p : hpos) : str :=
  if header then match p with HLeft => lit "LH" | HRight => lit "RH" | HCenter => lit "CH" end
  else match p with HLeft => lit "LF" | HRight => lit "RF" | HCenter => lit "CF" end.
(** src/vml.rs 403-455 *)
Definition image_style (w h z : N) : str :=
  lit "position:absolute;margin-left:0;margin-top:0;width:" ++ dpi_text w ++ lit "pt;height:" ++ dpi_text h ++ lit "pt;z-index:" ++ dec z.
Definition image_shape (id z : N) (x : bool * hpos * hpic * N) : wx :=
  let '(hd, p, i, rel) := x in
  WElem (lit "v:shape") [(lit "id", vml_position hd p); (lit "o:spid", shape_name id); (lit "type", lit "#_x0000_t75");
                         (lit "style", image_style (hp_width i) (hp_height i) z)]
    [WEmpty (lit "v:imagedata") [(lit "o:relid", lit "rId" ++ dec rel); (lit "o:title", hp_name i)];
     WEmpty (lit "o:lock") ([(lit "v:ext", lit "edit"); (lit "rotation", lit "t")] ++ (if hp_scaled i then [(lit "aspectratio", lit "f")] else []))].
(** src/vml.rs 185-244, 260-268, 292-296 *)
Definition image_type : wx :=
  WElem (lit "v:shapetype") [(lit "id", lit "_x0000_t75"); (lit "coordsize", lit "21600,21600"); (lit "o:spt", lit "75"); (lit "o:preferrelative", lit "t");
                             (lit "path", lit "m@4@5l@4@11@9@11@9@5xe"); (lit "filled", lit "f"); (lit "stroked", lit "f")]
    [WEmpty (lit "v:stroke") [(lit "joinstyle", lit "miter")];
     WElem (lit "v:formulas") [] (map (fun q => WEmpty (lit "v:f") [(lit "eqn", q)])
       [lit "if lineDrawn pixelLineWidth 0"; lit "sum @0 1 0"; lit "sum 0 0 @1"; lit "prod @2 1 2"; lit "prod @3 21600 pixelWidth";
        lit "prod @3 21600 pixelHeight"; lit "sum @0 0 1"; lit "prod @6 1 2"; lit "prod @7 21600 pixelWidth"; lit "sum @8 21600 0";
        lit "prod @7 21600 pixelHeight"; lit "sum @10 21600 0"]);
     WEmpty (lit "v:path") [(lit "o:extrusionok", lit "f"); (lit "gradientshapeok", lit "t"); (lit "o:connecttype", lit "rect")];
     WEmpty (lit "o:lock") [(lit "v:ext", lit "edit"); (lit "aspectratio", lit "t")]].
(** src/vml.rs 92-102 *)
Fixpoint image_shapes (shape z : N) (l : list (bool * hpos * hpic * N)) : list wx :=
  match l with [] => [] | x :: r => image_shape (shape + 1) (z + 1) x :: image_shapes (shape + 1) (z + 1) r end.
(** src/vml.rs 57-134 for header images only; src/packager.rs 943-944: the data id
    and the first shape id of the [k]-th such part. *)
Definition hf_vml (k : N) (infos : list (bool * hpos * hpic * N)) : wx :=
  WElem (lit "xml") [(lit "xmlns:v", lit "urn:schemas-microsoft-com:vml"); (lit "xmlns:o", lit "urn:schemas-microsoft-com:office:office");
                     (lit "xmlns:x", lit "urn:schemas-microsoft-com:office:excel")] (
    WElem (lit "o:shapelayout") [(lit "v:ext", lit "edit")] [WEmpty (lit "o:idmap") [(lit "v:ext", lit "edit"); (lit "data", dec k)]] ::
    (if Pkg_Model.is_nil infos then [] else image_type :: image_shapes (1024 * k) 0 infos)).
(** All sheets of a save, in order (src/workbook.rs 2335-2350, src/packager.rs 913-957):
    for each sheet with pictures, the targets of the relationships of its part and
    the text of the part. *)
Fixpoint hf_parts (base : N) (ids : list str) (k : N) (sheets : list hsheet) : list (option (list str * str)) :=
  match sheets with
  | [] => []
  | s :: r =>
      match flatten (h_pics s) with
      | [] => None :: hf_parts base ids k r
      | l => let '(ids', targets, infos) := prepare_pics base ids [] [] l in
             Some (targets, write_wx (hf_vml k infos)) :: hf_parts base ids' (k + 1) r
      end
  end.
