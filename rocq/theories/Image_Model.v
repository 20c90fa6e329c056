(** Model of reading the type, size and resolution of an image from its bytes: src/image.rs:245-273, 897-1073, 1189-1203.
    Bytes are numbers below 256; usize has 64 bits, so that offsets do not overflow
    for buffers that fit in memory.  Widths and heights are the integers that the code
    converts to f64 (exactly); a resolution is kept as the density that was read and
    its unit, of which the code computes the product with 0.0254 or 2.54.
    The [DefaultHasher] hash of the data is not modelled. *)
From Verif Require Import Base.

Inductive image_type := IPng | IJpg | IGif | IBmp.
(** The resolution in one direction: 96 dpi, or a number per metre, inch or cm. *)
Inductive density := D96 | DMetre (n : N) | DInch (n : N) | DCm (n : N).
Record image := { im_type : image_type; im_width : N; im_height : N; im_xdpi : density; im_ydpi : density; im_default_dpi : bool }.
Inductive image_error := UnknownImageType | ImageDimensionError.
Inductive outcome (A : Type) := Done (a : A) | Fails (e : image_error) | Panics | Loops.
Arguments Done {A}. Arguments Fails {A}. Arguments Panics {A}. Arguments Loops {A}.

(** Indexing a slice, or taking a part of it: None is a panic. *)
Definition part (data : list N) (offset len : nat) : option (list N) :=
  if (offset + len <=? length data)%nat then Some (firstn len (skipn offset data)) else None.
Definition byte_at (data : list N) (offset : nat) : option N := nth_error data offset.
Definition be (l : list N) : N := fold_left (fun a b => a * 256 + b) l 0.
Definition le (l : list N) : N := be (rev l).
(** src/image.rs:1189-1203 *)
Definition u16_be data offset := option_map be (part data offset 2).
Definition u16_le data offset := option_map le (part data offset 2).
Definition u32_be data offset := option_map be (part data offset 4).
Definition u32_le data offset := option_map le (part data offset 4).

Definition get {A B} (o : option A) (k : A -> outcome B) : outcome B := match o with Some a => k a | None => Panics end.

(** The variables of the loops: width, height, width_dpi, height_dpi and has_default_dpi. *)
Record vars := { v_width : N; v_height : N; v_xdpi : density; v_ydpi : density; v_default : bool }.
Definition vars0 : vars := {| v_width := 0; v_height := 0; v_xdpi := D96; v_ydpi := D96; v_default := true |}.
Definition set_size (v : vars) w h : vars := {| v_width := w; v_height := h; v_xdpi := v_xdpi v; v_ydpi := v_ydpi v; v_default := v_default v |}.
Definition set_dpi (v : vars) x y d : vars := {| v_width := v_width v; v_height := v_height v; v_xdpi := x; v_ydpi := y; v_default := d |}.

(** src/image.rs:934-979.  [fuel] bounds the number of rounds (see [C73_always_ends]). *)
Fixpoint png_loop (fuel : nat) (data : list N) (offset : nat) (v : vars) : outcome vars :=
  match fuel with
  | O => Loops
  | S fuel =>
    if (offset <? length data)%nat then
      get (part data (offset + 4) 4) (fun marker =>
      get (u32_be data offset) (fun len =>
      let next (v : vars) :=
        let pause (v : vars) := if str_eqb marker (lit "IEND") then Done v else png_loop fuel data (offset + N.to_nat len + 12) v in
        if str_eqb marker (lit "pHYs") then
          get (byte_at data (offset + 16)) (fun units =>
          get (u32_be data (offset + 8)) (fun x =>
          get (u32_be data (offset + 12)) (fun y =>
          pause (if (units =? 1) && (0 <? x) && (0 <? y) then set_dpi v (DMetre x) (DMetre y) false else v))))
        else pause v in
      if str_eqb marker (lit "IHDR") then
        get (u32_be data (offset + 8)) (fun w => get (u32_be data (offset + 12)) (fun h => next (set_size v w h)))
      else next v))
    else Done v
  end.

(** src/image.rs:1025-1030: a resolution of 0 or 1 becomes 96 dpi.  A density per cm is never 1 dpi. *)
Definition fix_dpi (d : density) : density := match d with DInch 0 | DInch 1 | DCm 0 => D96 | d => d end.
(** src/image.rs:982-1045 *)
Fixpoint jpg_loop (fuel : nat) (data : list N) (offset : nat) (v : vars) : outcome vars :=
  match fuel with
  | O => Loops
  | S fuel =>
    if (offset <? length data)%nat then
      get (u16_be data offset) (fun marker =>
      get (u16_be data (offset + 2)) (fun len =>
      let next (v : vars) :=
        let pause (v : vars) := if marker =? 65498 then Done v else jpg_loop fuel data (offset + N.to_nat len + 2) v in
        if marker =? 65504 then
          get (byte_at data (offset + 11)) (fun units =>
          get (u16_be data (offset + 12)) (fun x =>
          get (u16_be data (offset + 14)) (fun y =>
          let v1 := if units =? 1 then set_dpi v (DInch x) (DInch y) (v_default v) else v in
          let v2 := if units =? 2 then set_dpi v1 (DCm x) (DCm y) false else v1 in
          pause (set_dpi v2 (fix_dpi (v_xdpi v2)) (fix_dpi (v_ydpi v2)) (v_default v2)))))
        else pause v in
      if (N.land marker 65520 =? 65472) && negb (marker =? 65476) && negb (marker =? 65480) && negb (marker =? 65484) then
        get (u16_be data (offset + 5)) (fun h => get (u16_be data (offset + 7)) (fun w => next (set_size v w h)))
      else next v))
    else Done v
  end.

Definition finish (t : image_type) (o : outcome vars) : outcome image :=
  match o with
  | Done v => if (v_width v =? 0) || (v_height v =? 0) then Fails ImageDimensionError
              else Done {| im_type := t; im_width := v_width v; im_height := v_height v; im_xdpi := v_xdpi v; im_ydpi := v_ydpi v; im_default_dpi := v_default v |}
  | Fails e => Fails e | Panics => Panics | Loops => Loops
  end.
(** src/image.rs:1048-1060 *)
Definition process_bmp (data : list N) : outcome vars := get (u32_le data 18) (fun w => get (u32_le data 22) (fun h => Done (set_size vars0 w h))).
(** src/image.rs:1063-1072 *)
Definition process_gif (data : list N) : outcome vars := get (u16_le data 6) (fun w => get (u16_le data 8) (fun h => Done (set_size vars0 w h))).
(** src/image.rs:245-273, 897-931 *)
Definition new_from_buffer (data : list N) : outcome image :=
  get (part data 1 3) (fun png => get (u16_be data 0) (fun jpg => get (part data 0 2) (fun bmp => get (part data 0 4) (fun gif =>
  if str_eqb png (lit "PNG") then finish IPng (png_loop (S (length data)) data 8 vars0)
  else if jpg =? 65496 then finish IJpg (jpg_loop (S (length data)) data 2 vars0)
  else if str_eqb bmp (lit "BM") then finish IBmp (process_bmp data)
  else if str_eqb gif (lit "GIF8") then finish IGif (process_gif data)
  else Fails UnknownImageType)))).
