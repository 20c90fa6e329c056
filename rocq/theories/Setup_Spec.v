(** What a user expects of a history of calls on the view and print settings of a
    sheet: each setting is the one given last, among the calls whose arguments
    are allowed.  [setup_op] names the calls and their arguments only. *)
From Verif Require Import Base F64 SheetXml_Spec Doc_Spec View_Spec View_Model.

Definition latest {A} (given_by : setup_op -> option A) (start : A) (calls : list setup_op) : A :=
  fold_left (fun a o => match given_by o with Some v => v | None => a end) calls start.

(** The grid: 1,048,576 rows and 16,384 columns. *)
Definition on_grid (r c : N) : bool := (r <? 1048576) && (c <? 16384).
Definition allowed {A} (b : bool) (v : A) : option A := if b then Some v else None.
(** Whether a call must be refused with an error. *)
Definition refused (o : setup_op) : bool :=
  match o with
  | UFreeze r c | UTopCell r c | UTopLeft r c => negb (on_grid r c)
  | USelect fr fc lr lc => negb (on_grid fr fc && on_grid lr lc)
  | _ => false
  end.

(** ** View *)
Definition of_grid o := match o with UGrid b => Some b | _ => None end.
Definition of_rtl o := match o with URtl b => Some b | _ => None end.
Definition of_mode o :=
  match o with
  | UView PvNormal => Some ModeNormal | UView PvLayout => Some ModePageLayout | UView PvBreaks => Some ModePageBreaks
  | _ => None
  end.
Definition of_zoom o := match o with UZoom n => allowed ((10 <=? n) && (n <=? 400)) n | _ => None end.
Definition of_freeze o := match o with UFreeze r c => allowed (on_grid r c) (r, c) | _ => None end.
Definition of_top_cell o := match o with UTopCell r c => allowed (on_grid r c) (r, c) | _ => None end.
(** The cell given first is the active one, whatever the order of the corners. *)
Definition of_selection o :=
  match o with
  | USelect fr fc lr lc =>
      allowed (on_grid fr fc && on_grid lr lc)
        (Some (fr, fc, (N.min fr lr, N.min fc lc, (N.max fr lr, N.max fc lc))))
  | _ => None
  end.
(** The first visible cell; the first cell of the grid needs no mark. *)
Definition of_top_left o :=
  match o with UTopLeft r c => allowed (on_grid r c) (if (r =? 0) && (c =? 0) then None else Some (r, c)) | _ => None end.
Definition expected_frozen (calls : list setup_op) : option (N * N * (N * N)) :=
  let (r, c) := latest of_freeze (0, 0) calls in
  let top := latest of_top_cell (0, 0) calls in
  if (r =? 0) && (c =? 0) then None
  else Some (r, c, if (fst top =? 0) && (snd top =? 0) then (r, c) else top).
Definition expected_view (selected : bool) (calls : list setup_op) : fview :=
  {| w_gridlines := latest of_grid true calls; w_right_to_left := latest of_rtl false calls; w_selected := selected;
     w_mode := latest of_mode ModeNormal calls; w_top_left := latest of_top_left None calls;
     w_zoom := latest of_zoom 100 calls; w_frozen := expected_frozen calls; w_selection := latest of_selection None calls |}.

(** ** Printing *)
Definition of_paper o := match o with UPaper n => Some n | _ => None end.
Definition of_order o := match o with UOrder b => Some b | _ => None end.
Definition of_portrait o := match o with ULandscape => Some false | UPortrait => Some true | _ => None end.
Definition of_scaling o :=
  match o with UScale n => allowed ((10 <=? n) && (n <=? 400)) (Percent n) | UFit w h => Some (Pages w h) | _ => None end.
Definition of_bw o := match o with UBlackWhite b => Some b | _ => None end.
Definition of_draft o := match o with UDraft b => Some b | _ => None end.
Definition of_first_page o := match o with UFirstPage n => Some (if n =? 0 then None else Some n) | _ => None end.
Definition of_center_h o := match o with UCenterH b => Some b | _ => None end.
Definition of_center_v o := match o with UCenterV b => Some b | _ => None end.
Definition of_headings o := match o with UHeadings b => Some b | _ => None end.
Definition of_print_grid o := match o with UPrintGrid b => Some b | _ => None end.
(** A header is taken when it has at most 255 characters with its codes shortened. *)
Definition of_header o := match o with UHeader h => allowed (N.of_nat (length (shorten h)) <=? 255) (shorten h) | _ => None end.
Definition of_footer o := match o with UFooter h => allowed (N.of_nat (length (shorten h)) <=? 255) (shorten h) | _ => None end.
Definition of_scale_doc o := match o with UScaleDoc b => Some b | _ => None end.
Definition of_align o := match o with UAlign b => Some b | _ => None end.
(** Each margin on its own: one that is negative or not a number leaves it. *)
Definition of_margin (pick : f64 * f64 * f64 * f64 * f64 * f64 -> f64) o :=
  match o with UMargins l r t b h f => let x := pick (l, r, t, b, h, f) in allowed (fle (f_of_Z 0) x) x | _ => None end.
Definition m_left (x : f64 * f64 * f64 * f64 * f64 * f64) := let '(l, r, t, b, h, f) := x in l.
Definition m_right (x : f64 * f64 * f64 * f64 * f64 * f64) := let '(l, r, t, b, h, f) := x in r.
Definition m_top (x : f64 * f64 * f64 * f64 * f64 * f64) := let '(l, r, t, b, h, f) := x in t.
Definition m_bottom (x : f64 * f64 * f64 * f64 * f64 * f64) := let '(l, r, t, b, h, f) := x in b.
Definition m_header (x : f64 * f64 * f64 * f64 * f64 * f64) := let '(l, r, t, b, h, f) := x in h.
Definition m_footer (x : f64 * f64 * f64 * f64 * f64 * f64) := let '(l, r, t, b, h, f) := x in f.
(** 0.7, 0.7, 0.75, 0.75, 0.3 and 0.3 inches. *)
Definition expected_margins (calls : list setup_op) : list f64 :=
  [latest (of_margin m_left) (f_dec 7 1) calls; latest (of_margin m_right) (f_dec 7 1) calls;
   latest (of_margin m_top) (f_dec 75 2) calls; latest (of_margin m_bottom) (f_dec 75 2) calls;
   latest (of_margin m_header) (f_dec 3 1) calls; latest (of_margin m_footer) (f_dec 3 1) calls].
Definition expected_page (chartsheet : bool) (num_text : f64 -> str) (calls : list setup_op) : fpage :=
  {| g_margins := map num_text (expected_margins calls); g_paper := latest of_paper 0 calls;
     g_down_first := latest of_order true calls; g_portrait := latest of_portrait (negb chartsheet) calls;
     g_scaling := latest of_scaling (Percent 100) calls; g_black_white := latest of_bw false calls;
     g_draft := latest of_draft false calls; g_first_page := latest of_first_page None calls;
     g_center_h := latest of_center_h false calls; g_center_v := latest of_center_v false calls;
     g_headings := latest of_headings false calls; g_gridlines := latest of_print_grid false calls;
     g_header := latest of_header [] calls; g_footer := latest of_footer [] calls;
     g_scale_with_doc := latest of_scale_doc true calls; g_align := latest of_align true calls |}.

(** The texts of the calls: characters XML can hold, no carriage return. *)
Definition call_texts (o : setup_op) : Prop := match o with UHeader h | UFooter h => doc_text h | _ => True end.
