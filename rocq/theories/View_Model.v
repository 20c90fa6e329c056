(** Model of the settings of a sheet that its view, print setup and tab elements
    show: the setters (src/worksheet.rs:9903-10008, 12251-13971) and the writers
    of <sheetPr>, <sheetViews>, <printOptions>, <pageMargins>, <pageSetup> and
    <headerFooter> (17584-17665, 17700-17851, 18212-18295, 19387-19447). *)
From Verif Require Import Base F64 Ref_Model Xml_Model Xml_Tree Cells_Model Fmt_Model Rich_Model.

Inductive page_view := PvNormal | PvLayout | PvBreaks.

(** The fields of Worksheet concerned (src/worksheet.rs:1557-1600), in this order:
    screen_gridlines, right_to_left, selected, page_view, top_left_cell, zoom,
    panes.freeze_cell, panes.top_cell, selected_range, tab_color, paper_size,
    default_page_order, is_portrait, header, footer,
    header_footer_scale_with_doc, header_footer_align_with_page, the six
    margins, first_page_number, print_scale, fit_to_page, fit_width, fit_height,
    center_horizontally, center_vertically, print_gridlines,
    print_black_and_white, print_draft, print_headings, page_setup_changed,
    print_options_changed, head_footer_changed. *)
Record setup := {
  u_grid : bool; u_rtl : bool; u_selected : bool; u_mode : page_view; u_top_left : str;
  u_zoom : N; u_freeze : N * N; u_top_cell : N * N; u_selection : str * str; u_tab : Color;
  u_paper : N; u_down : bool; u_portrait : bool; u_header : str; u_footer : str;
  u_scale_doc : bool; u_align : bool; u_left : f64; u_right : f64; u_top : f64;
  u_bottom : f64; u_mheader : f64; u_mfooter : f64; u_first_page : N; u_scale : N;
  u_fit : bool; u_fit_w : N; u_fit_h : N; u_center_h : bool; u_center_v : bool;
  u_print_grid : bool; u_bw : bool; u_draft : bool; u_headings : bool; u_setup : bool;
  u_options : bool; u_hf : bool }.
Definition set_u_grid (s : setup) (v : bool) : setup :=
  Build_setup v (u_rtl s) (u_selected s) (u_mode s) (u_top_left s) (u_zoom s) (u_freeze s) (u_top_cell s) (u_selection s) (u_tab s) (u_paper s) (u_down s) (u_portrait s) (u_header s) (u_footer s) (u_scale_doc s) (u_align s) (u_left s) (u_right s) (u_top s) (u_bottom s) (u_mheader s) (u_mfooter s) (u_first_page s) (u_scale s) (u_fit s) (u_fit_w s) (u_fit_h s) (u_center_h s) (u_center_v s) (u_print_grid s) (u_bw s) (u_draft s) (u_headings s) (u_setup s) (u_options s) (u_hf s).
Definition set_u_rtl (s : setup) (v : bool) : setup :=
  Build_setup (u_grid s) v (u_selected s) (u_mode s) (u_top_left s) (u_zoom s) (u_freeze s) (u_top_cell s) (u_selection s) (u_tab s) (u_paper s) (u_down s) (u_portrait s) (u_header s) (u_footer s) (u_scale_doc s) (u_align s) (u_left s) (u_right s) (u_top s) (u_bottom s) (u_mheader s) (u_mfooter s) (u_first_page s) (u_scale s) (u_fit s) (u_fit_w s) (u_fit_h s) (u_center_h s) (u_center_v s) (u_print_grid s) (u_bw s) (u_draft s) (u_headings s) (u_setup s) (u_options s) (u_hf s).
Definition set_u_selected (s : setup) (v : bool) : setup :=
  Build_setup (u_grid s) (u_rtl s) v (u_mode s) (u_top_left s) (u_zoom s) (u_freeze s) (u_top_cell s) (u_selection s) (u_tab s) (u_paper s) (u_down s) (u_portrait s) (u_header s) (u_footer s) (u_scale_doc s) (u_align s) (u_left s) (u_right s) (u_top s) (u_bottom s) (u_mheader s) (u_mfooter s) (u_first_page s) (u_scale s) (u_fit s) (u_fit_w s) (u_fit_h s) (u_center_h s) (u_center_v s) (u_print_grid s) (u_bw s) (u_draft s) (u_headings s) (u_setup s) (u_options s) (u_hf s).
Definition set_u_mode (s : setup) (v : page_view) : setup :=
  Build_setup (u_grid s) (u_rtl s) (u_selected s) v (u_top_left s) (u_zoom s) (u_freeze s) (u_top_cell s) (u_selection s) (u_tab s) (u_paper s) (u_down s) (u_portrait s) (u_header s) (u_footer s) (u_scale_doc s) (u_align s) (u_left s) (u_right s) (u_top s) (u_bottom s) (u_mheader s) (u_mfooter s) (u_first_page s) (u_scale s) (u_fit s) (u_fit_w s) (u_fit_h s) (u_center_h s) (u_center_v s) (u_print_grid s) (u_bw s) (u_draft s) (u_headings s) (u_setup s) (u_options s) (u_hf s).
Definition set_u_top_left (s : setup) (v : str) : setup :=
  Build_setup (u_grid s) (u_rtl s) (u_selected s) (u_mode s) v (u_zoom s) (u_freeze s) (u_top_cell s) (u_selection s) (u_tab s) (u_paper s) (u_down s) (u_portrait s) (u_header s) (u_footer s) (u_scale_doc s) (u_align s) (u_left s) (u_right s) (u_top s) (u_bottom s) (u_mheader s) (u_mfooter s) (u_first_page s) (u_scale s) (u_fit s) (u_fit_w s) (u_fit_h s) (u_center_h s) (u_center_v s) (u_print_grid s) (u_bw s) (u_draft s) (u_headings s) (u_setup s) (u_options s) (u_hf s).
Definition set_u_zoom (s : setup) (v : N) : setup :=
  Build_setup (u_grid s) (u_rtl s) (u_selected s) (u_mode s) (u_top_left s) v (u_freeze s) (u_top_cell s) (u_selection s) (u_tab s) (u_paper s) (u_down s) (u_portrait s) (u_header s) (u_footer s) (u_scale_doc s) (u_align s) (u_left s) (u_right s) (u_top s) (u_bottom s) (u_mheader s) (u_mfooter s) (u_first_page s) (u_scale s) (u_fit s) (u_fit_w s) (u_fit_h s) (u_center_h s) (u_center_v s) (u_print_grid s) (u_bw s) (u_draft s) (u_headings s) (u_setup s) (u_options s) (u_hf s).
Definition set_u_freeze (s : setup) (v : N * N) : setup :=
  Build_setup (u_grid s) (u_rtl s) (u_selected s) (u_mode s) (u_top_left s) (u_zoom s) v (u_top_cell s) (u_selection s) (u_tab s) (u_paper s) (u_down s) (u_portrait s) (u_header s) (u_footer s) (u_scale_doc s) (u_align s) (u_left s) (u_right s) (u_top s) (u_bottom s) (u_mheader s) (u_mfooter s) (u_first_page s) (u_scale s) (u_fit s) (u_fit_w s) (u_fit_h s) (u_center_h s) (u_center_v s) (u_print_grid s) (u_bw s) (u_draft s) (u_headings s) (u_setup s) (u_options s) (u_hf s).
Definition set_u_top_cell (s : setup) (v : N * N) : setup :=
  Build_setup (u_grid s) (u_rtl s) (u_selected s) (u_mode s) (u_top_left s) (u_zoom s) (u_freeze s) v (u_selection s) (u_tab s) (u_paper s) (u_down s) (u_portrait s) (u_header s) (u_footer s) (u_scale_doc s) (u_align s) (u_left s) (u_right s) (u_top s) (u_bottom s) (u_mheader s) (u_mfooter s) (u_first_page s) (u_scale s) (u_fit s) (u_fit_w s) (u_fit_h s) (u_center_h s) (u_center_v s) (u_print_grid s) (u_bw s) (u_draft s) (u_headings s) (u_setup s) (u_options s) (u_hf s).
Definition set_u_selection (s : setup) (v : str * str) : setup :=
  Build_setup (u_grid s) (u_rtl s) (u_selected s) (u_mode s) (u_top_left s) (u_zoom s) (u_freeze s) (u_top_cell s) v (u_tab s) (u_paper s) (u_down s) (u_portrait s) (u_header s) (u_footer s) (u_scale_doc s) (u_align s) (u_left s) (u_right s) (u_top s) (u_bottom s) (u_mheader s) (u_mfooter s) (u_first_page s) (u_scale s) (u_fit s) (u_fit_w s) (u_fit_h s) (u_center_h s) (u_center_v s) (u_print_grid s) (u_bw s) (u_draft s) (u_headings s) (u_setup s) (u_options s) (u_hf s).
Definition set_u_tab (s : setup) (v : Color) : setup :=
  Build_setup (u_grid s) (u_rtl s) (u_selected s) (u_mode s) (u_top_left s) (u_zoom s) (u_freeze s) (u_top_cell s) (u_selection s) v (u_paper s) (u_down s) (u_portrait s) (u_header s) (u_footer s) (u_scale_doc s) (u_align s) (u_left s) (u_right s) (u_top s) (u_bottom s) (u_mheader s) (u_mfooter s) (u_first_page s) (u_scale s) (u_fit s) (u_fit_w s) (u_fit_h s) (u_center_h s) (u_center_v s) (u_print_grid s) (u_bw s) (u_draft s) (u_headings s) (u_setup s) (u_options s) (u_hf s).
Definition set_u_paper (s : setup) (v : N) : setup :=
  Build_setup (u_grid s) (u_rtl s) (u_selected s) (u_mode s) (u_top_left s) (u_zoom s) (u_freeze s) (u_top_cell s) (u_selection s) (u_tab s) v (u_down s) (u_portrait s) (u_header s) (u_footer s) (u_scale_doc s) (u_align s) (u_left s) (u_right s) (u_top s) (u_bottom s) (u_mheader s) (u_mfooter s) (u_first_page s) (u_scale s) (u_fit s) (u_fit_w s) (u_fit_h s) (u_center_h s) (u_center_v s) (u_print_grid s) (u_bw s) (u_draft s) (u_headings s) (u_setup s) (u_options s) (u_hf s).
Definition set_u_down (s : setup) (v : bool) : setup :=
  Build_setup (u_grid s) (u_rtl s) (u_selected s) (u_mode s) (u_top_left s) (u_zoom s) (u_freeze s) (u_top_cell s) (u_selection s) (u_tab s) (u_paper s) v (u_portrait s) (u_header s) (u_footer s) (u_scale_doc s) (u_align s) (u_left s) (u_right s) (u_top s) (u_bottom s) (u_mheader s) (u_mfooter s) (u_first_page s) (u_scale s) (u_fit s) (u_fit_w s) (u_fit_h s) (u_center_h s) (u_center_v s) (u_print_grid s) (u_bw s) (u_draft s) (u_headings s) (u_setup s) (u_options s) (u_hf s).
Definition set_u_portrait (s : setup) (v : bool) : setup :=
  Build_setup (u_grid s) (u_rtl s) (u_selected s) (u_mode s) (u_top_left s) (u_zoom s) (u_freeze s) (u_top_cell s) (u_selection s) (u_tab s) (u_paper s) (u_down s) v (u_header s) (u_footer s) (u_scale_doc s) (u_align s) (u_left s) (u_right s) (u_top s) (u_bottom s) (u_mheader s) (u_mfooter s) (u_first_page s) (u_scale s) (u_fit s) (u_fit_w s) (u_fit_h s) (u_center_h s) (u_center_v s) (u_print_grid s) (u_bw s) (u_draft s) (u_headings s) (u_setup s) (u_options s) (u_hf s).
Definition set_u_header (s : setup) (v : str) : setup :=
  Build_setup (u_grid s) (u_rtl s) (u_selected s) (u_mode s) (u_top_left s) (u_zoom s) (u_freeze s) (u_top_cell s) (u_selection s) (u_tab s) (u_paper s) (u_down s) (u_portrait s) v (u_footer s) (u_scale_doc s) (u_align s) (u_left s) (u_right s) (u_top s) (u_bottom s) (u_mheader s) (u_mfooter s) (u_first_page s) (u_scale s) (u_fit s) (u_fit_w s) (u_fit_h s) (u_center_h s) (u_center_v s) (u_print_grid s) (u_bw s) (u_draft s) (u_headings s) (u_setup s) (u_options s) (u_hf s).
Definition set_u_footer (s : setup) (v : str) : setup :=
  Build_setup (u_grid s) (u_rtl s) (u_selected s) (u_mode s) (u_top_left s) (u_zoom s) (u_freeze s) (u_top_cell s) (u_selection s) (u_tab s) (u_paper s) (u_down s) (u_portrait s) (u_header s) v (u_scale_doc s) (u_align s) (u_left s) (u_right s) (u_top s) (u_bottom s) (u_mheader s) (u_mfooter s) (u_first_page s) (u_scale s) (u_fit s) (u_fit_w s) (u_fit_h s) (u_center_h s) (u_center_v s) (u_print_grid s) (u_bw s) (u_draft s) (u_headings s) (u_setup s) (u_options s) (u_hf s).
Definition set_u_scale_doc (s : setup) (v : bool) : setup :=
  Build_setup (u_grid s) (u_rtl s) (u_selected s) (u_mode s) (u_top_left s) (u_zoom s) (u_freeze s) (u_top_cell s) (u_selection s) (u_tab s) (u_paper s) (u_down s) (u_portrait s) (u_header s) (u_footer s) v (u_align s) (u_left s) (u_right s) (u_top s) (u_bottom s) (u_mheader s) (u_mfooter s) (u_first_page s) (u_scale s) (u_fit s) (u_fit_w s) (u_fit_h s) (u_center_h s) (u_center_v s) (u_print_grid s) (u_bw s) (u_draft s) (u_headings s) (u_setup s) (u_options s) (u_hf s).
Definition set_u_align (s : setup) (v : bool) : setup :=
  Build_setup (u_grid s) (u_rtl s) (u_selected s) (u_mode s) (u_top_left s) (u_zoom s) (u_freeze s) (u_top_cell s) (u_selection s) (u_tab s) (u_paper s) (u_down s) (u_portrait s) (u_header s) (u_footer s) (u_scale_doc s) v (u_left s) (u_right s) (u_top s) (u_bottom s) (u_mheader s) (u_mfooter s) (u_first_page s) (u_scale s) (u_fit s) (u_fit_w s) (u_fit_h s) (u_center_h s) (u_center_v s) (u_print_grid s) (u_bw s) (u_draft s) (u_headings s) (u_setup s) (u_options s) (u_hf s).
Definition set_u_left (s : setup) (v : f64) : setup :=
  Build_setup (u_grid s) (u_rtl s) (u_selected s) (u_mode s) (u_top_left s) (u_zoom s) (u_freeze s) (u_top_cell s) (u_selection s) (u_tab s) (u_paper s) (u_down s) (u_portrait s) (u_header s) (u_footer s) (u_scale_doc s) (u_align s) v (u_right s) (u_top s) (u_bottom s) (u_mheader s) (u_mfooter s) (u_first_page s) (u_scale s) (u_fit s) (u_fit_w s) (u_fit_h s) (u_center_h s) (u_center_v s) (u_print_grid s) (u_bw s) (u_draft s) (u_headings s) (u_setup s) (u_options s) (u_hf s).
Definition set_u_right (s : setup) (v : f64) : setup :=
  Build_setup (u_grid s) (u_rtl s) (u_selected s) (u_mode s) (u_top_left s) (u_zoom s) (u_freeze s) (u_top_cell s) (u_selection s) (u_tab s) (u_paper s) (u_down s) (u_portrait s) (u_header s) (u_footer s) (u_scale_doc s) (u_align s) (u_left s) v (u_top s) (u_bottom s) (u_mheader s) (u_mfooter s) (u_first_page s) (u_scale s) (u_fit s) (u_fit_w s) (u_fit_h s) (u_center_h s) (u_center_v s) (u_print_grid s) (u_bw s) (u_draft s) (u_headings s) (u_setup s) (u_options s) (u_hf s).
Definition set_u_top (s : setup) (v : f64) : setup :=
  Build_setup (u_grid s) (u_rtl s) (u_selected s) (u_mode s) (u_top_left s) (u_zoom s) (u_freeze s) (u_top_cell s) (u_selection s) (u_tab s) (u_paper s) (u_down s) (u_portrait s) (u_header s) (u_footer s) (u_scale_doc s) (u_align s) (u_left s) (u_right s) v (u_bottom s) (u_mheader s) (u_mfooter s) (u_first_page s) (u_scale s) (u_fit s) (u_fit_w s) (u_fit_h s) (u_center_h s) (u_center_v s) (u_print_grid s) (u_bw s) (u_draft s) (u_headings s) (u_setup s) (u_options s) (u_hf s).
Definition set_u_bottom (s : setup) (v : f64) : setup :=
  Build_setup (u_grid s) (u_rtl s) (u_selected s) (u_mode s) (u_top_left s) (u_zoom s) (u_freeze s) (u_top_cell s) (u_selection s) (u_tab s) (u_paper s) (u_down s) (u_portrait s) (u_header s) (u_footer s) (u_scale_doc s) (u_align s) (u_left s) (u_right s) (u_top s) v (u_mheader s) (u_mfooter s) (u_first_page s) (u_scale s) (u_fit s) (u_fit_w s) (u_fit_h s) (u_center_h s) (u_center_v s) (u_print_grid s) (u_bw s) (u_draft s) (u_headings s) (u_setup s) (u_options s) (u_hf s).
Definition set_u_mheader (s : setup) (v : f64) : setup :=
  Build_setup (u_grid s) (u_rtl s) (u_selected s) (u_mode s) (u_top_left s) (u_zoom s) (u_freeze s) (u_top_cell s) (u_selection s) (u_tab s) (u_paper s) (u_down s) (u_portrait s) (u_header s) (u_footer s) (u_scale_doc s) (u_align s) (u_left s) (u_right s) (u_top s) (u_bottom s) v (u_mfooter s) (u_first_page s) (u_scale s) (u_fit s) (u_fit_w s) (u_fit_h s) (u_center_h s) (u_center_v s) (u_print_grid s) (u_bw s) (u_draft s) (u_headings s) (u_setup s) (u_options s) (u_hf s).
Definition set_u_mfooter (s : setup) (v : f64) : setup :=
  Build_setup (u_grid s) (u_rtl s) (u_selected s) (u_mode s) (u_top_left s) (u_zoom s) (u_freeze s) (u_top_cell s) (u_selection s) (u_tab s) (u_paper s) (u_down s) (u_portrait s) (u_header s) (u_footer s) (u_scale_doc s) (u_align s) (u_left s) (u_right s) (u_top s) (u_bottom s) (u_mheader s) v (u_first_page s) (u_scale s) (u_fit s) (u_fit_w s) (u_fit_h s) (u_center_h s) (u_center_v s) (u_print_grid s) (u_bw s) (u_draft s) (u_headings s) (u_setup s) (u_options s) (u_hf s).
Definition set_u_first_page (s : setup) (v : N) : setup :=
  Build_setup (u_grid s) (u_rtl s) (u_selected s) (u_mode s) (u_top_left s) (u_zoom s) (u_freeze s) (u_top_cell s) (u_selection s) (u_tab s) (u_paper s) (u_down s) (u_portrait s) (u_header s) (u_footer s) (u_scale_doc s) (u_align s) (u_left s) (u_right s) (u_top s) (u_bottom s) (u_mheader s) (u_mfooter s) v (u_scale s) (u_fit s) (u_fit_w s) (u_fit_h s) (u_center_h s) (u_center_v s) (u_print_grid s) (u_bw s) (u_draft s) (u_headings s) (u_setup s) (u_options s) (u_hf s).
Definition set_u_scale (s : setup) (v : N) : setup :=
  Build_setup (u_grid s) (u_rtl s) (u_selected s) (u_mode s) (u_top_left s) (u_zoom s) (u_freeze s) (u_top_cell s) (u_selection s) (u_tab s) (u_paper s) (u_down s) (u_portrait s) (u_header s) (u_footer s) (u_scale_doc s) (u_align s) (u_left s) (u_right s) (u_top s) (u_bottom s) (u_mheader s) (u_mfooter s) (u_first_page s) v (u_fit s) (u_fit_w s) (u_fit_h s) (u_center_h s) (u_center_v s) (u_print_grid s) (u_bw s) (u_draft s) (u_headings s) (u_setup s) (u_options s) (u_hf s).
Definition set_u_fit (s : setup) (v : bool) : setup :=
  Build_setup (u_grid s) (u_rtl s) (u_selected s) (u_mode s) (u_top_left s) (u_zoom s) (u_freeze s) (u_top_cell s) (u_selection s) (u_tab s) (u_paper s) (u_down s) (u_portrait s) (u_header s) (u_footer s) (u_scale_doc s) (u_align s) (u_left s) (u_right s) (u_top s) (u_bottom s) (u_mheader s) (u_mfooter s) (u_first_page s) (u_scale s) v (u_fit_w s) (u_fit_h s) (u_center_h s) (u_center_v s) (u_print_grid s) (u_bw s) (u_draft s) (u_headings s) (u_setup s) (u_options s) (u_hf s).
Definition set_u_fit_w (s : setup) (v : N) : setup :=
  Build_setup (u_grid s) (u_rtl s) (u_selected s) (u_mode s) (u_top_left s) (u_zoom s) (u_freeze s) (u_top_cell s) (u_selection s) (u_tab s) (u_paper s) (u_down s) (u_portrait s) (u_header s) (u_footer s) (u_scale_doc s) (u_align s) (u_left s) (u_right s) (u_top s) (u_bottom s) (u_mheader s) (u_mfooter s) (u_first_page s) (u_scale s) (u_fit s) v (u_fit_h s) (u_center_h s) (u_center_v s) (u_print_grid s) (u_bw s) (u_draft s) (u_headings s) (u_setup s) (u_options s) (u_hf s).
Definition set_u_fit_h (s : setup) (v : N) : setup :=
  Build_setup (u_grid s) (u_rtl s) (u_selected s) (u_mode s) (u_top_left s) (u_zoom s) (u_freeze s) (u_top_cell s) (u_selection s) (u_tab s) (u_paper s) (u_down s) (u_portrait s) (u_header s) (u_footer s) (u_scale_doc s) (u_align s) (u_left s) (u_right s) (u_top s) (u_bottom s) (u_mheader s) (u_mfooter s) (u_first_page s) (u_scale s) (u_fit s) (u_fit_w s) v (u_center_h s) (u_center_v s) (u_print_grid s) (u_bw s) (u_draft s) (u_headings s) (u_setup s) (u_options s) (u_hf s).
Definition set_u_center_h (s : setup) (v : bool) : setup :=
  Build_setup (u_grid s) (u_rtl s) (u_selected s) (u_mode s) (u_top_left s) (u_zoom s) (u_freeze s) (u_top_cell s) (u_selection s) (u_tab s) (u_paper s) (u_down s) (u_portrait s) (u_header s) (u_footer s) (u_scale_doc s) (u_align s) (u_left s) (u_right s) (u_top s) (u_bottom s) (u_mheader s) (u_mfooter s) (u_first_page s) (u_scale s) (u_fit s) (u_fit_w s) (u_fit_h s) v (u_center_v s) (u_print_grid s) (u_bw s) (u_draft s) (u_headings s) (u_setup s) (u_options s) (u_hf s).
Definition set_u_center_v (s : setup) (v : bool) : setup :=
  Build_setup (u_grid s) (u_rtl s) (u_selected s) (u_mode s) (u_top_left s) (u_zoom s) (u_freeze s) (u_top_cell s) (u_selection s) (u_tab s) (u_paper s) (u_down s) (u_portrait s) (u_header s) (u_footer s) (u_scale_doc s) (u_align s) (u_left s) (u_right s) (u_top s) (u_bottom s) (u_mheader s) (u_mfooter s) (u_first_page s) (u_scale s) (u_fit s) (u_fit_w s) (u_fit_h s) (u_center_h s) v (u_print_grid s) (u_bw s) (u_draft s) (u_headings s) (u_setup s) (u_options s) (u_hf s).
Definition set_u_print_grid (s : setup) (v : bool) : setup :=
  Build_setup (u_grid s) (u_rtl s) (u_selected s) (u_mode s) (u_top_left s) (u_zoom s) (u_freeze s) (u_top_cell s) (u_selection s) (u_tab s) (u_paper s) (u_down s) (u_portrait s) (u_header s) (u_footer s) (u_scale_doc s) (u_align s) (u_left s) (u_right s) (u_top s) (u_bottom s) (u_mheader s) (u_mfooter s) (u_first_page s) (u_scale s) (u_fit s) (u_fit_w s) (u_fit_h s) (u_center_h s) (u_center_v s) v (u_bw s) (u_draft s) (u_headings s) (u_setup s) (u_options s) (u_hf s).
Definition set_u_bw (s : setup) (v : bool) : setup :=
  Build_setup (u_grid s) (u_rtl s) (u_selected s) (u_mode s) (u_top_left s) (u_zoom s) (u_freeze s) (u_top_cell s) (u_selection s) (u_tab s) (u_paper s) (u_down s) (u_portrait s) (u_header s) (u_footer s) (u_scale_doc s) (u_align s) (u_left s) (u_right s) (u_top s) (u_bottom s) (u_mheader s) (u_mfooter s) (u_first_page s) (u_scale s) (u_fit s) (u_fit_w s) (u_fit_h s) (u_center_h s) (u_center_v s) (u_print_grid s) v (u_draft s) (u_headings s) (u_setup s) (u_options s) (u_hf s).
Definition set_u_draft (s : setup) (v : bool) : setup :=
  Build_setup (u_grid s) (u_rtl s) (u_selected s) (u_mode s) (u_top_left s) (u_zoom s) (u_freeze s) (u_top_cell s) (u_selection s) (u_tab s) (u_paper s) (u_down s) (u_portrait s) (u_header s) (u_footer s) (u_scale_doc s) (u_align s) (u_left s) (u_right s) (u_top s) (u_bottom s) (u_mheader s) (u_mfooter s) (u_first_page s) (u_scale s) (u_fit s) (u_fit_w s) (u_fit_h s) (u_center_h s) (u_center_v s) (u_print_grid s) (u_bw s) v (u_headings s) (u_setup s) (u_options s) (u_hf s).
Definition set_u_headings (s : setup) (v : bool) : setup :=
  Build_setup (u_grid s) (u_rtl s) (u_selected s) (u_mode s) (u_top_left s) (u_zoom s) (u_freeze s) (u_top_cell s) (u_selection s) (u_tab s) (u_paper s) (u_down s) (u_portrait s) (u_header s) (u_footer s) (u_scale_doc s) (u_align s) (u_left s) (u_right s) (u_top s) (u_bottom s) (u_mheader s) (u_mfooter s) (u_first_page s) (u_scale s) (u_fit s) (u_fit_w s) (u_fit_h s) (u_center_h s) (u_center_v s) (u_print_grid s) (u_bw s) (u_draft s) v (u_setup s) (u_options s) (u_hf s).
Definition set_u_setup (s : setup) (v : bool) : setup :=
  Build_setup (u_grid s) (u_rtl s) (u_selected s) (u_mode s) (u_top_left s) (u_zoom s) (u_freeze s) (u_top_cell s) (u_selection s) (u_tab s) (u_paper s) (u_down s) (u_portrait s) (u_header s) (u_footer s) (u_scale_doc s) (u_align s) (u_left s) (u_right s) (u_top s) (u_bottom s) (u_mheader s) (u_mfooter s) (u_first_page s) (u_scale s) (u_fit s) (u_fit_w s) (u_fit_h s) (u_center_h s) (u_center_v s) (u_print_grid s) (u_bw s) (u_draft s) (u_headings s) v (u_options s) (u_hf s).
Definition set_u_options (s : setup) (v : bool) : setup :=
  Build_setup (u_grid s) (u_rtl s) (u_selected s) (u_mode s) (u_top_left s) (u_zoom s) (u_freeze s) (u_top_cell s) (u_selection s) (u_tab s) (u_paper s) (u_down s) (u_portrait s) (u_header s) (u_footer s) (u_scale_doc s) (u_align s) (u_left s) (u_right s) (u_top s) (u_bottom s) (u_mheader s) (u_mfooter s) (u_first_page s) (u_scale s) (u_fit s) (u_fit_w s) (u_fit_h s) (u_center_h s) (u_center_v s) (u_print_grid s) (u_bw s) (u_draft s) (u_headings s) (u_setup s) v (u_hf s).
Definition set_u_hf (s : setup) (v : bool) : setup :=
  Build_setup (u_grid s) (u_rtl s) (u_selected s) (u_mode s) (u_top_left s) (u_zoom s) (u_freeze s) (u_top_cell s) (u_selection s) (u_tab s) (u_paper s) (u_down s) (u_portrait s) (u_header s) (u_footer s) (u_scale_doc s) (u_align s) (u_left s) (u_right s) (u_top s) (u_bottom s) (u_mheader s) (u_mfooter s) (u_first_page s) (u_scale s) (u_fit s) (u_fit_w s) (u_fit_h s) (u_center_h s) (u_center_v s) (u_print_grid s) (u_bw s) (u_draft s) (u_headings s) (u_setup s) (u_options s) v.

(** src/worksheet.rs:1757-1800 (Default) and 1941-1953 (new_chartsheet). *)
Definition setup_new (chartsheet : bool) : setup :=
  {| u_grid := true; u_rtl := false; u_selected := false; u_mode := PvNormal; u_top_left := []; u_zoom := 100;
     u_freeze := (0, 0); u_top_cell := (0, 0); u_selection := ([], []); u_tab := CDefault;
     u_paper := 0; u_down := true; u_portrait := negb chartsheet; u_header := []; u_footer := [];
     u_scale_doc := true; u_align := true;
     u_left := f_dec 7 1; u_right := f_dec 7 1; u_top := f_dec 75 2; u_bottom := f_dec 75 2;
     u_mheader := f_dec 3 1; u_mfooter := f_dec 3 1;
     u_first_page := 0; u_scale := 100; u_fit := false; u_fit_w := 1; u_fit_h := 1;
     u_center_h := false; u_center_v := false; u_print_grid := false; u_bw := false; u_draft := false; u_headings := false;
     u_setup := false; u_options := false; u_hf := false |}.

(** str::replace: every non-overlapping occurrence from the left. *)
Fixpoint replace_loop (fuel : nat) (old new s : str) : str :=
  match fuel with
  | O => s
  | S f => match strip_prefix old s with
           | Some r => new ++ replace_loop f old new r
           | None => match s with [] => [] | c :: r => c :: replace_loop f old new r end
           end
  end.
Definition replace (old new s : str) : str := replace_loop (S (length s)) old new s.
(** src/worksheet.rs:13270-13278, 13304-13312, 19419-19428, 19435-19444 (the same
    eight replacements in four places). *)
Definition hf_table : list (str * str) :=
  [(lit "&[Tab]", lit "&A"); (lit "&[Date]", lit "&D"); (lit "&[File]", lit "&F"); (lit "&[Page]", lit "&P");
   (lit "&[Path]", lit "&Z"); (lit "&[Time]", lit "&T"); (lit "&[Pages]", lit "&N"); (lit "&[Picture]", lit "&G")].
Definition hf_expand (s : str) : str := fold_left (fun t p => replace (fst p) (snd p) t) hf_table s.

(** src/color.rs:469-493 *)
Definition color_valid (c : Color) : bool :=
  match c with
  | CRGB n => negb (0xFFFFFF <? n)
  | CTheme color shade => negb (9 <? color) && negb (5 <? shade)
  | _ => true
  end.

Inductive setup_op :=
| UGrid (b : bool) | URtl (b : bool) | UView (v : page_view) | UZoom (n : N)
| UFreeze (row col : N) | UTopCell (row col : N) | USelect (fr fc lr lc : N) | UTopLeft (row col : N)
| UTab (c : Color)
| UPaper (n : N) | UOrder (down : bool) | ULandscape | UPortrait
| UHeader (s : str) | UFooter (s : str) | UScaleDoc (b : bool) | UAlign (b : bool)
| UMargins (left right top bottom header footer : f64)
| UFirstPage (n : N) | UScale (n : N) | UFit (w h : N)
| UCenterH (b : bool) | UCenterV (b : bool) | UPrintGrid (b : bool) | UBlackWhite (b : bool) | UDraft (b : bool)
| UHeadings (b : bool).

Definition changed (s : setup) : setup := set_u_setup s true.
Definition changed_options (s : setup) : setup := changed (set_u_options s true).
Definition changed_hf (s : setup) : setup := changed (set_u_hf s true).
Definition if_do (b : bool) (f : setup -> setup) (s : setup) : setup := if b then f s else s.
(** One line of set_margins (13583-13606). *)
Definition margin (x : f64) (set : setup -> f64 -> setup) (s : setup) : setup :=
  if fle (f_of_Z 0) x then changed (set s x) else s.

(** One call.  [None] is a panic; the boolean says whether an error is returned. *)
Definition setup_step (m : ovf) (s : setup) (o : setup_op) : option (setup * bool) :=
  let ok t := Some (t, false) in
  match o with
  | UGrid b => ok (set_u_grid s b)                                                     (* 13879-13883 *)
  | URtl b => ok (set_u_rtl s b)                                                       (* 12251-12254 *)
  | UView PvNormal => ok (set_u_mode s PvNormal)                                       (* 12744-12747 *)
  | UView v => ok (changed (set_u_mode s v))                                           (* 12754-12769 *)
  | UZoom n => ok (if (10 <=? n) && (n <=? 400) then set_u_zoom s n else s)            (* 12921-12929 *)
  | UFreeze r c =>                                                                     (* 12998-13010 *)
      if check_dimensions_only r c then ok (set_u_freeze s (r, c)) else Some (s, true)
  | UTopCell r c =>                                                                    (* 13064-13076 *)
      if check_dimensions_only r c then ok (set_u_top_cell s (r, c)) else Some (s, true)
  | USelect fr fc lr lc =>                                                             (* 9903-9940 *)
      if negb (check_dimensions_only fr fc) || negb (check_dimensions_only lr lc) then Some (s, true)
      else active <- row_col_to_cell m fr fc ;;
           range <- cell_range m (N.min fr lr) (N.min fc lc) (N.max fr lr) (N.max fc lc) ;;
           ok (set_u_selection s (active, range))
  | UTopLeft r c =>                                                                    (* 9990-10008 *)
      if negb (check_dimensions_only r c) then Some (s, true)
      else if (r =? 0) && (c =? 0) then ok s
      else cell <- row_col_to_cell m r c ;; ok (set_u_top_left s cell)
  | UTab c => ok (if color_valid c then set_u_tab s c else s)                          (* 12539-12546 *)
  | UPaper n => ok (changed (set_u_paper s n))                                         (* 12634-12638 *)
  | UOrder b => ok (if_do (negb b) changed (set_u_down s b))                           (* 12683-12690 *)
  | ULandscape => ok (changed (set_u_portrait s false))                                (* 12721-12725 *)
  | UPortrait => ok (changed (set_u_portrait s true))                                  (* 12733-12737 *)
  | UHeader h =>                                                                       (* 13268-13289 *)
      ok (if 255 <? N.of_nat (length (hf_expand h)) then s else changed_hf (set_u_header s h))
  | UFooter h =>                                                                       (* 13302-13323 *)
      ok (if 255 <? N.of_nat (length (hf_expand h)) then s else changed_hf (set_u_footer s h))
  | UScaleDoc b => ok (if_do (negb b) changed_hf (set_u_scale_doc s b))                (* 13498-13507 *)
  | UAlign b => ok (if_do (negb b) changed_hf (set_u_align s b))                       (* 13520-13528 *)
  | UMargins l r t b h f =>                                                            (* 13574-13609 *)
      ok (margin f set_u_mfooter (margin h set_u_mheader (margin b set_u_bottom (margin t set_u_top
         (margin r set_u_right (margin l set_u_left s))))))
  | UFirstPage n => ok (changed (set_u_first_page s n))                                (* 13649-13653 *)
  | UScale n =>                                                                        (* 13696-13708 *)
      ok (if (10 <=? n) && (n <=? 400) then changed (set_u_scale (set_u_fit s false) n) else s)
  | UFit w h =>                                                                        (* 13780-13790 *)
      ok (changed (set_u_fit (set_u_scale (set_u_fit_h (set_u_fit_w s w) h) 100) true))
  | UCenterH b => ok (if_do b changed_options (set_u_center_h s b))                    (* 13804-13812 *)
  | UCenterV b => ok (if_do b changed_options (set_u_center_v s b))                    (* 13826-13834 *)
  | UPrintGrid b => ok (if_do b changed_options (set_u_print_grid s b))                (* 13901-13909 *)
  | UBlackWhite b => ok (if_do b changed (set_u_bw s b))                               (* 13923-13930 *)
  | UDraft b => ok (if_do b changed (set_u_draft s b))                                 (* 13941-13948 *)
  | UHeadings b => ok (if_do b changed_options (set_u_headings s b))                   (* 13963-13971 *)
  end.
Fixpoint setup_run (m : ovf) (s : setup) (l : list setup_op) : option setup :=
  match l with [] => Some s | o :: r => p <- setup_step m s o ;; setup_run m (fst p) r end.

(** ** The writers *)
Definition yes (b : bool) (k : string) : list (str * str) := when b [(lit k, lit "1")].
Definition no (b : bool) (k : string) : list (str * str) := when (negb b) [(lit k, lit "0")].
Definition plain_tab (c : Color) : bool := match c with CDefault | CAutomatic => true | _ => false end.

(** The other inputs of <sheetPr>: filter_conditions is not empty, vba_codename,
    is_chartsheet, outline_symbols_above, outline_symbols_left. *)
Record pr_extra := { p_filtered : bool; p_codename : option str; p_chartsheet : bool; p_above : bool; p_left : bool }.
(** src/worksheet.rs:17584-17665 *)
Definition sheet_pr_xml (x : pr_extra) (s : setup) : list wx :=
  if negb (p_filtered x) && negb (u_fit s) && plain_tab (u_tab s) &&
     match p_codename x with None => true | _ => false end && negb (p_chartsheet x) && negb (p_above x) && negb (p_left x)
  then []
  else
    let attrs := match p_codename x with Some c => [(lit "codeName", c)] | None => [] end ++ yes (p_filtered x) "filterMode" in
    if u_fit s || p_above x || p_left x || negb (plain_tab (u_tab s))
    then [WElem (lit "sheetPr") attrs
            (when (u_fit s) [WEmpty (lit "pageSetUpPr") [(lit "fitToPage", lit "1")]] ++
             match u_tab s with CDefault => [] | c => [WEmpty (lit "tabColor") (color_attributes c)] end ++
             when (p_above x || p_left x)
               [WEmpty (lit "outlinePr") (no (negb (p_above x)) "summaryBelow" ++ no (negb (p_left x)) "summaryRight")])]
    else [WEmpty (lit "sheetPr") attrs].

(** src/worksheet.rs:20560-20572 *)
Definition panes_empty (s : setup) : bool := (fst (u_freeze s) =? 0) && (snd (u_freeze s) =? 0).
Definition panes_top_left (m : ovf) (s : setup) : option str :=
  if (fst (u_top_cell s) =? 0) && (snd (u_top_cell s) =? 0)
  then row_col_to_cell m (fst (u_freeze s)) (snd (u_freeze s))
  else row_col_to_cell m (fst (u_top_cell s)) (snd (u_top_cell s)).
(** [!s.is_empty()] *)
Definition given (s : str) : bool := match s with [] => false | _ => true end.
Definition given_attr (k : string) (v : str) : list (str * str) := when (given v) [(lit k, v)].
(** 17835-17851 *)
Definition selection_xml (position : string) (active range : str) : wx :=
  WEmpty (lit "selection") (given_attr "pane" (lit position) ++ given_attr "activeCell" active ++ given_attr "sqref" range).
(** 17814-17832 *)
Definition pane_xml (m : ovf) (s : setup) (active : string) : option wx :=
  tl <- panes_top_left m s ;;
  let '(row, col) := u_freeze s in
  Some (WEmpty (lit "pane") (when (0 <? col) [(lit "xSplit", dec col)] ++ when (0 <? row) [(lit "ySplit", dec row)] ++
        [(lit "topLeftCell", tl); (lit "activePane", lit active); (lit "state", lit "frozen")])).
(** 17782-17811 *)
Definition panes_xml (m : ovf) (s : setup) : option (list wx) :=
  if panes_empty s then Some []
  else let '(row, col) := u_freeze s in
  if (0 <? row) && (0 <? col) then
    p <- pane_xml m s "bottomRight" ;;
    a <- row_col_to_cell m 0 col ;;
    b <- row_col_to_cell m row 0 ;;
    Some [p; selection_xml "topRight" a a; selection_xml "bottomLeft" b b; selection_xml "bottomRight" [] []]
  else if 0 <? col then
    p <- pane_xml m s "topRight" ;; Some [p; selection_xml "topRight" [] []]
  else
    p <- pane_xml m s "bottomLeft" ;; Some [p; selection_xml "bottomLeft" [] []].
(** 17770-17779 *)
Definition selections_xml (s : setup) : list wx :=
  when (given (fst (u_selection s))) [selection_xml "" (fst (u_selection s)) (snd (u_selection s))].
(** 17710-17757 *)
Definition view_attrs (chartsheet : bool) (s : setup) : list (str * str) :=
  no (u_grid s) "showGridLines" ++ yes (u_rtl s) "rightToLeft" ++ yes (u_selected s) "tabSelected" ++
  match u_mode s with
  | PvLayout => [(lit "view", lit "pageLayout")]
  | PvBreaks => [(lit "view", lit "pageBreakPreview")]
  | PvNormal => []
  end ++
  given_attr "topLeftCell" (u_top_left s) ++
  when (negb (u_zoom s =? 100))
    ((lit "zoomScale", dec (u_zoom s)) ::
     match u_mode s with
     | PvLayout => [(lit "zoomScalePageLayoutView", dec (u_zoom s))]
     | PvBreaks => [(lit "zoomScaleSheetLayoutView", dec (u_zoom s))]
     | PvNormal => when (negb chartsheet) [(lit "zoomScaleNormal", dec (u_zoom s))]
     end) ++
  [(lit "workbookViewId", lit "0")].
(** 17700-17707, 17759-17767 *)
Definition sheet_views_xml (m : ovf) (chartsheet : bool) (s : setup) : option wx :=
  p <- panes_xml m s ;;
  Some (WElem (lit "sheetViews") []
    [if panes_empty s && negb (given (fst (u_selection s)))
     then WEmpty (lit "sheetView") (view_attrs chartsheet s)
     else WElem (lit "sheetView") (view_attrs chartsheet s) (p ++ selections_xml s)]).

(** 18212-18232 *)
Definition print_options_xml (s : setup) : wx :=
  WEmpty (lit "printOptions")
    (yes (u_center_h s) "horizontalCentered" ++ yes (u_center_v s) "verticalCentered" ++
     yes (u_headings s) "headings" ++ yes (u_print_grid s) "gridLines").
(** 18235-18246 *)
Definition page_margins_xml (num_text : f64 -> str) (s : setup) : wx :=
  WEmpty (lit "pageMargins")
    [(lit "left", num_text (u_left s)); (lit "right", num_text (u_right s)); (lit "top", num_text (u_top s));
     (lit "bottom", num_text (u_bottom s)); (lit "header", num_text (u_mheader s)); (lit "footer", num_text (u_mfooter s))].
(** 18249-18295 *)
Definition page_setup_xml (s : setup) : wx :=
  WEmpty (lit "pageSetup")
    (when (0 <? u_paper s) [(lit "paperSize", dec (u_paper s))] ++
     when (negb (u_scale s =? 100)) [(lit "scale", dec (u_scale s))] ++
     when (u_fit s) (when (negb (u_fit_w s =? 1)) [(lit "fitToWidth", dec (u_fit_w s))] ++
                     when (negb (u_fit_h s =? 1)) [(lit "fitToHeight", dec (u_fit_h s))]) ++
     when (negb (u_down s)) [(lit "pageOrder", lit "overThenDown")] ++
     [(lit "orientation", if u_portrait s then lit "portrait" else lit "landscape")] ++
     when (0 <? u_first_page s) [(lit "useFirstPageNumber", dec (u_first_page s))] ++
     yes (u_bw s) "blackAndWhite" ++ yes (u_draft s) "draft" ++
     [(lit "horizontalDpi", lit "200"); (lit "verticalDpi", lit "200")]).
(** 19387-19447 *)
Definition header_footer_xml (s : setup) : wx :=
  let attrs := no (u_scale_doc s) "scaleWithDoc" ++ no (u_align s) "alignWithMargins" in
  if negb (given (u_header s)) && negb (given (u_footer s)) then WEmpty (lit "headerFooter") attrs
  else WElem (lit "headerFooter") attrs
         (when (given (u_header s)) [WData (lit "oddHeader") (hf_expand (u_header s)) []] ++
          when (given (u_footer s)) [WData (lit "oddFooter") (hf_expand (u_footer s)) []]).
(** 17417-17433 and 17507-17523: the four elements as they are written. *)
Definition page_xml (num_text : f64 -> str) (s : setup) : list wx :=
  when (u_options s) [print_options_xml s] ++ [page_margins_xml num_text s] ++
  when (u_setup s) [page_setup_xml s] ++ when (u_hf s) [header_footer_xml s].
