(** Model of the text of the [<autoFilter>] element (src/worksheet.rs 18298-18392,
    called at 17393-17395), over the filter state of Filter_Model. *)
From Verif Require Import Base SMap Ref_Model Xml_Model Xml_Tree Cells_Model Filter_Model.

(** src/worksheet.rs 18355-18359 write_filter *)
Definition filter_xml (v : str) : wx := WEmpty (lit "filter") [(lit "val", v)].
(** src/worksheet.rs 18382-18392 write_custom_filter *)
Definition custom_filter_xml (f : option str * str) : wx :=
  WEmpty (lit "customFilter") (match fst f with Some o => [(lit "operator", o)] | None => [] end ++ [(lit "val", snd f)]).
(** src/worksheet.rs 18333-18352 write_list_filters, 18362-18379 write_custom_filters *)
Definition filter_el_xml (e : filter_el) : wx :=
  match e with
  | EFilters blank vals =>
      let attributes := if blank then [(lit "blank", lit "1")] else [] in
      match vals with [] => WEmpty (lit "filters") attributes | _ => WElem (lit "filters") attributes (map filter_xml vals) end
  | ECustom cj fs => WElem (lit "customFilters") (if cj then [(lit "and", lit "1")] else []) (map custom_filter_xml fs)
  end.
(** src/worksheet.rs 18318-18330 write_filter_column *)
Definition filter_column_xml (p : N * filter_el) : wx := WElem (lit "filterColumn") [(lit "colId", dec (fst p))] [filter_el_xml (snd p)].
(** src/worksheet.rs 18298-18315 write_auto_filter; [autofilter_area] is the text of
    the range (8441, 8466; CellRange::to_range_string 20443-20445).  The outer
    [None] is a panic, the inner one is no element. *)
Definition auto_filter_xml (m : ovf) (s : fsheet) : option (option wx) :=
  e <- write_auto_filter m s ;;
  match e with
  | None => Some None
  | Some ((fr, fc, lr, lc), cols) =>
      ref <- cell_range m fr fc lr lc ;;
      let attributes := [(lit "ref", ref)] in
      Some (Some (match cols with [] => WEmpty (lit "autoFilter") attributes
                  | _ => WElem (lit "autoFilter") attributes (map filter_column_xml cols) end))
  end.
