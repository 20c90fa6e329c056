(** The <mergeCells> element: src/worksheet.rs write_merge_cells. *)
From Verif Require Import Base Xml_Model Xml_Tree Ref_Model Sheet_Model.

(** src/worksheet.rs:20444-20446 to_range_string; [None]: the arithmetic of
    cell_range panics. *)
Definition range_string (m : ovf) (R : rng) : option str := cell_range m (r0 R) (c0 R) (r1 R) (c1 R).
Fixpoint all_some {A} (l : list (option A)) : option (list A) :=
  match l with
  | [] => Some []
  | None :: _ => None
  | Some x :: r => match all_some r with Some r => Some (x :: r) | None => None end
  end.
(** src/worksheet.rs:17881-17899; the caller (17398-17400) writes it when there is
    a merged range. *)
Definition merge_cells_xml (m : ovf) (R : list rng) : option (list wx) :=
  match R with
  | [] => Some []
  | _ =>
    match all_some (map (range_string m) R) with
    | None => None
    | Some refs =>
      Some [WElem (lit "mergeCells") [(lit "count", dec (N.of_nat (length R)))]
              (map (fun ref => WEmpty (lit "mergeCell") [(lit "ref", ref)]) refs)]
    end
  end.
