(** Model of autofit (src/worksheet.rs:14315-14338, 16994-17117; src/utility.rs:1049-1089). *)
From Coq Require Import Permutation.
From Verif Require Import Base SMap F64 Fmt_Model Cells_Model Sheet_Model Geom_Model.

(** src/utility.rs:1058-1085: the match of [pixel_width], characters as code points. *)
Definition char_pixels (c : N) : N :=
  if existsb (N.eqb c) [32; 39] then 3
  else if existsb (N.eqb c) [44; 46; 58; 59; 73; 96; 105; 106; 108] then 4
  else if existsb (N.eqb c) [33; 40; 41; 45; 74; 91; 93; 102; 114; 116; 123; 125] then 5
  else if existsb (N.eqb c) [34; 47; 76; 92; 99; 115; 122] then 6
  else if existsb (N.eqb c) [35; 36; 42; 43; 48; 49; 50; 51; 52; 53; 54; 55; 56; 57; 60; 61; 62; 63; 69; 70; 83; 84; 89; 90; 94; 95; 97; 103; 107; 118; 120; 121; 124; 126] then 7
  else if existsb (N.eqb c) [66; 67; 75; 80; 82; 88; 98; 100; 101; 104; 110; 111; 112; 113; 117] then 8
  else if existsb (N.eqb c) [65; 68; 71; 72; 85; 86] then 9
  else if existsb (N.eqb c) [38; 78; 79; 81] then 10
  else if existsb (N.eqb c) [37; 119] then 11
  else if existsb (N.eqb c) [77; 109] then 12
  else if existsb (N.eqb c) [64; 87] then 13
  else 8.
(** src/worksheet.rs:1416. *)
Definition MAX_AUTOFIT_WIDTH_PIXELS : N := 1790.
(** src/utility.rs:1049-1089 pixel_width, with u16 arithmetic. *)
Fixpoint pixel_loop (m : ovf) (s : str) (length : N) : option N :=
  match s with [] => Some length | c :: s => obind (add16 m length (char_pixels c)) (pixel_loop m s) end.
Definition pixel_width (m : ovf) (s : str) : option N :=
  if 233 <? char_count s then Some MAX_AUTOFIT_WIDTH_PIXELS
  else obind (pixel_loop m s 0) (fun n => Some (N.min n MAX_AUTOFIT_WIDTH_PIXELS)).

(** Rust's [str::lines]: split after each line feed; a line feed and a carriage
    return before it are not part of the line. *)
Definition strip_cr (l : str) : str := match rev l with 13 :: r => rev r | _ => l end.
Fixpoint lines_loop (acc s : str) : list str :=
  match s with
  | [] => match acc with [] => [] | _ => [rev acc] end
  | c :: s => if c =? 10 then strip_cr (rev acc) :: lines_loop [] s else lines_loop (c :: acc) s
  end.
Definition lines (s : str) : list str := lines_loop [] s.

Section Fit.
  (** [f64::to_string] and the arithmetic mode. *)
  Variable num_text : f64 -> str.
  Variable m : ovf.

  (** src/worksheet.rs:17015-17026. *)
  Fixpoint widest_segment (l : list str) (mx : N) : option N :=
    match l with [] => Some mx | s :: l => obind (pixel_width m s) (fun n => widest_segment l (N.max mx n)) end.
  (** src/worksheet.rs:17009-17065; [len() as u16] keeps the low 16 bits. *)
  Definition content_pixels (k : cell) : option N :=
    match k with
    | CString s _ | CInline s | CRich _ s _ => widest_segment (lines s) 0
    | CNumber x => mul16 m 7 (char_count (num_text x) mod 65536)
    | CBool b => Some (if b then 31 else 36)
    | CFormula _ r | CArray _ r _ _ => if str_eqb r (lit "0") || match r with [] => true | _ => false end then Some 0 else pixel_width m r
    | CDateTime _ => Some 68
    | CBlank | CError _ => Some 0
    end.
  (** src/worksheet.rs:17067-17088. *)
  Definition cell_pixels (limit : N) (filtered : bool) (k : cell) : option N :=
    obind (content_pixels k) (fun p =>
    obind (if (0 <? p) && filtered then add16 m p 16 else Some p) (fun p =>
    obind (if 0 <? p then add16 m p 7 else Some p) (fun p => Some (N.min p limit)))).
  (** src/worksheet.rs:17090-17104. *)
  Definition note_width (c p : N) (acc : smap N) : smap N :=
    if 0 <? p then match get c acc with
                   | Some mx => if mx <? p then ins c p acc else acc
                   | None => ins c p acc end
    else acc.
  Definition in_filter (s : sheet) (r c : N) : bool := existsb (fun p => (fst (fst p) =? r) && (snd (fst p) =? c)) (filter_cells s).
  (** src/worksheet.rs:17005-17108. The loops over the numbers of rows and columns look each
      up in the table; here they run over the entries of the table in those ranges, which are
      the same in the same order. *)
  Fixpoint fit_cells (s : sheet) (limit r : N) (cs : list (N * (cell * N))) (acc : smap N) : option (smap N) :=
    match cs with
    | [] => Some acc
    | (c, (k, _)) :: cs =>
        if (first_col (cells s) <=? c) && (c <=? last_col (cells s)) then
          obind (cell_pixels limit (in_filter s (if constant_memory (cells s) then current_row (cells s) else r) c) k) (fun p =>
          fit_cells s limit r cs (note_width c p acc))
        else fit_cells s limit r cs acc
    end.
  Fixpoint fit_rows (s : sheet) (limit : N) (fr lr : N) (rows : table) (acc : smap N) : option (smap N) :=
    match rows with
    | [] => Some acc
    | (r, cs) :: rows =>
        if (fr <=? r) && (r <=? lr) then obind (fit_cells s limit r cs acc) (fit_rows s limit fr lr rows)
        else fit_rows s limit fr lr rows acc
    end.
  Definition max_widths (s : sheet) (limit : N) : option (smap N) :=
    let w := cells s in
    let '(fr, lr) := if constant_memory w then (current_row w, current_row w) else (first_row w, last_row w) in
    fit_rows s limit fr lr (data w) [].
  (** src/worksheet.rs:17110-17114. *)
  Definition set_widths (w : ws) (l : list (N * N)) : ws :=
    fold_left (fun w p => store_column_width w (fst p) (pixels_to_width (snd p)) true) l w.

  (** src/worksheet.rs:14315 autofit ([None]) and 14335 autofit_to_max_width. *)
  Definition fit_limit (given : option N) : N :=
    match given with None => MAX_AUTOFIT_WIDTH_PIXELS | Some x => N.min x MAX_AUTOFIT_WIDTH_PIXELS end.
  (** The widths are in a HashMap, visited in any order. [fits s given s']: the call on [s]
      can end in [s']. *)
  Definition fits (s : sheet) (given : option N) (s' : sheet) : Prop :=
    exists mw l, max_widths s (fit_limit given) = Some mw /\ Permutation l mw /\ s' = with_cells s (set_widths (cells s) l).
End Fit.

(** Histories: the calls of Sheet_Model and autofit. *)
Inductive aop := ASheet (o : sop) | AFit (given : option N).
Inductive arun (num_text : f64 -> str) (m : ovf) (lower : str -> str) : sheet -> list aop -> sheet -> Prop :=
| arun_nil s : arun num_text m lower s [] s
| arun_sheet s o s1 e rest s2 : sstep lower s o = Some (s1, e) -> arun num_text m lower s1 rest s2 -> arun num_text m lower s (ASheet o :: rest) s2
| arun_fit s given s1 rest s2 : fits num_text m s given s1 -> arun num_text m lower s1 rest s2 -> arun num_text m lower s (AFit given :: rest) s2.
