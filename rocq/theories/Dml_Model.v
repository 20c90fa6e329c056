(** Model of the DrawingML elements that text boxes (src/drawing.rs, src/shape.rs) and charts
    (src/chart.rs) share: colours, fills and lines.  The two files contain the same code twice; the
    places of both are cited.
    Enums without fields are numbered in the order of their declaration. *)
From Verif Require Import Base F64 Xml_Model Xml_Tree Fmt_Model Rich_Model CF_Model.
From Coq Require Import SpecFloat.

(** ** Colours *)
(** src/color.rs:365-464 chart_scheme: the theme's name for a colour and the parts of its luminance
    that are kept and added, in thousandths of a percent. *)
Definition scheme_names : list string := ["bg1"; "tx1"; "bg2"; "tx2"; "accent1"; "accent2"; "accent3"; "accent4"; "accent5"; "accent6"]%string.
Definition scheme_row (theme : N) : list (N * N) :=
  if theme =? 0 then [(0, 0); (95000, 0); (85000, 0); (75000, 0); (65000, 0); (50000, 0)]
  else if theme =? 1 then [(0, 0); (50000, 50000); (65000, 35000); (75000, 25000); (85000, 15000); (95000, 5000)]
  else if theme =? 2 then [(0, 0); (90000, 0); (75000, 0); (50000, 0); (25000, 0); (10000, 0)]
  else [(0, 0); (20000, 80000); (40000, 60000); (60000, 40000); (75000, 0); (50000, 0)].
Definition chart_scheme (theme shade : N) : option (str * N * N) :=
  match nth_error scheme_names (N.to_nat theme), nth_error (scheme_row theme) (N.to_nat shade) with
  | Some s, Some (m, o) => Some (lit s, m, o)
  | _, _ => None
  end.
(** src/drawing.rs:856-877, src/chart.rs:6123-6143. The setters keep transparencies to 100 at most. *)
Definition val_xml (tag : string) (n : N) : wx := WEmpty (lit tag) [(lit "val", dec n)].
Definition alpha_xml (transparency : N) : wx := val_xml "a:alpha" ((100 - transparency) * 1000).
(** src/drawing.rs:829-854, src/chart.rs:6095-6120 *)
Definition scheme_xml (s : str) (lum_mod lum_off transparency : N) : wx :=
  if (0 <? lum_mod) || (0 <? lum_off) || (0 <? transparency)
  then WElem (lit "a:schemeClr") [(lit "val", s)]
         (when (0 <? lum_mod) [val_xml "a:lumMod" lum_mod] ++ when (0 <? lum_off) [val_xml "a:lumOff" lum_off] ++ when (0 <? transparency) [alpha_xml transparency])
  else WEmpty (lit "a:schemeClr") [(lit "val", s)].
(** src/drawing.rs:797-826, src/chart.rs:6063-6092 write_color *)
Definition color_xml (c : Color) (transparency : N) : list wx :=
  match c with
  | CTheme theme shade => match chart_scheme theme shade with Some (s, m, o) => [scheme_xml s m o transparency] | None => [] end
  | CAutomatic => [WEmpty (lit "a:sysClr") [(lit "val", lit "window"); (lit "lastClr", lit "FFFFFF")]]
  | _ => [if 0 <? transparency then WElem (lit "a:srgbClr") [(lit "val", rgb_hex_value c)] [alpha_xml transparency]
          else WEmpty (lit "a:srgbClr") [(lit "val", rgb_hex_value c)]]
  end.
Definition is_default (c : Color) : bool := match c with CDefault => true | _ => false end.
(** src/color.rs:496-498 *)
Definition auto_or_default (c : Color) : bool := match c with CDefault | CAutomatic => true | _ => false end.

(** ** Fills *)
(** src/shape.rs:1431-1554, src/chart.rs:14319-14457 *)
Record solid := { so_color : Color; so_transparency : N }.
Inductive solid_op := SoColor (c : Color) | SoTransparency (n : N).
Definition solid_step (s : solid) (o : solid_op) : solid :=
  match o with
  | SoColor c => if color_valid c then {| so_color := c; so_transparency := so_transparency s |} else s
  | SoTransparency n => if n <=? 100 then {| so_color := so_color s; so_transparency := n |} else s
  end.
Definition make_solid (l : list solid_op) : solid := fold_left solid_step l {| so_color := CDefault; so_transparency := 0 |}.
(** src/shape.rs:1613-1718, src/chart.rs:14531-14694 *)
Record patt := { pf_back : Color; pf_fore : Color; pf_pattern : N }.
Inductive patt_op := PfPattern (n : N) | PfBack (c : Color) | PfFore (c : Color).
Definition patt_step (p : patt) (o : patt_op) : patt :=
  match o with
  | PfPattern n => {| pf_back := pf_back p; pf_fore := pf_fore p; pf_pattern := n |}
  | PfBack c => if color_valid c then {| pf_back := c; pf_fore := pf_fore p; pf_pattern := pf_pattern p |} else p
  | PfFore c => if color_valid c then {| pf_back := pf_back p; pf_fore := c; pf_pattern := pf_pattern p |} else p
  end.
Definition make_patt (l : list patt_op) : patt := fold_left patt_step l {| pf_back := CDefault; pf_fore := CDefault; pf_pattern := 0 |}.
(** src/shape.rs:1779-2074, src/chart.rs:16356-16591 and ChartGradientStop *)
Record grad := { gr_type : N; gr_stops : list (Color * N); gr_angle : N }.      (* 0 linear, 1 radial, 2 rectangular, 3 path *)
Inductive grad_op := GrType (n : N) | GrStops (l : list (Color * N)) | GrAngle (n : N).
Definition stop_valid (s : Color * N) : bool := color_valid (fst s) && (snd s <=? 100).
Definition grad_step (g : grad) (o : grad_op) : grad :=
  match o with
  | GrType n => {| gr_type := n; gr_stops := gr_stops g; gr_angle := gr_angle g |}
  | GrStops l => let v := filter stop_valid l in
      if (2 <=? N.of_nat (length v)) && (N.of_nat (length v) <=? 10) then {| gr_type := gr_type g; gr_stops := v; gr_angle := gr_angle g |} else g
  | GrAngle n => if n <? 360 then {| gr_type := gr_type g; gr_stops := gr_stops g; gr_angle := n |} else g
  end.
Definition make_grad (l : list grad_op) : grad := fold_left grad_step l {| gr_type := 0; gr_stops := []; gr_angle := 90 |}.

(** src/drawing.rs:651-658, src/chart.rs:5917-5924 *)
Definition solid_xml (c : Color) (transparency : N) : wx := WElem (lit "a:solidFill") [] (color_xml c transparency).
(** src/shape.rs:2618-2671 and the same table in src/chart.rs *)
Definition pattern_names : list string :=
  ["pct5"; "pct10"; "pct20"; "pct25"; "pct30"; "pct40"; "pct50"; "pct60"; "pct70"; "pct75"; "pct80"; "pct90"; "ltDnDiag"; "ltUpDiag"; "dkDnDiag"; "dkUpDiag"; "wdDnDiag";
   "wdUpDiag"; "ltVert"; "ltHorz"; "narVert"; "narHorz"; "dkVert"; "dkHorz"; "dashDnDiag"; "dashUpDiag"; "dashHorz"; "dashVert"; "smConfetti"; "lgConfetti"; "zigZag";
   "wave"; "diagBrick"; "horzBrick"; "weave"; "plaid"; "divot"; "dotGrid"; "dotDmnd"; "shingle"; "trellis"; "sphere"; "smGrid"; "lgGrid"; "smCheck"; "lgCheck"; "openDmnd"; "solidDmnd"]%string.
Definition pattern_name (n : N) : str := lit (nth (N.to_nat n) pattern_names EmptyString).
(** src/drawing.rs:661-688, src/chart.rs:5927-5954 *)
Definition patt_xml (p : patt) : wx :=
  WElem (lit "a:pattFill") [(lit "prst", pattern_name (pf_pattern p))]
    (when (negb (is_default (pf_fore p))) [WElem (lit "a:fgClr") [] (color_xml (pf_fore p) 0)] ++
     (if negb (is_default (pf_back p)) then [WElem (lit "a:bgClr") [] (color_xml (pf_back p) 0)]
      else when (negb (is_default (pf_fore p))) [WElem (lit "a:bgClr") [] (color_xml (CNamed 14) 0)])).
(** src/drawing.rs:721-794, src/chart.rs:5987-6060 *)
Definition stop_xml (s : Color * N) : wx := WElem (lit "a:gs") [(lit "pos", dec (1000 * snd s))] (color_xml (fst s) 0).
Definition angle_xml (angle : N) : wx := WEmpty (lit "a:lin") [(lit "ang", dec (60000 * angle)); (lit "scaled", lit "0")].
Definition path_xml (ty : N) : list wx :=
  [WElem (lit "a:path") (if ty =? 1 then [(lit "path", lit "circle")] else if ty =? 2 then [(lit "path", lit "rect")] else if ty =? 3 then [(lit "path", lit "shape")] else [])
     [WEmpty (lit "a:fillToRect") (if ty =? 3 then [(lit "l", lit "50000"); (lit "t", lit "50000"); (lit "r", lit "50000"); (lit "b", lit "50000")]
                                   else [(lit "l", lit "100000"); (lit "t", lit "100000")])];
   WEmpty (lit "a:tileRect") (when ((ty =? 1) || (ty =? 2)) [(lit "r", lit "-100000"); (lit "b", lit "-100000")])].
(** src/drawing.rs:691-718, src/chart.rs:5957-5984 *)
Definition grad_xml (g : grad) : wx :=
  WElem (lit "a:gradFill") (when (negb (gr_type g =? 0)) [(lit "flip", lit "none"); (lit "rotWithShape", lit "1")])
    (WElem (lit "a:gsLst") [] (map stop_xml (gr_stops g)) :: (if gr_type g =? 0 then [angle_xml (gr_angle g)] else path_xml (gr_type g))).

(** ** Lines *)
(** src/shape.rs:1091-1375 (there the width is 0.75 points at first), src/chart.rs:13899-14178 (there it has none) *)
Record dline := { ln_color : Color; ln_width : option f64; ln_transparency : N; ln_dash : N; ln_hidden : bool }.
Inductive line_op := LnColor (c : Color) | LnWidth (w : f64) | LnDash (n : N) | LnTransparency (n : N) | LnHidden (b : bool).
Definition line_step (l : dline) (o : line_op) : dline :=
  let mk c w t d h := {| ln_color := c; ln_width := w; ln_transparency := t; ln_dash := d; ln_hidden := h |} in
  match o with
  | LnColor c => if color_valid c then mk c (ln_width l) (ln_transparency l) (ln_dash l) (ln_hidden l) else l
  | LnWidth w => if fle w (f_of_N 1584) then mk (ln_color l) (Some w) (ln_transparency l) (ln_dash l) (ln_hidden l) else l
  | LnDash n => mk (ln_color l) (ln_width l) (ln_transparency l) n (ln_hidden l)
  | LnTransparency n => if n <=? 100 then mk (ln_color l) (ln_width l) n (ln_dash l) (ln_hidden l) else l
  | LnHidden b => mk (ln_color l) (ln_width l) (ln_transparency l) (ln_dash l) b
  end.
Definition make_line (width : option f64) (l : list line_op) : dline :=
  fold_left line_step l {| ln_color := CDefault; ln_width := width; ln_transparency := 0; ln_dash := 0; ln_hidden := false |}.
(** f64::floor for the numbers met here, and [x.ceil() as u32]. *)
Definition floor_Z (x : f64) : Z :=
  match x with
  | S754_finite s m e => let z := if s then Zneg m else Zpos m in if (0 <=? e)%Z then (z * 2 ^ e)%Z else (z / 2 ^ (- e))%Z
  | _ => 0%Z
  end.
Definition ceil_u32 (x : f64) : N :=
  match x with
  | S754_finite s m e => let z := if s then Zneg m else Zpos m in
      N.min (Z.to_N (if (0 <=? e)%Z then z * 2 ^ e else - ((- z) / 2 ^ (- e)))%Z) 4294967295
  | S754_infinity false => 4294967295
  | _ => 0
  end.
(** src/drawing.rs:582-585, src/chart.rs:5873-5876: to the nearest quarter of a point, in EMUs. The infinite
    floor of an infinite width is 0 here and in the file. *)
Definition line_emus (w : f64) : N :=
  let q := fdiv (f_of_Z (floor_Z (fmul (fadd w (fdiv (f_of_N 1) (f_of_N 8))) (f_of_N 4)))) (f_of_N 4) in
  ceil_u32 (fmul (f_of_N 12700) q).
(** src/shape.rs:2359-2372 and the same table in src/chart.rs *)
Definition dash_names : list string := ["solid"; "sysDot"; "sysDash"; "dash"; "dashDot"; "lgDash"; "lgDashDot"; "lgDashDotDot"]%string.
Definition dash_name (n : N) : str := lit (nth (N.to_nat n) dash_names EmptyString).
Definition dash_xml (n : N) : list wx := when (negb (n =? 0)) [WEmpty (lit "a:prstDash") [(lit "val", dash_name n)]].

(** ** Formats *)
(** src/shape.rs:702-1036, 3321-3354; src/chart.rs:13339-13816 *)
Record dformat := { df_no_fill : bool; df_no_line : bool; df_line : option dline; df_solid : option solid; df_patt : option patt; df_grad : option grad }.
Definition format_new : dformat := {| df_no_fill := false; df_no_line := false; df_line := None; df_solid := None; df_patt := None; df_grad := None |}.
Inductive format_op := FoLine (l : list line_op) | FoNoLine | FoSolid (l : list solid_op) | FoNoFill | FoPattern (l : list patt_op) | FoGradient (l : list grad_op).
Definition format_step (width : option f64) (f : dformat) (o : format_op) : dformat :=
  let mk nf nl l s p g := {| df_no_fill := nf; df_no_line := nl; df_line := l; df_solid := s; df_patt := p; df_grad := g |} in
  let '(nf, nl, l, s, p, g) := (df_no_fill f, df_no_line f, df_line f, df_solid f, df_patt f, df_grad f) in
  match o with
  | FoLine c => mk nf nl (Some (make_line width c)) s p g
  | FoNoLine => mk nf true l s p g
  | FoSolid c => mk nf nl l (Some (make_solid c)) p g
  | FoNoFill => mk true nl l s p g
  | FoPattern c => mk nf nl l s (Some (make_patt c)) g
  | FoGradient c => mk nf nl l s p (Some (make_grad c))
  end.
Definition make_format (width : option f64) (l : list format_op) : dformat := fold_left (format_step width) l format_new.
(** src/drawing.rs:548-558, src/chart.rs:5844-5855 *)
Definition fill_xml (f : dformat) : option wx :=
  if df_no_fill f then Some (WEmpty (lit "a:noFill") [])
  else match df_solid f with
  | Some s => Some (solid_xml (so_color s) (so_transparency s))
  | None => match df_patt f with
            | Some p => Some (patt_xml p)
            | None => match df_grad f with Some g => Some (grad_xml g) | None => None end
            end
  end.
