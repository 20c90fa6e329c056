(** What the DrawingML elements of fills and lines say (ECMA-376 part 1, 20.1.2, 20.1.8), and what was asked for. *)
From Verif Require Import Base F64 Xml_Spec Xml_Read Fmt_Model SheetXml_Spec Doc_Spec CF_Spec Note_Spec Dml_Model.
From Verif Require Color_Spec.

(** ** Colours *)
(** A colour of the theme is so many percent lighter (darker if negative), or a shade of it. *)
Inductive dcolor := DRgb (n : N) | DTheme (theme : N) (percent : Z) | DShade (theme : N) (permille : N) | DWindow.
(** The names of the theme's colours, in the order in which cells number them. *)
Definition theme_colors : list (string * N) :=
  [("lt1", 0); ("bg1", 0); ("dk1", 1); ("tx1", 1); ("lt2", 2); ("bg2", 2); ("dk2", 3); ("tx2", 3);
   ("accent1", 4); ("accent2", 5); ("accent3", 6); ("accent4", 7); ("accent5", 8); ("accent6", 9)]%string.
Definition theme_of (s : str) : option N := match find (fun p => str_eqb s (lit (fst p))) theme_colors with Some p => Some (snd p) | None => None end.
Definition val_of (k : string) (l : list node) : option (option N) :=       (* the number of an optional element *)
  match kid k l with Some n => bind (attr "val" (attrs_of n)) (fun s => bind (number_of s) (fun v => Some (Some v))) | None => Some None end.
Definition opacity (l : list node) : option N := bind (val_of "a:alpha" l) (fun a => Some (match a with Some v => v | None => 100000 end)).
(** Keeping m and adding o (thousandths of a percent) of the luminance: lighter by o if nothing is lost, darker if nothing is added. *)
Definition lighter (m o : option N) : option Z :=
  match m, o with
  | None, None => Some 0%Z
  | Some m, None => if m <=? 100000 then Some (- (Z.of_N (100000 - m) / 1000))%Z else None
  | Some m, Some o => if m + o =? 100000 then Some (Z.of_N o / 1000)%Z else None
  | None, Some _ => None
  end.
Definition read_color (n : node) : option (dcolor * N) :=
  let l := attrs_of n in
  if is_elem "a:srgbClr" n then bind (attr "val" l) (fun s => bind (rgb_of (lit "FF" ++ s)) (fun c => bind (opacity (kids_of n)) (fun a => Some (DRgb c, a))))
  else if is_elem "a:schemeClr" n then
    bind (attr "val" l) (fun s => bind (theme_of s) (fun t => bind (opacity (kids_of n)) (fun a =>
    bind (val_of "a:shade" (kids_of n)) (fun sh =>
    match sh with
    | Some v => Some (DShade t (v / 1000), a)
    | None => bind (val_of "a:lumMod" (kids_of n)) (fun m => bind (val_of "a:lumOff" (kids_of n)) (fun o => bind (lighter m o) (fun p => Some (DTheme t p, a))))
    end))))
  else if is_elem "a:sysClr" n then bind (attr "val" l) (fun s => if str_eqb s (lit "window") then Some (DWindow, 100000) else None)
  else None.
(** An element with exactly one colour in it. *)
Definition color_in (n : node) : option (dcolor * N) := match kids_of n with [k] => read_color k | _ => None end.
Definition color_at (k : string) (l : list node) : option (option dcolor) :=
  match kid k l with Some n => bind (color_in n) (fun c => Some (Some (fst c))) | None => Some None end.

(** ** Fills *)
Inductive gradient := Linear (degrees : N) | Radial | Rectangular | FromPath.
Inductive fill := NoFill | Solid (c : dcolor) (opaque : N) | Pattern (name : str) (fore back : option dcolor) | Gradient (kind : gradient) (stops : list (dcolor * N)).
Definition read_stop (n : node) : option (dcolor * N) :=
  if is_elem "a:gs" n then bind (attr "pos" (attrs_of n)) (fun p => bind (number_of p) (fun p => bind (color_in n) (fun c => if p mod 1000 =? 0 then Some (fst c, p / 1000) else None))) else None.
Definition read_kind (l : list node) : option gradient :=
  match kid "a:lin" l with
  | Some n => bind (attr "ang" (attrs_of n)) (fun a => bind (number_of a) (fun a => if a mod 60000 =? 0 then Some (Linear (a / 60000)) else None))
  | None => bind (kid "a:path" l) (fun n => bind (attr "path" (attrs_of n)) (fun p =>
      if str_eqb p (lit "circle") then Some Radial else if str_eqb p (lit "rect") then Some Rectangular else if str_eqb p (lit "shape") then Some FromPath else None))
  end.
(** The fill among the children of an element, if there is one. *)
Definition fill_names : list string := ["a:noFill"; "a:solidFill"; "a:pattFill"; "a:gradFill"]%string.
Definition is_fill (n : node) : bool := existsb (fun k => is_elem k n) fill_names.
Definition read_fill (n : node) : option fill :=
  if is_elem "a:noFill" n then Some NoFill
  else if is_elem "a:solidFill" n then bind (color_in n) (fun c => Some (Solid (fst c) (snd c)))
  else if is_elem "a:pattFill" n then
    bind (attr "prst" (attrs_of n)) (fun s => bind (color_at "a:fgClr" (kids_of n)) (fun f => bind (color_at "a:bgClr" (kids_of n)) (fun b => Some (Pattern s f b))))
  else if is_elem "a:gradFill" n then
    bind (kid "a:gsLst" (kids_of n)) (fun g => bind (read_all read_stop (kids_of g)) (fun l => bind (read_kind (kids_of n)) (fun k => Some (Gradient k l))))
  else None.
Definition fill_of (l : list node) : option (option fill) :=
  match filter is_fill l with [] => Some None | [n] => bind (read_fill n) (fun f => Some (Some f)) | _ => None end.

(** ** Lines *)
Record line := { li_width : option N; li_fill : option fill; li_dash : str }.
Definition read_line (n : node) : option line :=
  bind (match attr "w" (attrs_of n) with Some w => bind (number_of w) (fun w => Some (Some w)) | None => Some None end) (fun w => bind (fill_of (kids_of n)) (fun f =>
  bind (match kid "a:prstDash" (kids_of n) with Some d => attr "val" (attrs_of d) | None => Some (lit "solid") end) (fun d => Some {| li_width := w; li_fill := f; li_dash := d |}))).

(** ** What was asked for *)
Definition seen_color (c : Color) : dcolor := match c with CTheme t s => DTheme t (Color_Spec.shade_percent t s) | CAutomatic => DWindow | c => DRgb (rgb c) end.
(** The system's window colour is always opaque. *)
Definition seen_opacity (c : Color) (transparency : N) : N := match c with CAutomatic => 100000 | _ => (100 - transparency) * 1000 end.
Definition solid_color := last_of (fun o => match o with SoColor c => in_range c | _ => None end) CDefault.
Definition solid_transparency := last_of (fun o => match o with SoTransparency n => if n <=? 100 then Some n else None | _ => None end) 0.
Definition patt_pattern := last_of (fun o => match o with PfPattern n => Some n | _ => None end) 0.
Definition patt_back := last_of (fun o => match o with PfBack c => in_range c | _ => None end) CDefault.
Definition patt_fore := last_of (fun o => match o with PfFore c => in_range c | _ => None end) CDefault.
(** The patterns of ECMA-376 (20.1.10.33), in the order of the library's list. *)
Definition patterns : list string :=
  ["pct5"; "pct10"; "pct20"; "pct25"; "pct30"; "pct40"; "pct50"; "pct60"; "pct70"; "pct75"; "pct80"; "pct90"; "ltDnDiag"; "ltUpDiag"; "dkDnDiag"; "dkUpDiag"; "wdDnDiag";
   "wdUpDiag"; "ltVert"; "ltHorz"; "narVert"; "narHorz"; "dkVert"; "dkHorz"; "dashDnDiag"; "dashUpDiag"; "dashHorz"; "dashVert"; "smConfetti"; "lgConfetti"; "zigZag";
   "wave"; "diagBrick"; "horzBrick"; "weave"; "plaid"; "divot"; "dotGrid"; "dotDmnd"; "shingle"; "trellis"; "sphere"; "smGrid"; "lgGrid"; "smCheck"; "lgCheck"; "openDmnd"; "solidDmnd"]%string.
Definition dashes : list string := ["solid"; "sysDot"; "sysDash"; "dash"; "dashDot"; "lgDash"; "lgDashDot"; "lgDashDotDot"]%string.
Definition word_at (l : list string) (n : N) : str := lit (nth (N.to_nat n) l EmptyString).
Definition opt_color (c : Color) : option dcolor := match c with CDefault => None | c => Some (seen_color c) end.
(** A foreground without a background is on white. *)
Definition back_color (fore back : Color) : option dcolor :=
  match back, fore with CDefault, CDefault => None | CDefault, _ => Some (DRgb 16777215) | b, _ => Some (seen_color b) end.
Definition grad_type := last_of (fun o => match o with GrType n => Some n | _ => None end) 0.
Definition grad_angle := last_of (fun o => match o with GrAngle n => if n <? 360 then Some n else None | _ => None end) 90.
Definition good_stop (s : Color * N) : bool := match in_range (fst s) with Some _ => snd s <=? 100 | None => false end.
Definition grad_stops := last_of (fun o => match o with
  | GrStops l => let v := filter good_stop l in if (2 <=? N.of_nat (length v)) && (N.of_nat (length v) <=? 10) then Some v else None | _ => None end) [].
Definition kind_for (l : list grad_op) : gradient := match grad_type l with 0 => Linear (grad_angle l) | 1 => Radial | 2 => Rectangular | _ => FromPath end.

(** With several fills: none at all, then a solid one, then a pattern, then a gradient. *)
Definition the_solid := last_of (fun o => match o with FoSolid l => Some (Some l) | _ => None end) None.
Definition the_pattern := last_of (fun o => match o with FoPattern l => Some (Some l) | _ => None end) None.
Definition the_gradient := last_of (fun o => match o with FoGradient l => Some (Some l) | _ => None end) None.
Definition the_line := last_of (fun o => match o with FoLine l => Some (Some l) | _ => None end) None.
Definition no_fill (l : list format_op) : bool := existsb (fun o => match o with FoNoFill => true | _ => false end) l.
Definition no_line (l : list format_op) : bool := existsb (fun o => match o with FoNoLine => true | _ => false end) l.
Definition wanted_fill (l : list format_op) : option fill :=
  if no_fill l then Some NoFill
  else match the_solid l with
  | Some s => Some (Solid (seen_color (solid_color s)) (seen_opacity (solid_color s) (solid_transparency s)))
  | None => match the_pattern l with
    | Some p => Some (Pattern (word_at patterns (patt_pattern p)) (opt_color (patt_fore p)) (back_color (patt_fore p) (patt_back p)))
    | None => match the_gradient l with
      | Some g => Some (Gradient (kind_for g) (map (fun s => (seen_color (fst s), snd s)) (grad_stops g)))
      | None => None
      end end end.
Definition wanted_color := last_of (fun o => match o with LnColor c => in_range c | _ => None end) CDefault.
Definition wanted_width (first : option f64) := last_of (fun o => match o with LnWidth w => if fle w (f_of_N 1584) then Some (Some w) else None | _ => None end) first.
Definition wanted_dash := last_of (fun o => match o with LnDash n => Some n | _ => None end) 0.
Definition wanted_transparency := last_of (fun o => match o with LnTransparency n => if n <=? 100 then Some n else None | _ => None end) 0.
Definition wanted_hidden := last_of (fun o => match o with LnHidden b => Some b | _ => None end) false.

(** Names exist: colours, patterns, dashes and kinds of gradients come from the library's lists. *)
Definition known_color (c : Color) : Prop := match c with CNamed n => n < 16 | _ => True end.
Definition line_known (o : line_op) : Prop := match o with LnColor c => known_color c | LnDash n => n < 8 | _ => True end.
Definition format_known (o : format_op) : Prop :=
  match o with
  | FoLine l => Forall line_known l
  | FoSolid l => Forall (fun o => match o with SoColor c => known_color c | _ => True end) l
  | FoPattern l => Forall (fun o => match o with PfPattern n => n < 48 | PfBack c | PfFore c => known_color c end) l
  | FoGradient l => Forall (fun o => match o with GrType n => n < 4 | GrStops s => Forall (fun s => known_color (fst s)) s | _ => True end) l
  | _ => True
  end.
