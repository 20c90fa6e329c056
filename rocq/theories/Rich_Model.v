(** Model of rich strings: src/worksheet.rs:15443-15501 get_rich_string, the font
    element of src/styles.rs:160-329 and the colour attributes of src/color.rs. *)
From Verif Require Import Base Xml_Model Xml_Tree Fmt_Model.

(** [format!("{n:06X}")]: upper-case hexadecimal, at least six digits. *)
Fixpoint hex_loop (fuel : nat) (n : N) (acc : str) : str :=
  match fuel with O => acc | S f => if n =? 0 then acc else hex_loop f (n / 16) (hex_upper (n mod 16) :: acc) end.
Definition hex6 (n : N) : str :=
  let d := hex_loop (S (N.size_nat n)) n [] in repeat 48 (6 - length d)%nat ++ d.

(** src/color.rs:210-234; named colours in declaration order (139-206). *)
Definition named_hex : list str :=
  map lit ["000000"; "0000FF"; "800000"; "00FFFF"; "808080"; "008000"; "00FF00"; "FF00FF"; "000080"; "FF6600";
           "FFC0CB"; "800080"; "FF0000"; "C0C0C0"; "FFFFFF"; "FFFF00"]%string.
Definition rgb_hex_value (c : Color) : str :=
  match c with
  | CRGB n => hex6 n
  | CNamed n => nth (N.to_nat n) named_hex (lit "000000")
  | _ => lit "000000"
  end.
(** src/color.rs:249-251 *)
Definition argb_hex_value (c : Color) : str := lit "FF" ++ rgb_hex_value c.
(** src/color.rs:257-356: the tint table; the 0 shade (and any above 5) has none. *)
Definition tint (theme shade : N) : option str :=
  let row := if theme =? 0 then ["-4.9989318521683403E-2"; "-0.14999847407452621"; "-0.249977111117893"; "-0.34998626667073579"; "-0.499984740745262"]%string
             else if theme =? 1 then ["0.499984740745262"; "0.34998626667073579"; "0.249977111117893"; "0.14999847407452621"; "4.9989318521683403E-2"]%string
             else if theme =? 2 then ["-9.9978637043366805E-2"; "-0.249977111117893"; "-0.499984740745262"; "-0.749992370372631"; "-0.89999084444715716"]%string
             else ["0.79998168889431442"; "0.59999389629810485"; "0.39997558519241921"; "-0.249977111117893"; "-0.499984740745262"]%string in
  if shade =? 0 then None else option_map lit (nth_error row (N.to_nat (shade - 1))).
(** src/color.rs:255-361 *)
Definition color_attributes (c : Color) : list (str * str) :=
  match c with
  | CTheme theme shade => (lit "theme", dec theme) :: match tint theme shade with Some t => [(lit "tint", t)] | None => [] end
  | _ => [(lit "rgb", argb_hex_value c)]
  end.

(** src/styles.rs:227-245 *)
Definition font_color_xml (c : Color) (dxf : bool) : list wx :=
  match c with
  | CAutomatic => []
  | CDefault => if dxf then [] else [WEmpty (lit "color") [(lit "theme", lit "1")]]
  | _ => [WEmpty (lit "color") (color_attributes c)]
  end.
(** src/styles.rs:283-300 *)
Definition underline_xml (u : N) : wx :=
  WEmpty (lit "u") (if u =? 2 then [(lit "val", lit "double")]
                    else if u =? 3 then [(lit "val", lit "singleAccounting")]
                    else if u =? 4 then [(lit "val", lit "doubleAccounting")] else []).
(** src/styles.rs:315-329 *)
Definition vert_align_xml (s : N) : wx :=
  WEmpty (lit "vertAlign") (if s =? 1 then [(lit "val", lit "superscript")]
                            else if s =? 2 then [(lit "val", lit "subscript")] else []).
Definition when {A} (b : bool) (l : list A) : list A := if b then l else [].
(** src/styles.rs:160-217 write_font; 219-280 for the small elements. *)
Definition font_xml (rich dxf : bool) (f : Font) : wx :=
  WElem (if rich then lit "rPr" else lit "font") []
    (when (bold f) [WEmpty (lit "b") []] ++
     when (italic f) [WEmpty (lit "i") []] ++
     when (strikethrough f) [WEmpty (lit "strike") []] ++
     when (negb (underline f =? 0)) [underline_xml (underline f)] ++
     when (negb (script f =? 0)) [vert_align_xml (script f)] ++
     when (negb dxf) [WEmpty (lit "sz") [(lit "val", font_size f)]] ++
     font_color_xml (font_color f) dxf ++
     when (negb dxf)
       ([WEmpty (if rich then lit "rFont" else lit "name") [(lit "val", font_name f)]] ++
        when (0 <? family f) [WEmpty (lit "family") [(lit "val", dec (family f))]] ++
        when (0 <? charset f) [WEmpty (lit "charset") [(lit "val", dec (charset f))]] ++
        match scheme f with [] => [] | s => [WEmpty (lit "scheme") [(lit "val", s)]] end)).

(** src/worksheet.rs:15477-15495: one run. *)
Definition ws_edges (s : str) : bool :=
  match s with [] => false | c :: _ => is_ws_edge c end || match rev s with [] => false | c :: _ => is_ws_edge c end.
Definition run_xml (first : bool) (seg : Format * str) : wx :=
  let t := WData (lit "t") (snd seg) (if ws_edges (snd seg) then [(lit "xml:space", lit "preserve")] else []) in
  if format_eqb (fst seg) format_default && first then WElem (lit "r") [] [t]
  else WElem (lit "r") [] [font_xml true false (font (fst seg)); t].
Fixpoint runs_xml (first : bool) (segs : list (Format * str)) : list wx :=
  match segs with [] => [] | s :: r => run_xml first s :: runs_xml false r end.

(** src/worksheet.rs:15443-15501: the mark-up and the plain text; [None] is the
    ParameterError for no segments or an empty segment. *)
Definition get_rich_string (segs : list (Format * str)) : option (str * str) :=
  match segs with
  | [] => None
  | _ => if existsb (fun s => match snd s with [] => true | _ => false end) segs then None
         else Some (flat_map write_wx (runs_xml true segs), flat_map (fun s => snd s) segs)
  end.
