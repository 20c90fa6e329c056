(** Colours in the file (ECMA-376 part 1, 18.8.19): a colour of the theme with a tint, or
    an opaque RGB value. *)
From Verif Require Import Base Xml_Spec Xml_Read Ref_Spec Fmt_Model SheetXml_Spec CF_Spec.

Inductive rcolor := RRgb (n : N) | RTheme (theme : N) (percent : Z).
(** A decimal number, sign, digits, fraction and optionally E-2, in whole percents (to the nearest). *)
Definition is_digit (c : char) : bool := (48 <=? c) && (c <=? 57).
Definition read_percent (s : str) : option Z :=
  let '(neg, s) := match s with 45 :: r => (true, r) | _ => (false, s) end in
  let '(whole, rest) := span is_digit s in
  match rest with
  | 46 :: rest =>
      let '(frac, tail) := span is_digit rest in
      let digits := Z.of_N (digits_value 0 (whole ++ frac)) in
      let scale := (10 ^ Z.of_nat (length frac))%Z in
      let value := if str_eqb tail [] then Some (digits * 100, scale)%Z
                   else if str_eqb tail (lit "E-2") then Some (digits, scale) else None in
      match value with
      | Some (a, b) => let p := ((2 * a + b) / (2 * b))%Z in Some (if neg then (- p)%Z else p)
      | None => None
      end
  | _ => None
  end.
Definition read_rcolor (l : list (str * str)) : option rcolor :=
  match attr "theme" l with
  | Some t => bind (number_of t) (fun t => bind (match attr "tint" l with None => Some 0%Z | Some s => read_percent s end) (fun p => Some (RTheme t p)))
  | None => bind (attr "rgb" l) (fun s => bind (rgb_of s) (fun n => Some (RRgb n)))
  end.

(** The five shades of a theme colour in Excel's palette, in percent lighter (darker if
    negative): for the background colours 1 and 2, the text colour 1, and the others. *)
Definition shades (theme : N) : list Z :=
  match theme with
  | 0 => [-5; -15; -25; -35; -50]%Z
  | 1 => [50; 35; 25; 15; 5]%Z
  | 2 => [-10; -25; -50; -75; -90]%Z
  | _ => [80; 60; 40; -25; -50]%Z
  end.
Definition shade_percent (theme shade : N) : Z := match shade with 0 => 0%Z | _ => nth (N.to_nat (shade - 1)) (shades theme) 0%Z end.
Definition color_seen (c : Color) : rcolor := match c with CTheme t s => RTheme t (shade_percent t s) | c => RRgb (rgb c) end.
(** A colour that exists. *)
Definition real_color (c : Color) : bool :=
  match c with CRGB n => n <=? 16777215 | CTheme t s => (t <=? 9) && (s <=? 5) | CNamed n => n <? 16 | _ => true end.
