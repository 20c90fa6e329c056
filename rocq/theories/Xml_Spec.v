(** Independent readers: an XML 1.0 character-data reader, an XML attribute-value
    reader, Excel's _xHHHH_ decoding, and percent-decoding of URLs. *)
From Verif Require Import Base.

(** XML 1.0 production [2] Char. *)
Definition xml_char (c : char) : bool :=
  (c =? 9) || (c =? 10) || (c =? 13) || ((32 <=? c) && (c <=? 0xD7FF)) ||
  ((0xE000 <=? c) && (c <=? 0xFFFD)) || ((0x10000 <=? c) && (c <=? 0x10FFFF)).

Definition hex_value (c : char) : option N :=
  if is_ascii_digit c then Some (c - 48)
  else if (65 <=? c) && (c <=? 70) then Some (c - 55)
  else if (97 <=? c) && (c <=? 102) then Some (c - 87)
  else None.
Fixpoint hex_number (acc : N) (s : str) : option N :=
  match s with
  | [] => Some acc
  | c :: r => match hex_value c with Some v => hex_number (16 * acc + v) r | None => None end
  end.
Fixpoint dec_number (acc : N) (s : str) : option N :=
  match s with
  | [] => Some acc
  | c :: r => if is_ascii_digit c then dec_number (10 * acc + (c - 48)) r else None
  end.

(** The text between '&' and ';'. *)
Definition entity (name : str) : option char :=
  if str_eqb name (lit "amp") then Some 38
  else if str_eqb name (lit "lt") then Some 60
  else if str_eqb name (lit "gt") then Some 62
  else if str_eqb name (lit "quot") then Some 34
  else if str_eqb name (lit "apos") then Some 39
  else match name with
       | 35 :: 120 :: (_ :: _) as h => hex_number 0 (tl (tl name))
       | 35 :: (_ :: _) as d => dec_number 0 (tl name)
       | _ => None
       end.

(** Character data: [pending] is [Some buf] inside an entity reference (most
    recent character first).  A raw '<' or an illegal character is an error; a raw
    CR is normalised to LF (XML 2.11; CR LF pairs collapse, but it is enough here
    to note that CR is never preserved). *)
Fixpoint xml_text (pending : option str) (s : str) : option str :=
  match s with
  | [] => match pending with None => Some [] | Some _ => None end
  | c :: r =>
      if negb (xml_char c) then None
      else match pending with
      | None =>
          if c =? 38 then xml_text (Some []) r
          else if c =? 60 then None
          else match xml_text None r with
               | Some t => Some ((if c =? 13 then 10 else c) :: t) | None => None end
      | Some buf =>
          if c =? 59 then
            match entity (rev buf), xml_text None r with
            | Some e, Some t => if xml_char e then Some (e :: t) else None
            | _, _ => None
            end
          else xml_text (Some (c :: buf)) r
      end
  end.
Definition parse_text (s : str) : option str := xml_text None s.

(** A double-quoted attribute value (the text between the quotes): raw white
    space is normalised to a space (XML 3.3.3), references are resolved. *)
Fixpoint xml_attr (pending : option str) (s : str) : option str :=
  match s with
  | [] => match pending with None => Some [] | Some _ => None end
  | c :: r =>
      if negb (xml_char c) then None
      else match pending with
      | None =>
          if c =? 38 then xml_attr (Some []) r
          else if (c =? 60) || (c =? 34) then None
          else match xml_attr None r with
               | Some t => Some ((if (c =? 9) || (c =? 10) || (c =? 13) then 32 else c) :: t)
               | None => None end
      | Some buf =>
          if c =? 59 then
            match entity (rev buf), xml_attr None r with
            | Some e, Some t => if xml_char e then Some (e :: t) else None
            | _, _ => None
            end
          else xml_attr (Some (c :: buf)) r
      end
  end.
Definition parse_attr (s : str) : option str := xml_attr None s.

(** Excel's reading of string content: "_xHHHH_" stands for one character. *)
Fixpoint excel_decode (s : str) : str :=
  match s with
  | [] => []
  | u :: s1 =>
      match s1 with
      | x :: a :: b :: c :: d :: v :: r =>
          match hex_number 0 [a; b; c; d] with
          | Some n => if (u =? 95) && (x =? 120) && (v =? 95) then n :: excel_decode r
                      else u :: excel_decode s1
          | None => u :: excel_decode s1
          end
      | _ => u :: excel_decode s1
      end
  end.

(** Percent-decoding: "%hh" with two hexadecimal digits stands for one character
    (only codes below 128 are produced by the escapes considered). *)
Fixpoint percent_decode (s : str) : str :=
  match s with
  | [] => []
  | p :: s1 =>
      match s1 with
      | a :: b :: r =>
          match hex_number 0 [a; b] with
          | Some n => if p =? 37 then n :: percent_decode r else p :: percent_decode s1
          | None => p :: percent_decode s1
          end
      | _ => p :: percent_decode s1
      end
  end.
