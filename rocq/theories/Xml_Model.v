(** Model of src/xmlwriter.rs: escaping and the element writers, and of the
    shared-string element writer in src/shared_strings.rs. *)
From Verif Require Import Base.

(** src/xmlwriter.rs:164-173 match_attribute_html_char. *)
Definition match_attribute_html_char (ch : char) : option str :=
  if ch =? 38 then Some (lit "&amp;")
  else if ch =? 34 then Some (lit "&quot;")
  else if ch =? 60 then Some (lit "&lt;")
  else if ch =? 62 then Some (lit "&gt;")
  else if ch =? 10 then Some (lit "&#xA;")
  else None.

(** Upper-case hexadecimal digit, used to abbreviate the 30 literal arms below. *)
Definition hex_upper (d : N) : char := if d <? 10 then 48 + d else 55 + d.

(** src/xmlwriter.rs:182-226 match_xml_char.  The arms '\x00'..'\x08' and
    '\x0B'..'\x1F' are literal strings "_x00HH_"; they are generated here from the
    two hexadecimal digits of the code. *)
Definition match_xml_char (ch : char) : option str :=
  if ch =? 38 then Some (lit "&amp;")
  else if ch =? 60 then Some (lit "&lt;")
  else if ch =? 62 then Some (lit "&gt;")
  else if (ch <? 32) && negb (ch =? 9) && negb (ch =? 10)
  then Some (lit "_x00" ++ [hex_upper (ch / 16); hex_upper (ch mod 16)] ++ lit "_")
  else None.

(** src/xmlwriter.rs:229-244 match_url_char. *)
Definition match_url_char (ch : char) : option str :=
  if ch =? 37 then Some (lit "%25")
  else if ch =? 34 then Some (lit "%22")
  else if ch =? 32 then Some (lit "%20")
  else if ch =? 60 then Some (lit "%3c")
  else if ch =? 62 then Some (lit "%3e")
  else if ch =? 91 then Some (lit "%5b")
  else if ch =? 93 then Some (lit "%5d")
  else if ch =? 94 then Some (lit "%5e")
  else if ch =? 96 then Some (lit "%60")
  else if ch =? 123 then Some (lit "%7b")
  else if ch =? 125 then Some (lit "%7d")
  else None.

Definition is_some {A} (o : option A) : bool := match o with Some _ => true | None => false end.

(** The inner loop of escape_string, src/xmlwriter.rs:257-262. *)
Fixpoint escape_chars (h : char -> option str) (s : str) : str :=
  match s with
  | [] => []
  | c :: r => match h c with Some e => e ++ escape_chars h r | None => c :: escape_chars h r end
  end.

(** src/xmlwriter.rs:247-269 escape_string: copy the prefix up to the first
    character that needs escaping, then escape the rest.  [Cow::Borrowed] and
    [Cow::Owned] are both the string. *)
Fixpoint split_first (h : char -> bool) (s : str) : option (str * str) :=
  match s with
  | [] => None
  | c :: r => if h c then Some ([], s)
              else match split_first h r with Some (a, b) => Some (c :: a, b) | None => None end
  end.
Definition escape_string (h : char -> option str) (s : str) : str :=
  match split_first (fun c => is_some (h c)) s with
  | Some (prefix, remaining) => prefix ++ escape_chars h remaining
  | None => s
  end.

(** src/xmlwriter.rs:129-141. *)
Definition escape_attributes (s : str) : str := escape_string match_attribute_html_char s.
Definition escape_xml_data (s : str) : str := escape_string match_xml_char s.
Definition escape_url (s : str) : str := escape_string match_url_char s.

(** Byte-offset operations on strings: [split_at_byte n s] is the pair
    ([s[..n]], [s[n..]]), [None] when [n] is not a char boundary (a slice or
    replace_range there would panic) or is beyond the end. *)
Fixpoint split_at_byte (n : N) (s : str) : option (str * str) :=
  if n =? 0 then Some ([], s)
  else match s with
       | [] => None
       | c :: r => if n <? utf8_len c then None
                   else match split_at_byte (n - utf8_len c) r with
                        | Some (a, b) => Some (c :: a, b) | None => None end
       end.
Definition is_char_boundary (n : N) (s : str) : bool := is_some (split_at_byte n s).
(** [&s[a..b]] *)
Definition byte_slice (a b : N) (s : str) : option str :=
  match split_at_byte a s with
  | Some (p, q) => match split_at_byte (b - a) q with Some (x, _) => Some x | None => None end
  | None => None
  end.
(** [s.replace_range(i..i, ins)] *)
Definition insert_at_byte (i : N) (ins s : str) : option str :=
  match split_at_byte i s with Some (a, b) => Some (a ++ ins ++ b) | None => None end.

(** Byte offsets of the occurrences of a two-character pattern, leftmost first
    ([rmatch_indices] yields the same offsets in reverse since the pattern "_x"
    cannot overlap itself). [off] is the offset of [s]. *)
Fixpoint match_indices (p q : char) (off : N) (s : str) : list N :=
  match s with
  | [] => []
  | c :: r =>
      (if (c =? p) && starts_with [q] r then [off] else []) ++ match_indices p q (off + utf8_len c) r
  end.

(** Loop body of escape_xml_escapes, src/xmlwriter.rs:285-302; the accumulator is
    [escaped_string]; [None] is a panic. 95 is '_', 120 is 'x'. *)
Definition escape_step (original : str) (esc : option str) (index : N) : option str :=
  e <- esc ;;
  if byte_len original <? index + 7 then Some e
  else if negb (is_char_boundary (index + 6) original) then Some e
  else
    digits <- byte_slice (index + 2) (index + 6) original ;;
    if forallb is_ascii_hexdigit digits then insert_at_byte index (lit "_x005F") e
    else Some e.

(** src/xmlwriter.rs:274-309 escape_xml_escapes. *)
Definition escape_xml_escapes (original : str) : option str :=
  if negb (str_contains (lit "_x") original) then Some original
  else fold_left (escape_step original) (rev (match_indices 95 120 0 original)) (Some original).

(** src/xmlwriter.rs:95-111 xml_si_element. *)
Definition xml_si_element (string : str) (preserve_whitespace : bool) : option str :=
  e <- escape_xml_escapes string ;;
  Some ((if preserve_whitespace then lit "<si><t xml:space=""preserve"">" else lit "<si><t>")
        ++ escape_xml_data e ++ lit "</t></si>").

(** src/xmlwriter.rs:114-116 xml_rich_si_element. *)
Definition xml_rich_si_element (string : str) : str := lit "<si>" ++ string ++ lit "</si>".

(** src/xmlwriter.rs:75-77 xml_data_element_only. *)
Definition xml_data_element_only (tag data : str) : str :=
  lit "<" ++ tag ++ lit ">" ++ escape_xml_data data ++ lit "</" ++ tag ++ lit ">".

(** src/xmlwriter.rs:321-337 IntoAttribute::write_to. *)
Definition write_attribute (kv : str * str) : str :=
  lit " " ++ fst kv ++ lit "=""" ++ escape_attributes (snd kv) ++ lit """".

(** src/xmlwriter.rs:60-72 xml_empty_tag and 35-47 xml_start_tag. *)
Definition xml_empty_tag (tag : str) (attrs : list (str * str)) : str :=
  lit "<" ++ tag ++ flat_map write_attribute attrs ++ lit "/>".
Definition xml_start_tag (tag : str) (attrs : list (str * str)) : str :=
  lit "<" ++ tag ++ flat_map write_attribute attrs ++ lit ">".

(** src/shared_strings.rs:66-90 write_sst_strings, body of the loop: a string
    wrapped in "<r>...</r>" is taken to be a rich string and written raw. *)
Definition is_ws_edge (c : char) : bool := (c =? 9) || (c =? 10) || (c =? 32).
Definition write_si (string : str) : option str :=
  let preserve := match string with [] => false | c :: _ => is_ws_edge c end
                  || match rev string with [] => false | c :: _ => is_ws_edge c end in
  if starts_with (lit "<r>") string && ends_with (lit "</r>") string
  then Some (xml_rich_si_element string)
  else xml_si_element string preserve.
