(** Model of src/url.rs: hyperlink classification, splitting, limits, escaping. *)
From Verif Require Import Base Xml_Model.

Inductive link_type := LUnknown | LUrl | LInternal | LFile.   (* src/url.rs:574-580 *)
Inductive url_error := UnknownUrlType | MaxUrlLengthExceeded | UrlParameterError.

(** src/url.rs:262-273. *)
Record url := {
  original_url : str; link : str; relationship_link : str; text : str;
  tool_tip : str; anchor : str; ltype : link_type; is_object_link : bool; rel_id : N }.

(** src/url.rs:282-296; set_text 337, set_tip 350; [obj] is set by the callers
    that attach a link to an image or shape. *)
Definition url_new (l txt tip : str) (obj : bool) : url :=
  {| original_url := l; link := l; relationship_link := l; text := txt; tool_tip := tip;
     anchor := []; ltype := LUnknown; is_object_link := obj; rel_id := 0 |}.

Definition MAX_URL_LEN : N := 2080.        (* src/url.rs:11 *)
Definition MAX_PARAMETER_LEN : N := 255.   (* src/worksheet.rs:1413 *)

(** [splitn(2, '#')]: text before and after the first '#' (35). *)
Fixpoint split_hash (s : str) : option (str * str) :=
  match s with
  | [] => None
  | c :: r => if c =? 35 then Some ([], r)
              else match split_hash r with Some (a, b) => Some (c :: a, b) | None => None end
  end.

(** [replacen(p, q, 1)] : replace the first occurrence. *)
Fixpoint replace_first (p q s : str) : str :=
  match strip_prefix p s with
  | Some r => q ++ r
  | None => match s with [] => [] | c :: r => c :: replace_first p q r end
  end.

(** Byte offset of the first ':' equal to 1: the first character is one byte wide
    and the second is ':'.  src/url.rs:513-527. 92 is a backslash, 58 a colon. *)
Definition relative_path (u : str) : bool :=
  if starts_with [92; 92] u then false
  else match u with
       | a :: b :: _ => negb (negb (a =? 58) && (utf8_len a =? 1) && (b =? 58) && is_ascii a)
       | _ => true
       end.

Definition set_anchor_split (l : str) : str * option str :=
  match split_hash l with Some (a, b) => (a, Some b) | None => (l, None) end.

Definition replace_char (a : char) (w s : str) : str := flat_map (fun c => if c =? a then w else [c]) s.

(** src/url.rs:383-465 parse_url. *)
Definition parse_url (u : url) : result url url_error :=
  let l := link u in
  if starts_with (lit "http://") l || starts_with (lit "https://") l
     || starts_with (lit "ftp://") l || starts_with (lit "ftps://") l then
    let txt := match text u with [] => l | t => t end in
    let '(l', a) := set_anchor_split l in
    Ok {| original_url := original_url u; link := l';
          relationship_link := if is_object_link u then original_url u else l';
          text := txt; tool_tip := tool_tip u;
          anchor := match a with Some a => a | None => anchor u end;
          ltype := LUrl; is_object_link := is_object_link u; rel_id := rel_id u |}
  else if starts_with (lit "mailto:") l then
    Ok {| original_url := original_url u; link := l; relationship_link := relationship_link u;
          text := match text u with [] => replace_first (lit "mailto:") [] l | t => t end;
          tool_tip := tool_tip u; anchor := anchor u;
          ltype := LUrl; is_object_link := is_object_link u; rel_id := rel_id u |}
  else if starts_with (lit "internal:") l then
    let a := replace_first (lit "internal:") [] l in
    Ok {| original_url := original_url u; link := l;
          relationship_link := replace_first (lit "internal:") (lit "#") l;
          text := match text u with [] => a | t => t end;
          tool_tip := tool_tip u; anchor := a;
          ltype := LInternal; is_object_link := is_object_link u; rel_id := rel_id u |}
  else if starts_with (lit "file://") l then
    let link_path := replace_first (lit "file://") [] (replace_first (lit "file:///") [] l) in
    let rel := relative_path link_path in
    let l1 := if rel then link_path else l in
    let txt := match text u with [] => link_path | t => t end in
    let '(l', a) := set_anchor_split l1 in
    Ok {| original_url := original_url u; link := l';
          relationship_link :=
            if is_object_link u then
              if rel then replace_char 92 (lit "/") l' else original_url u
            else l';
          text := txt; tool_tip := tool_tip u;
          anchor := match a with Some a => a | None => anchor u end;
          ltype := LFile; is_object_link := is_object_link u; rel_id := rel_id u |}
  else Err UnknownUrlType.

(** src/url.rs:530-551 is_escaped.  The windows are over bytes; the patterns are
    ASCII, so a byte match is a character match. *)
Definition escape_codes : list str :=
  [lit "%25"; lit "%22"; lit "%20"; lit "%3c"; lit "%3e"; lit "%5b"; lit "%5d"; lit "%5e"; lit "%60"; lit "%7b"; lit "%7d"].
Definition is_escaped (u : str) : bool :=
  if negb (has_char 37 u) then false
  else existsb (fun w => str_contains w u) escape_codes.

Definition link_type_eqb (a b : link_type) : bool :=
  match a, b with
  | LUnknown, LUnknown | LUrl, LUrl | LInternal, LInternal | LFile, LFile => true | _, _ => false end.

(** src/url.rs:468-484 escape_strings. *)
Definition escape_strings (u : url) : url :=
  let l := if is_escaped (link u) then link u else escape_url (link u) in
  let rl := if negb (link_type_eqb (ltype u) LInternal) && negb (is_escaped (relationship_link u))
            then escape_url (relationship_link u) else relationship_link u in
  let rl := if link_type_eqb (ltype u) LFile then replace_char 35 (lit "%23") rl else rl in
  {| original_url := original_url u; link := l; relationship_link := rl; text := text u;
     tool_tip := tool_tip u; anchor := anchor u; ltype := ltype u;
     is_object_link := is_object_link u; rel_id := rel_id u |}.

(** src/url.rs:359-379 initialize. *)
Definition initialize (u : url) : result url url_error :=
  match parse_url u with
  | Err e => Err e
  | Ok u1 =>
      if (MAX_URL_LEN <? char_count (link u1)) || (MAX_URL_LEN <? char_count (anchor u1))
      then Err MaxUrlLengthExceeded
      else let u2 := escape_strings u1 in
           if MAX_PARAMETER_LEN <? char_count (tool_tip u2) then Err UrlParameterError else Ok u2
  end.

(** src/url.rs:487-495 increment_rel_id; src/url.rs:503-509 target_mode
    ([true] = "External"). *)
Definition increment_rel_id (u : url) (n : N) : url * N :=
  match ltype u with
  | LUrl | LFile =>
      ({| original_url := original_url u; link := link u; relationship_link := relationship_link u;
          text := text u; tool_tip := tool_tip u; anchor := anchor u; ltype := ltype u;
          is_object_link := is_object_link u; rel_id := n |}, n + 1)
  | _ => (u, n)
  end.
Definition target_external (u : url) : bool := negb (link_type_eqb (ltype u) LInternal).
