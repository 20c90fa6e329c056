(** Model of src/utility.rs: A1 references, sheet-name validation and quoting. *)
From Verif Require Import Base.

(** Limits: src/worksheet.rs ROW_MAX / COL_MAX (lib.rs re-exports). *)
Definition ROW_MAX : N := 1048576.
Definition COL_MAX : N := 16384.

(** The [while] loop of src/utility.rs:70-86 (column_number_to_name).  [None] is
    fuel exhaustion, excluded by the theorems. [col_num - 1] cannot underflow
    because the loop body runs only for [col_num > 0]. *)
Fixpoint col_name_loop (fuel : nat) (col_num : N) (col_name : str) : option str :=
  match fuel with
  | O => None
  | S f =>
      if 0 <? col_num then
        let remainder := col_num mod 26 in
        let remainder := if remainder =? 0 then 26 else remainder in
        col_name_loop f ((col_num - 1) / 26) ((64 + remainder) :: col_name)
      else Some col_name
  end.

(** src/utility.rs:65-89.  [col_num + 1] is a u16 addition: for 65535 it panics in
    a debug build and wraps to 0 (giving "") in a release build. *)
Definition column_number_to_name (m : ovf) (col_num : N) : option str :=
  c <- add16 m col_num 1 ;; col_name_loop 17 c [].

(** src/utility.rs:115-118: the accumulation loop, u16 arithmetic; [char as u16]
    truncates the scalar value to 16 bits. *)
Fixpoint col_number_loop (m : ovf) (col_num : N) (column : str) : option N :=
  match column with
  | [] => Some col_num
  | c :: rest =>
      a <- mul16 m col_num 26 ;;
      b <- sub16 m (c mod 65536) 65 ;;
      b1 <- add16 m b 1 ;;
      n <- add16 m a b1 ;;
      col_number_loop m n rest
  end.

(** src/utility.rs:110-121. *)
Definition column_name_to_number (m : ovf) (column : str) : option N :=
  match column with
  | [] => Some 0
  | _ => n <- col_number_loop m 0 column ;; sub16 m n 1
  end.

(** u32 addition [row + 1] of src/utility.rs:145,171. *)
Definition add32 (m : ovf) (a b : N) : option N := wrapN m 32 (Z.of_N a + Z.of_N b).

(** src/utility.rs:144-146. *)
Definition row_col_to_cell (m : ovf) (row col : N) : option str :=
  name <- column_number_to_name m col ;;
  r <- add32 m row 1 ;;
  Some (name ++ dec r).

(** src/utility.rs:170-172. 36 is '$'. *)
Definition row_col_to_cell_absolute (m : ovf) (row col : N) : option str :=
  name <- column_number_to_name m col ;;
  r <- add32 m row 1 ;;
  Some (36 :: name ++ 36 :: dec r).

(** src/utility.rs:208-222. 58 is ':'. *)
Definition cell_range (m : ovf) (fr fc lr lc : N) : option str :=
  range1 <- row_col_to_cell m fr fc ;;
  range2 <- row_col_to_cell m lr lc ;;
  Some (if str_eqb range1 range2 then range1 else range1 ++ 58 :: range2).

(** src/utility.rs:258-272. *)
Definition cell_range_absolute (m : ovf) (fr fc lr lc : N) : option str :=
  range1 <- row_col_to_cell_absolute m fr fc ;;
  range2 <- row_col_to_cell_absolute m lr lc ;;
  Some (if str_eqb range1 range2 then range1 else range1 ++ 58 :: range2).

(** src/utility.rs:745-800 is_emoji: the ranges, in source order. *)
Definition emoji_low : list (N * N) :=
  [(0x203C, 0x203C); (0x2049, 0x2049); (0x2122, 0x2122); (0x2139, 0x2139); (0x2194, 0x2199);
    (0x21A9, 0x21A9); (0x21AA, 0x21AA); (0x231A, 0x231A); (0x231B, 0x231B); (0x2328, 0x2328);
    (0x23CF, 0x23CF); (0x23E9, 0x23F3); (0x23F8, 0x23FA); (0x24C2, 0x24C2); (0x25AA, 0x25AA);
    (0x25AB, 0x25AB); (0x25B6, 0x25B6); (0x25C0, 0x25C0); (0x25FB, 0x25FE); (0x2600, 0x2604);
    (0x260E, 0x260E); (0x2611, 0x2611); (0x2614, 0x2614); (0x2615, 0x2615); (0x2618, 0x2618);
    (0x261D, 0x261D); (0x2620, 0x2620); (0x2622, 0x2622); (0x2623, 0x2623); (0x2626, 0x2626);
    (0x262A, 0x262A); (0x262E, 0x262E); (0x262F, 0x262F); (0x2638, 0x263A); (0x2640, 0x2640);
    (0x2642, 0x2642); (0x2648, 0x2653); (0x265F, 0x265F); (0x2660, 0x2660); (0x2663, 0x2663);
    (0x2665, 0x2665); (0x2666, 0x2666); (0x2668, 0x2668); (0x267B, 0x267B); (0x267E, 0x267E);
    (0x267F, 0x267F); (0x2692, 0x2697); (0x2699, 0x2699); (0x269B, 0x269B); (0x269C, 0x269C);
    (0x26A0, 0x26A0); (0x26A1, 0x26A1); (0x26A7, 0x26A7); (0x26AA, 0x26AA); (0x26AB, 0x26AB);
    (0x26B0, 0x26B0); (0x26B1, 0x26B1); (0x26BD, 0x26BD); (0x26BE, 0x26BE); (0x26C4, 0x26C4);
    (0x26C5, 0x26C5); (0x26C8, 0x26C8); (0x26CE, 0x26CE); (0x26CF, 0x26CF); (0x26D1, 0x26D1);
    (0x26D3, 0x26D3); (0x26D4, 0x26D4); (0x26E9, 0x26E9); (0x26EA, 0x26EA); (0x26F0, 0x26F5);
    (0x26F7, 0x26FA); (0x26FD, 0x26FD); (0x2702, 0x2702); (0x2705, 0x2705); (0x2708, 0x270D);
    (0x270F, 0x270F); (0x2712, 0x2712); (0x2714, 0x2714); (0x2716, 0x2716); (0x271D, 0x271D);
    (0x2721, 0x2721); (0x2728, 0x2728); (0x2733, 0x2733); (0x2734, 0x2734); (0x2744, 0x2744);
    (0x2747, 0x2747); (0x274C, 0x274C); (0x274E, 0x274E); (0x2753, 0x2755); (0x2757, 0x2757);
    (0x2763, 0x2763); (0x2764, 0x2764); (0x2795, 0x2797); (0x27A1, 0x27A1); (0x27B0, 0x27B0);
    (0x27BF, 0x27BF); (0x2934, 0x2934); (0x2935, 0x2935); (0x2B05, 0x2B07); (0x2B1B, 0x2B1B);
    (0x2B1C, 0x2B1C); (0x2B50, 0x2B50); (0x2B55, 0x2B55); (0x3030, 0x3030); (0x303D, 0x303D);
    (0x3297, 0x3297); (0x3299, 0x3299)].
Definition emoji_high : list (N * N) :=
  [(0x1F004, 0x1F004); (0x1F0CF, 0x1F0CF); (0x1F170, 0x1F170); (0x1F171, 0x1F171);
    (0x1F17E, 0x1F17E); (0x1F17F, 0x1F17F); (0x1F18E, 0x1F18E); (0x1F191, 0x1F19A);
    (0x1F1E6, 0x1F1FF); (0x1F201, 0x1F201); (0x1F202, 0x1F202); (0x1F21A, 0x1F21A);
    (0x1F22F, 0x1F22F); (0x1F232, 0x1F23A); (0x1F250, 0x1F250); (0x1F251, 0x1F251);
    (0x1F300, 0x1F321); (0x1F324, 0x1F393); (0x1F396, 0x1F396); (0x1F397, 0x1F397);
    (0x1F399, 0x1F39B); (0x1F39E, 0x1F3F0); (0x1F3F3, 0x1F3F5); (0x1F3F7, 0x1F4FD);
    (0x1F4FF, 0x1F53D); (0x1F549, 0x1F54E); (0x1F550, 0x1F567); (0x1F56F, 0x1F56F);
    (0x1F570, 0x1F570); (0x1F573, 0x1F57A); (0x1F587, 0x1F587); (0x1F58A, 0x1F58D);
    (0x1F590, 0x1F590); (0x1F595, 0x1F595); (0x1F596, 0x1F596); (0x1F5A4, 0x1F5A4);
    (0x1F5A5, 0x1F5A5); (0x1F5A8, 0x1F5A8); (0x1F5B1, 0x1F5B1); (0x1F5B2, 0x1F5B2);
    (0x1F5BC, 0x1F5BC); (0x1F5C2, 0x1F5C4); (0x1F5D1, 0x1F5D3); (0x1F5DC, 0x1F5DE);
    (0x1F5E1, 0x1F5E1); (0x1F5E3, 0x1F5E3); (0x1F5E8, 0x1F5E8); (0x1F5EF, 0x1F5EF);
    (0x1F5F3, 0x1F5F3); (0x1F5FA, 0x1F64F); (0x1F680, 0x1F6C5); (0x1F6CB, 0x1F6D2);
    (0x1F6D5, 0x1F6D7); (0x1F6DC, 0x1F6E5); (0x1F6E9, 0x1F6E9); (0x1F6EB, 0x1F6EB);
    (0x1F6EC, 0x1F6EC); (0x1F6F0, 0x1F6F0); (0x1F6F3, 0x1F6FC); (0x1F7E0, 0x1F7EB);
    (0x1F7F0, 0x1F7F0); (0x1F90C, 0x1F93A); (0x1F93C, 0x1F945); (0x1F947, 0x1F9FF);
    (0x1FA70, 0x1FA7C); (0x1FA80, 0x1FA88); (0x1FA90, 0x1FABD); (0x1FABF, 0x1FAC5);
    (0x1FACE, 0x1FADB); (0x1FAE0, 0x1FAE8); (0x1FAF0, 0x1FAF8)].
Definition in_ranges (c : N) (l : list (N * N)) : bool :=
  existsb (fun '(a, b) => (a <=? c) && (c <=? b)) l.
Definition is_emoji (c : char) : bool :=
  if c <? 0x203C then false
  else if c <? 0x1F004 then in_ranges c emoji_low
  else in_ranges c emoji_high.

(** Unicode tables of the Rust standard library, used only through these two
    functions.  They are parameters of the model: what is assumed about them is
    exactly [unicode_ok] below (their behaviour on ASCII). *)
Record unicode := {
  u_alnum : char -> bool;        (* char::is_alphanumeric *)
  u_upper : char -> str;         (* char::to_uppercase    *)
}.
Definition is_ascii_alnum (c : char) : bool := is_ascii_digit c || is_ascii_alpha c.
(** On ASCII both functions are the ASCII ones; every character has a non-empty
    upper-case expansion; nothing but itself upper-cases to a character below 'A'
    (digits and punctuation are nobody else's upper case). *)
Definition unicode_ok (u : unicode) : Prop :=
  (forall c, is_ascii c = true -> u_alnum u c = is_ascii_alnum c) /\
  (forall c, is_ascii c = true -> u_upper u c = [ascii_upper c]) /\
  (forall c, u_upper u c <> []) /\
  (forall c x, In x (u_upper u c) -> x < 65 -> x = c).
(** A concrete instance (ASCII only), used to show the hypotheses satisfiable. *)
Definition ascii_unicode : unicode :=
  {| u_alnum := fun c => is_ascii c && is_ascii_alnum c;
     u_upper := fun c => [ascii_upper c] |}.
(** [str::to_uppercase] maps every character (the only context-sensitive rule in
    the standard library concerns lower-casing of sigma). *)
Definition to_uppercase (u : unicode) (s : str) : str := flat_map (u_upper u) s.

(** [sheetname.find(|c| c.is_ascii_digit())] followed by the two slices. *)
Fixpoint split_at_digit (s : str) : option (str * str) :=
  match s with
  | [] => None
  | c :: r => if is_ascii_digit c then Some ([], s)
              else match split_at_digit r with
                   | Some (a, b) => Some (c :: a, b) | None => None end
  end.

(** src/utility.rs:804-812. *)
Definition split_cell_reference (u : unicode) (s : str) : str * str :=
  match split_at_digit s with
  | Some (a, b) => (to_uppercase u a, to_uppercase u b)
  | None => ([], [])
  end.

(** [parse::<u64>().unwrap_or_default()] restricted to the arguments used here,
    which contain ASCII digits only: empty string and overflow give 0. *)
Definition parse_u64_or_0 (s : str) : N :=
  match s with
  | [] => 0
  | _ => let v := undec s in if v <? 2 ^ 64 then v else 0
  end.

(** [split(|c| !c.is_ascii_digit()).next()]: the leading digits. *)
Fixpoint leading_digits (s : str) : str :=
  match s with
  | c :: r => if is_ascii_digit c then c :: leading_digits r else []
  | [] => []
  end.

Definition starts_with_char (p : char -> bool) (s : str) : bool :=
  match s with c :: _ => p c | [] => false end.

(** The rules of src/utility.rs:649-719; [None] is the debug-build panic of the
    u16 arithmetic in column_name_to_number or in [col + 1]. *)
Definition requires_quoting (m : ovf) (u : unicode) (s : str) : option bool :=
  let '(string_part, number_part) := split_cell_reference u s in
  let rc_number_part := leading_digits number_part in
  if starts_with_char (N.eqb 39) s then Some false
  else if negb (forallb (fun c => u_alnum u c || (c =? 95) || (c =? 46) || is_emoji c) s)
  then Some true                                                        (* rule 1 *)
  else if starts_with_char (fun c => is_ascii_digit c || (c =? 46) || is_emoji c) s
  then Some true                                                        (* rule 2 *)
  else if ((1 <=? byte_len string_part) && (byte_len string_part <=? 3))
          && forallb is_ascii_digit number_part
  then                                                                  (* rule 3 *)
    col <- column_name_to_number m string_part ;;
    col <- add16 m col 1 ;;
    let row := parse_u64_or_0 number_part in
    Some ((0 <? row) && (row <=? ROW_MAX) && (col <=? COL_MAX))
  else if str_eqb string_part (lit "R") then                            (* rule 4a *)
    let row := parse_u64_or_0 rc_number_part in
    Some ((0 <? row) && (row <=? ROW_MAX))
  else if str_eqb string_part (lit "RC") || str_eqb string_part (lit "C") then (* rule 4b *)
    let col := parse_u64_or_0 rc_number_part in
    Some ((0 <? col) && (col <=? COL_MAX))
  else                                                                  (* rule 4c *)
    let up := to_uppercase u s in
    Some (str_eqb up (lit "R") || str_eqb up (lit "C") || str_eqb up (lit "RC")).

(** [replace('\'', "''")]: src/utility.rs:723. *)
Definition double_quotes (s : str) : str :=
  flat_map (fun c => if c =? 39 then [39; 39] else [c]) s.

(** src/utility.rs:628-730. *)
Definition quote_sheet_name (m : ovf) (u : unicode) (s : str) : option str :=
  q <- requires_quoting m u s ;;
  Some (if q then 39 :: double_quotes s ++ [39] else s).

(** [replace("''", "'")]: leftmost, non-overlapping. *)
Fixpoint undouble_quotes (s : str) : str :=
  match s with
  | a :: r =>
      match r with
      | b :: r' => if (a =? 39) && (b =? 39) then 39 :: undouble_quotes r' else a :: undouble_quotes r
      | [] => [a]
      end
  | [] => []
  end.

Definition last_char (s : str) : option char :=
  match rev s with c :: _ => Some c | [] => None end.
Definition ends_with_char (p : char -> bool) (s : str) : bool :=
  match last_char s with Some c => p c | None => false end.

(** src/utility.rs:733-740.  The slice [1..len-1] of a lone "'" panics. *)
Definition unquote_sheetname (s : str) : option str :=
  if starts_with_char (N.eqb 39) s && ends_with_char (N.eqb 39) s then
    match s with
    | _ :: (_ :: _) as s' => Some (undouble_quotes (removelast (tl s)))
    | _ => None
    end
  else Some s.

(** src/utility.rs:524-540 (and worksheet_range, 310-318). 33 is '!'. *)
Definition chart_range (m : ovf) (u : unicode) (sheet : str) (fr fc lr lc : N) : option str :=
  q <- quote_sheet_name m u sheet ;;
  range1 <- row_col_to_cell m fr fc ;;
  range2 <- row_col_to_cell m lr lc ;;
  Some (if str_eqb range1 range2 then q ++ 33 :: range1
        else q ++ 33 :: range1 ++ 58 :: range2).

(** src/utility.rs:544-560 (and worksheet_range_absolute, 356-364). *)
Definition chart_range_abs (m : ovf) (u : unicode) (sheet : str) (fr fc lr lc : N) : option str :=
  q <- quote_sheet_name m u sheet ;;
  range1 <- row_col_to_cell_absolute m fr fc ;;
  range2 <- row_col_to_cell_absolute m lr lc ;;
  Some (if str_eqb range1 range2 then q ++ 33 :: range1
        else q ++ 33 :: range1 ++ 58 :: range2).

(** src/utility.rs:904-930 validate_sheetname (check_sheet_name 898-901,
    Worksheet::set_name src/worksheet.rs:2022).  Error payloads (messages) are
    dropped. *)
Inductive sheetname_error :=
| SheetnameCannotBeBlank | SheetnameLengthExceeded
| SheetnameContainsInvalidCharacter | SheetnameStartsOrEndsWithApostrophe.

Definition validate_sheetname (name : str) : option sheetname_error :=
  match name with
  | [] => Some SheetnameCannotBeBlank
  | _ =>
    if 31 <? char_count name then Some SheetnameLengthExceeded
    else if existsb (fun c => existsb (N.eqb c) [42; 63; 58; 91; 93; 92; 47]) name
    then Some SheetnameContainsInvalidCharacter
    else if starts_with_char (N.eqb 39) name || ends_with_char (N.eqb 39) name
    then Some SheetnameStartsOrEndsWithApostrophe
    else None
  end.

(** src/utility.rs:816-837 is_valid_range. *)
Definition is_valid_range (range : str) : bool :=
  match range with
  | [] => false
  | _ => if negb (starts_with_char is_ascii_upper range) || negb (ends_with_char is_ascii_digit range)
         then false
         else forallb (fun c => is_ascii_upper c || is_ascii_digit c || (c =? 58)) range
  end.

(** src/utility.rs:933-963 validate_vba_name; [true] = accepted.  [alpha] is
    char::is_alphabetic. *)
Definition validate_vba_name (u : unicode) (alpha : char -> bool) (name : str) : bool :=
  match name with
  | [] => false
  | c :: _ =>
      if 31 <? char_count name then false
      else if negb (forallb (fun c => u_alnum u c || (c =? 95)) name) then false
      else alpha c
  end.
