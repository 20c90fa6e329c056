(** Model of worksheet protection: password hashing (src/utility.rs 1094-1112),
    the protection state of a worksheet (src/worksheet.rs 9550-9845) and the
    [<sheetProtection>] and [<protectedRange>] elements (19507-19612). *)
From Verif Require Import Base Ref_Model Xml_Model.

(** [str::as_bytes]: the UTF-8 encoding of a string of Unicode scalar values. *)
Definition utf8_char (c : char) : list N :=
  if c <? 0x80 then [c]
  else if c <? 0x800 then [0xC0 + c / 64; 0x80 + c mod 64]
  else if c <? 0x10000 then [0xE0 + c / 4096; 0x80 + c / 64 mod 64; 0x80 + c mod 64]
  else [0xF0 + c / 262144; 0x80 + c / 4096 mod 64; 0x80 + c / 64 mod 64; 0x80 + c mod 64].
Definition as_bytes (s : str) : list N := flat_map utf8_char s.

(** src/utility.rs 1103 and 1107: [((hash >> 14) & 0x01) | ((hash << 1) & 0x7FFF)]
    on [u16]; [<<] drops the bits shifted out. *)
Definition rotate (hash : N) : N :=
  N.lor (N.land (N.shiftr hash 14) 0x01) (N.land (N.land (N.shiftl hash 1) 0xFFFF) 0x7FFF).

(** src/utility.rs 1094-1112.  The loop runs over the reversed bytes; [as u16] truncates. *)
Definition hash_password (password : str) : N :=
  let length := byte_len password mod 65536 in
  if (match password with [] => true | _ => false end) then 0
  else
    let hash := fold_left (fun hash byte => N.lxor (rotate hash) byte) (rev (as_bytes password)) 0 in
    N.lxor (N.lxor (rotate hash) length) 0xCE4B.

(** [format!("{:04X}", hash)] *)
Definition hex4 (h : N) : str :=
  [hex_upper (h / 4096); hex_upper (h / 256 mod 16); hex_upper (h / 16 mod 16); hex_upper (h mod 16)].

(** src/protection.rs 61-125 *)
Record prot_options := {
  select_locked_cells : bool; select_unlocked_cells : bool;
  format_cells : bool; format_columns : bool; format_rows : bool;
  insert_columns : bool; insert_rows : bool; insert_links : bool;
  delete_columns : bool; delete_rows : bool; sort : bool;
  use_autofilter : bool; use_pivot_tables : bool;
  edit_scenarios : bool; edit_objects : bool; contents : bool }.
(** src/protection.rs 137-157 *)
Definition prot_options_new : prot_options :=
  {| select_locked_cells := true; select_unlocked_cells := true;
     format_cells := false; format_columns := false; format_rows := false;
     insert_columns := false; insert_rows := false; insert_links := false;
     delete_columns := false; delete_rows := false; sort := false;
     use_autofilter := false; use_pivot_tables := false;
     edit_scenarios := false; edit_objects := false; contents := true |}.

(** The protection fields of [Worksheet] (src/worksheet.rs 1599-1602, 1810-1813). *)
Record prot := { protection_on : bool; protection_hash : N; protection_options : prot_options;
                 unprotected_ranges : list (str * str * N) }.
Definition prot_new : prot :=
  {| protection_on := false; protection_hash := 0; protection_options := prot_options_new; unprotected_ranges := [] |}.

Inductive prot_error := PLimit | POrder.
Inductive prot_op :=
| Protect | ProtectPassword (password : str) | ProtectOptions (o : prot_options)
| Unprotect (fr fc lr lc : N) (name password : str).

(** src/worksheet.rs 9550, 9612-9617, 9678-9683, 9743-9751 (name and password
    empty) and 9813-9845.  [None] is a panic (building the range text). *)
Definition prot_step (m : ovf) (p : prot) (op : prot_op) : option (prot * result unit prot_error) :=
  match op with
  | Protect => Some ({| protection_on := true; protection_hash := protection_hash p;
                        protection_options := protection_options p; unprotected_ranges := unprotected_ranges p |}, Ok tt)
  | ProtectPassword pw => Some ({| protection_on := true; protection_hash := hash_password pw;
                        protection_options := protection_options p; unprotected_ranges := unprotected_ranges p |}, Ok tt)
  | ProtectOptions o => Some ({| protection_on := true; protection_hash := protection_hash p;
                        protection_options := o; unprotected_ranges := unprotected_ranges p |}, Ok tt)
  | Unprotect fr fc lr lc name pw =>
      if negb ((fr <? 1048576) && (fc <? 16384)) || negb ((lr <? 1048576) && (lc <? 16384)) then Some (p, Err PLimit)
      else if (lr <? fr) || (lc <? fc) then Some (p, Err POrder)
      else
        range <- cell_range m fr fc lr lc ;;
        let name' := match name with [] => lit "Range" ++ dec (1 + N.of_nat (length (unprotected_ranges p))) | _ => name end in
        Some ({| protection_on := protection_on p; protection_hash := protection_hash p;
                 protection_options := protection_options p;
                 unprotected_ranges := unprotected_ranges p ++ [(range, name', hash_password pw)] |}, Ok tt)
  end.
Fixpoint prot_run (m : ovf) (p : prot) (ops : list prot_op) : option prot :=
  match ops with [] => Some p | op :: r => x <- prot_step m p op ;; prot_run m (fst x) r end.

(** [if b { attributes.push((name, value)) }] *)
Definition when (b : bool) (name value : string) : list (str * str) := if b then [(lit name, lit value)] else [].

(** src/worksheet.rs 19507-19587: the attributes of [<sheetProtection>]. *)
Definition protection_attributes (is_chartsheet : bool) (p : prot) : list (str * str) :=
  let o := protection_options p in
  (if protection_hash p =? 0 then [] else [(lit "password", hex4 (protection_hash p))]) ++
  (if is_chartsheet then
     when (contents o) "content" "1" ++ when (edit_objects o) "objects" "1"
   else
     when true "sheet" "1" ++
     when (negb (edit_objects o)) "objects" "1" ++
     when (negb (edit_scenarios o)) "scenarios" "1" ++
     when (format_cells o) "formatCells" "0" ++
     when (format_columns o) "formatColumns" "0" ++
     when (format_rows o) "formatRows" "0" ++
     when (insert_columns o) "insertColumns" "0" ++
     when (insert_rows o) "insertRows" "0" ++
     when (insert_links o) "insertHyperlinks" "0" ++
     when (delete_columns o) "deleteColumns" "0" ++
     when (delete_rows o) "deleteRows" "0" ++
     when (negb (select_locked_cells o)) "selectLockedCells" "1" ++
     when (sort o) "sort" "0" ++
     when (use_autofilter o) "autoFilter" "0" ++
     when (use_pivot_tables o) "pivotTables" "0" ++
     when (negb (select_unlocked_cells o)) "selectUnlockedCells" "1").

(** src/worksheet.rs 17383-17391 and 17498-17506: which elements are written;
    19590-19612: the attributes of each [<protectedRange>]. *)
Definition write_protection (is_chartsheet : bool) (p : prot) : option (list (str * str)) * list (list (str * str)) :=
  (if protection_on p then Some (protection_attributes is_chartsheet p) else None,
   map (fun x => let '(range, name, hash) := x in
          (if hash =? 0 then [] else [(lit "password", hex4 hash)]) ++ [(lit "sqref", range); (lit "name", name)])
       (unprotected_ranges p)).
