(** Independent statements about worksheet protection. *)
From Verif Require Import Base Prot_Model.

(** Rotation of a 15-bit word to the left by [k] places. *)
Definition rot15 (k : nat) (x : N) : N :=
  let k := N.of_nat k mod 15 in N.lor (N.shiftl x k mod 2 ^ 15) (N.shiftr x (15 - k)).

(** The legacy verifier as documented for the XLS/XLSX password record: the XOR of
    the constant 0xCE4B, the length, and each byte rotated by its (1-based) position. *)
Fixpoint xor_rotated (i : nat) (bytes : list N) : N :=
  match bytes with [] => 0 | b :: r => N.lxor (rot15 i b) (xor_rotated (S i) r) end.
Definition legacy_verifier (bytes : list N) : N :=
  N.lxor 0xCE4B (N.lxor (N.of_nat (length bytes) mod 2 ^ 16) (xor_rotated 1 bytes)).

(** Reading a hexadecimal number. *)
Definition hex_value (c : N) : N := if c <? 65 then c - 48 else c - 55.
Definition of_hex (s : str) : N := fold_left (fun a c => 16 * a + hex_value c) s 0.

(** Reading a boolean XML attribute with its schema default. *)
Definition attr_on (attrs : list (str * str)) (name : string) (default : bool) : bool :=
  match find (fun a => str_eqb (fst a) (lit name)) attrs with
  | Some a => str_eqb (snd a) (lit "1") | None => default end.
Definition attr (attrs : list (str * str)) (name : string) : option str :=
  option_map snd (find (fun a => str_eqb (fst a) (lit name)) attrs).

(** ECMA-376 18.3.1.85: attribute, its default, and the user's permission it
    locks.  A protected sheet forbids an action when the attribute is true. *)
Definition worksheet_locks : list (string * bool * (prot_options -> bool)) :=
  [("objects", false, edit_objects); ("scenarios", false, edit_scenarios);
   ("formatCells", true, format_cells); ("formatColumns", true, format_columns); ("formatRows", true, format_rows);
   ("insertColumns", true, insert_columns); ("insertRows", true, insert_rows); ("insertHyperlinks", true, insert_links);
   ("deleteColumns", true, delete_columns); ("deleteRows", true, delete_rows);
   ("selectLockedCells", false, select_locked_cells); ("sort", true, sort); ("autoFilter", true, use_autofilter);
   ("pivotTables", true, use_pivot_tables); ("selectUnlockedCells", false, select_unlocked_cells)]%string.

(** What the history of calls asks for: the last options, the last password, the
    accepted ranges in order. *)
Definition last_options (ops : list prot_op) : prot_options :=
  fold_left (fun o op => match op with ProtectOptions o' => o' | _ => o end) ops prot_options_new.
Definition last_password (ops : list prot_op) : str :=
  fold_left (fun s op => match op with ProtectPassword s' => s' | _ => s end) ops [].
Definition protects (op : prot_op) : bool := match op with Unprotect _ _ _ _ _ _ => false | _ => true end.
Definition in_sheet (r c : N) : Prop := r < 1048576 /\ c < 16384.
Definition good_range (op : prot_op) : bool := match op with
  | Unprotect fr fc lr lc _ _ => (fr <=? lr) && (fc <=? lc) && (lr <? 1048576) && (lc <? 16384) | _ => false end.
