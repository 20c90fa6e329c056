(** Model of src/shared_strings_table.rs and the ordering of
    src/shared_strings.rs:66-84. *)
From Verif Require Import Base SortLib Xml_Model.

(** src/shared_strings_table.rs:18-22; the HashMap is an association list with
    unique keys (its order is irrelevant to the theorems). u32 counters do not
    overflow: 2^32 references exceed any workbook the process can hold. *)
Record sst := { count : N; unique_count : N; strings : list (str * N) }.

Definition sst_new : sst := {| count := 0; unique_count := 0; strings := [] |}.  (* 30-36 *)

Fixpoint find_str (k : str) (l : list (str * N)) : option N :=
  match l with [] => None | (x, v) :: r => if str_eqb x k then Some v else find_str k r end.

(** src/shared_strings_table.rs:39-47. *)
Definition shared_string_index (t : sst) (key : str) : sst * N :=
  match find_str key (strings t) with
  | Some i => ({| count := count t + 1; unique_count := unique_count t; strings := strings t |}, i)
  | None => ({| count := count t + 1; unique_count := unique_count t + 1;
                strings := (key, unique_count t) :: strings t |}, unique_count t)
  end.

(** A history of writes: each call is made under the table's mutex, so any
    interleaving of worksheets (or threads) is a sequence of calls.  Returns the
    final table and the index handed to each call. *)
Fixpoint sst_run (t : sst) (keys : list str) : sst * list N :=
  match keys with
  | [] => (t, [])
  | k :: r => let '(t1, i) := shared_string_index t k in
              let '(t2, is) := sst_run t1 r in (t2, i :: is)
  end.

(** src/shared_strings.rs:69-73: the order in which strings are written, given
    the (arbitrary) HashMap iteration order [entries]. *)
Definition written_order (entries : list (str * N)) : list str := map fst (sort_by snd entries).

(** src/shared_strings.rs:66-84: the written <si> elements. *)
Definition write_sst_strings (entries : list (str * N)) : list (option str) :=
  map write_si (written_order entries).
