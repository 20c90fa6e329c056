(** Model of the workbook-wide format registry as the HashMap it is, of its
    two-section lock protocol under arbitrary thread schedules
    (src/worksheet.rs:15986-16040, src/workbook.rs:2518-2536) and of the merge of
    the worksheets' local registries when saving (src/workbook.rs:2047-2143). *)
From Coq Require Import Permutation.
From Verif Require Import Base Fmt_Model SortLib.

(** [HashMap<Format, u32>]: an association list, one entry per key, in the
    unspecified iteration order (src/workbook.rs:343, [xf_indices]). *)
Definition hmap := list (Format * N).
Fixpoint hm_get (m : hmap) (f : Format) : option N :=
  match m with [] => None | (g, i) :: r => if format_eqb g f then Some i else hm_get r f end.
(** [HashMap::insert]: replaces the value of an existing key. *)
Fixpoint hm_insert (m : hmap) (f : Format) (i : N) : hmap :=
  match m with [] => [(f, i)] | (g, j) :: r => if format_eqb g f then (g, i) :: r else (g, j) :: hm_insert r f i end.
Definition hm_len (m : hmap) : N := N.of_nat (length m).

(** A new workbook registers the default format: src/workbook.rs:423. *)
Definition hm_new : hmap := [(format_default, 0)].

(** ** The lock protocol.  A registration is two critical sections: a look-up
    under the read lock and, if it misses, an unconditional insertion under the
    write lock (src/worksheet.rs:15996-16014; the same text in
    src/workbook.rs:2518-2536).  Lock poisoning (a panic inside a critical
    section) does not occur: neither section can panic. *)
Definition read_section (m : hmap) (f : Format) : option N := hm_get m f.
Definition write_section (m : hmap) (f : Format) : hmap * N := (hm_insert m f (hm_len m), hm_len m).

(** One registration executed without interference. *)
Definition hm_register (m : hmap) (f : Format) : hmap * N :=
  match read_section m f with Some i => (m, i) | None => write_section m f end.

(** A thread filling a worksheet: the formats it still has to register, the
    format it missed in the read section (if it is between the two sections)
    and the indices it was given, which it stores in its cells. *)
Record thread := { todo : list Format; missed : option Format; got : list (Format * N) }.
Definition thread_new (fs : list Format) : thread := {| todo := fs; missed := None; got := [] |}.
Record world := { registry : hmap; threads : list thread }.

(** The next critical section of one thread. *)
Definition thread_step (m : hmap) (t : thread) : hmap * thread :=
  match missed t with
  | Some f => let (m', i) := write_section m f in
      (m', {| todo := todo t; missed := None; got := got t ++ [(f, i)] |})
  | None =>
      match todo t with
      | [] => (m, t)
      | f :: r =>
          match read_section m f with
          | Some i => (m, {| todo := r; missed := None; got := got t ++ [(f, i)] |})
          | None => (m, {| todo := r; missed := Some f; got := got t |})
          end
      end
  end.
Fixpoint set_nth {A} (n : nat) (x : A) (l : list A) : list A :=
  match n, l with
  | _, [] => []
  | O, _ :: r => x :: r
  | S k, y :: r => y :: set_nth k x r
  end.
(** The scheduler lets thread k run its next critical section. *)
Definition world_step (w : world) (k : nat) : world :=
  match nth_error (threads w) k with
  | None => w
  | Some t => let (m', t') := thread_step (registry w) t in {| registry := m'; threads := set_nth k t' (threads w) |}
  end.
Definition world_run (w : world) (schedule : list nat) : world := fold_left world_step schedule w.

(** ** Saving *)

(** src/workbook.rs:2109-2117: the formats of one worksheet, then of all. *)
Fixpoint register_list (m : hmap) (fs : list Format) : hmap * list N :=
  match fs with
  | [] => (m, [])
  | f :: r => let (m1, i) := hm_register m f in let (m2, is) := register_list m1 r in (m2, i :: is)
  end.
Fixpoint register_sheets (m : hmap) (sheets : list (list Format)) : hmap * list (list N) :=
  match sheets with
  | [] => (m, [])
  | s :: r => let (m1, is) := register_list m s in let (m2, iss) := register_sheets m1 r in (m2, is :: iss)
  end.
(** src/workbook.rs:2049-2056: a sheet that uses a hyperlink style makes the
    workbook register the hyperlink format first. *)
Definition register_hyperlink (m : hmap) (hyperlink_used : bool) : hmap :=
  if hyperlink_used then fst (hm_register m format_hyperlink) else m.
Definition save_registry (m : hmap) (hyperlink_used : bool) (sheets : list (list Format)) : hmap * list (list N) :=
  register_sheets (register_hyperlink m hyperlink_used) sheets.
(** src/workbook.rs:2130-2136: the keys in the order of their indices; [iter]
    is the order in which the HashMap yields its entries; [sort_by] is stable. *)
Definition xf_formats_of (iter : list (Format * N)) : list Format := map fst (sort_by (@snd Format N) iter).

(** src/worksheet.rs:16034-16040 for a worksheet with a local registry:
    [self.global_xf_indices[xf_index]].  Out of range Rust panics; the model
    answers u32::MAX and the theorems show that it does not happen. *)
Definition get_global_xf_index (global : list N) (i : N) : N := nth (N.to_nat i) global 4294967295.

(** ** The local registry of a worksheet: the vector [xf_formats] and the
    HashMap [xf_indices] (src/worksheet.rs:16018-16031).  [Cells_Model] keeps
    only the vector; [Props_Reg.C24_local_registry] shows that this is faithful. *)
Record local_registry := { formats : list Format; indices : hmap }.
Definition local_new : local_registry := {| formats := [format_default]; indices := hm_new |}.
Definition local_register (r : local_registry) (f : Format) : local_registry * N :=
  match hm_get (indices r) f with
  | Some i => (r, i)
  | None => let i := N.of_nat (length (formats r)) in
      ({| formats := formats r ++ [f]; indices := hm_insert (indices r) f i |}, i)
  end.
