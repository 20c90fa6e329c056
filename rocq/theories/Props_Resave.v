(** C47: saving again. *)
From Verif Require Import Base Xml_Model Url_Model Book_Model Book_Proofs Pkg_Model Pkg_Spec Pkg_Names Pkg_Proofs Pkg_Proofs2 Pkg_Proofs3 Pkg_Proofs4 Pkg_Resave Props_Pkg.

(** The workbook after [n] further saves that all wrote [pkg]. *)
Fixpoint saves_all (m : ovf) (lower : str -> str) (n : nat) (pkg : package) (b b' : pbook) : Prop :=
  match n with
  | O => b' = b
  | S n' => exists b1, save_pkg m lower b = Some (b1, Saved pkg) /\ saves_all m lower n' pkg b1 b'
  end.

(** Whatever was done before (edits and successful saves in any order), once a
    workbook has been saved, saving it again, any number of times, succeeds and
    writes the same parts with the same contents. *)
Theorem C47_resave m lower b b' pkg : reach m lower b -> save_pkg m lower b = Some (b', Saved pkg) ->
  forall n, exists b'', saves_all m lower n pkg b' b''.
Proof.
  intros Hr Hs n. revert b b' Hr Hs. induction n as [|n IH]; intros b b' Hr Hs; [exists b'; reflexivity|].
  destruct (save_again m lower b b' pkg (reach_ok _ _ _ Hr) Hs) as (b1 & H1).
  destruct (IH b' b1 (reach_save _ _ _ _ _ Hr Hs) H1) as (b2 & H2). exists b2, b1. auto.
Qed.
Print Assumptions C47_resave.

(** A workbook with every kind of object; saving changes what it remembers. *)
Definition busy_sheet : usheet :=
  {| u_chartsheet := false; u_links := []; u_bg := Some {| im_hash := lit "11"; im_ext := Jpg; im_data := [1] |};
     u_images := [({| im_hash := lit "12"; im_ext := Png; im_data := [2] |}, None)];
     u_charts := [7]; u_shapes := [(8, None); (9, None)];
     u_notes := [{| nt_row := 1; nt_col := 2; nt_author := Some (lit "Zoe") |}; {| nt_row := 3; nt_col := 2; nt_author := Some (lit "Al") |}];
     u_buttons := [5]; u_hf := [{| im_hash := lit "12"; im_ext := Png; im_data := [2] |}];
     u_tables := [([], 1); (lit "Sales", 2)];
     u_embedded := [{| im_hash := lit "14"; im_ext := Bmp; im_data := [4] |}]; u_dynamic := true |}.
Example C47_resave_example : exists b' pkg,
  save_pkg Debug idf (new_book [busy_sheet; sheet0]) = Some (b', Saved pkg) /\
  map ps_h (w_sheets b') <> [hidden_new; hidden_new] /\ length pkg = 30%nat /\ exists b'', saves_all Debug idf 2 pkg b' b''.
Proof.
  destruct (saved_now [busy_sheet; sheet0] (fun b' pkg => match w_sheets b' with s :: _ => h_shape_pos (ps_h s) = 2 | [] => False end /\ length pkg = 30%nat)) as (b' & pkg & H & Hp & Hl).
  { vm_compute. auto. }
  exists b', pkg. split; [exact H|]. split; [|split; [exact Hl|apply (C47_resave _ _ _ _ _ (new_book_reach _ _ _) H)]].
  intros E. destruct (w_sheets b') as [|s r]; [contradiction|]. injection E as E _. rewrite E in Hp. discriminate.
Qed.

(** Finding: a save that fails leaves the notes and buttons prepared, so the next
    save, once the cause is removed (here: the missing worksheet named by a chart
    is added), lists every one of them twice. *)
Definition notes_written (pkg : package) : list (N * N) :=
  flat_map (fun x => match snd x with CVml v => map (fun k => (nt_row (snd k), nt_col (snd k))) (vd_notes v) | _ => [] end) pkg.
Definition shapes_written (pkg : package) : list (option N) :=
  flat_map (fun x => match snd x with CDrawing l => map fst (shapes_in l) | _ => [] end) pkg.
Definition with_chart_flag (b : pbook) (f : bool) : pbook :=
  {| w_sheets := w_sheets b; w_sst := w_sst b; w_vba := w_vba b; w_sig := w_sig b; w_custom := w_custom b; w_bags := w_bags b;
     w_bad_chart := f; w_bad_name := w_bad_name b |}.
Theorem C47_failed_save_refuted : let b := new_book [busy_sheet] in
  exists b1 b2 pkg b' pkg', 
    save_pkg Debug idf (with_chart_flag b true) = Some (b1, NotSaved EBadChartRange) /\
    save_pkg Debug idf (with_chart_flag b1 false) = Some (b2, Saved pkg) /\
    save_pkg Debug idf b = Some (b', Saved pkg') /\
    map ps_u (w_sheets b1) = map ps_u (w_sheets b) /\
    notes_written pkg' = [(1, 2); (3, 2)] /\ notes_written pkg = [(1, 2); (3, 2); (1, 2); (3, 2)].
Proof.
  cbv zeta.
  assert (H1 : exists b1, save_pkg Debug idf (with_chart_flag (new_book [busy_sheet]) true) = Some (b1, NotSaved EBadChartRange) /\
    map ps_u (w_sheets b1) = [busy_sheet] /\
    match save_pkg Debug idf (with_chart_flag b1 false) with Some (_, Saved pkg) => notes_written pkg = [(1, 2); (3, 2); (1, 2); (3, 2)] | _ => False end).
  { exists (match save_pkg Debug idf (with_chart_flag (new_book [busy_sheet]) true) with Some (x, _) => x | None => new_book [] end).
    split; [vm_compute; reflexivity|]. first [split; vm_compute; reflexivity|vm_compute; reflexivity]. }
  destruct H1 as (b1 & E1 & U1 & M1).
  destruct (save_pkg Debug idf (with_chart_flag b1 false)) as [[b2 [pkg|]]|] eqn:E2; [|contradiction..].
  destruct (saved_now [busy_sheet] (fun _ pkg => notes_written pkg = [(1, 2); (3, 2)])) as (b' & pkg' & E3 & M3); [vm_compute; reflexivity|].
  exists b1, b2, pkg, b', pkg'. auto 8.
Qed.
Print Assumptions C47_failed_save_refuted.

(** Finding: likewise for shapes.  A shape added after the failed save is not
    drawn: the first shape is drawn in its place. *)
Definition add_shape (b : pbook) (x : N) : pbook :=
  with_sheets b (map (fun s => {| ps_u := let u := ps_u s in
     {| u_chartsheet := u_chartsheet u; u_links := u_links u; u_bg := u_bg u; u_images := u_images u; u_charts := u_charts u;
        u_shapes := u_shapes u ++ [(x, None)]; u_notes := u_notes u; u_buttons := u_buttons u; u_hf := u_hf u; u_tables := u_tables u;
        u_embedded := u_embedded u; u_dynamic := u_dynamic u |}; ps_h := ps_h s |}) (w_sheets b)).
Theorem C47_failed_save_shapes_refuted : let b := new_book [busy_sheet] in
  exists b1 b2 pkg b' pkg',
    save_pkg Debug idf (with_chart_flag b true) = Some (b1, NotSaved EBadChartRange) /\
    save_pkg Debug idf (add_shape (with_chart_flag b1 false) 10) = Some (b2, Saved pkg) /\
    save_pkg Debug idf (add_shape b 10) = Some (b', Saved pkg') /\
    shapes_written pkg' = [Some 8; Some 9; Some 10] /\ shapes_written pkg = [Some 8; Some 9; Some 8].
Proof.
  cbv zeta.
  assert (H1 : exists b1, save_pkg Debug idf (with_chart_flag (new_book [busy_sheet]) true) = Some (b1, NotSaved EBadChartRange) /\
    match save_pkg Debug idf (add_shape (with_chart_flag b1 false) 10) with Some (_, Saved pkg) => shapes_written pkg = [Some 8; Some 9; Some 8] | _ => False end).
  { exists (match save_pkg Debug idf (with_chart_flag (new_book [busy_sheet]) true) with Some (x, _) => x | None => new_book [] end).
    split; [vm_compute; reflexivity|]. first [split; vm_compute; reflexivity|vm_compute; reflexivity]. }
  destruct H1 as (b1 & E1 & M1).
  destruct (save_pkg Debug idf (add_shape (with_chart_flag b1 false) 10)) as [[b2 [pkg|]]|] eqn:E2; [|contradiction..].
  destruct (save_pkg Debug idf (add_shape (new_book [busy_sheet]) 10)) as [[b' [pkg'|]]|] eqn:E3; [|vm_compute in E3; discriminate..].
  assert (M3 : shapes_written pkg' = [Some 8; Some 9; Some 10]).
  { apply (f_equal (fun o => match o with Some (_, Saved p) => shapes_written p | _ => [] end)) in E3. cbn [fst snd] in E3. rewrite <- E3. vm_compute. reflexivity. }
  exists b1, b2, pkg, b', pkg'. auto 8.
Qed.
Print Assumptions C47_failed_save_shapes_refuted.
