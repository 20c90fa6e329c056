(** C37: widths and heights given in pixels are honoured. *)
From Verif Require Import Base F64 SMap Fmt_Model Ref_Model Cells_Model Sheet_Model Geom_Model Geom_Spec
  Cells_Spec Cells_Proofs Cells_Hist Opts_Frame Geom_Pixels.

(** Exhaustion of a 16-bit type: the kernel checks the statement for every
    value. *)
Fixpoint upto (n : nat) (k : N) : list N := match n with O => [] | S n => k :: upto n (k + 1) end.
Lemma in_upto n : forall k i, k <= i < k + N.of_nat n -> In i (upto n k).
Proof.
  induction n as [|n IH]; intros k i H; [lia|]. cbn [upto In].
  destruct (N.eq_dec k i) as [->|Hn]; [left; reflexivity|right]. apply IH. lia.
Qed.
Lemma every (P : N -> bool) a b : forallb P (upto (N.to_nat (b - a)) a) = true -> forall p, a <= p < b -> P p = true.
Proof. intros H p Hp. rewrite forallb_forall in H. apply H, in_upto. rewrite N2Nat.id. lia. Qed.

(** What store_column_width keeps of a width. *)
Definition cap (width : f64) : f64 := if fgt width (f_of_N 255) then f_of_N 255 else width.
(** 256 times the width written to the file, as an integer. *)
Definition written256 (width : f64) : N := f_to_u32 (fmul (col_width_out width false) (f_of_N 256)).
Definition feq_exact (a b : f64) : bool := match SFcompare a b with Some Eq => true | _ => false end.

Definition width_check (width : f64) (p : N) : bool :=
  negb (feq width fzero) && (width_pixels width =? p) && (stored_width_pixels (written256 width) =? p) &&
  feq_exact (col_width_out width false) (fdiv (f_of_N (written256 width)) (f_of_N 256)) &&
  negb (feq width DEFAULT_COL_WIDTH).
Lemma width_small : forallb (fun p => negb (fgt (pixels_to_width p) (f_of_N 255)) && width_check (pixels_to_width p) p) (upto (N.to_nat (1791 - 1)) 1) = true.
Proof. vm_cast_no_check (eq_refl true). Qed.
Lemma width_large p : 1791 <= p < 65536 -> fgt (pixels_to_width p) (f_of_N 255) = true.
Proof. exact (pixels_large p). Qed.
Lemma width_255 : width_check (f_of_N 255) 1790 = true.
Proof. vm_compute. reflexivity. Qed.
Lemma width_all p : 1 <= p < 65536 -> feq (pixels_to_width p) fzero = false /\ width_check (cap (pixels_to_width p)) (N.min p 1790) = true.
Proof.
  intros H. unfold cap. destruct (N.lt_ge_cases p 1791) as [Hs|Hl].
  - pose proof (every _ 1 1791 width_small p ltac:(lia)) as W. apply andb_true_iff in W. destruct W as [W1 W2].
    apply negb_true_iff in W1. rewrite W1, N.min_l by lia. split; [|exact W2].
    unfold width_check in W2. rewrite !andb_true_iff in W2. apply negb_true_iff. tauto.
  - pose proof (width_large p ltac:(lia)) as W. rewrite W, N.min_r by lia.
    split; [|exact width_255]. destruct (feq (pixels_to_width p) fzero) eqn:E; [exfalso|reflexivity].
    unfold fgt, flt, feq, SFltb, SFeqb in *. destruct (pixels_to_width p) as [s|s| |s m e]; try discriminate; destruct s; discriminate.
Qed.

Definition three_quarters : f64 := Eval vm_compute in f_dec 75 2.
Definition height_check (p : N) : bool :=
  let h := fmul three_quarters (f_of_N p) in
  negb (feq h fzero) && negb (fle h fzero) && (height_pixels h =? p) && feq_exact (fmul h (f_of_N 4)) (f_of_N (3 * p)).
Lemma height_all p : 1 <= p < 65536 -> height_check p = true.
Proof.
  intros H. destruct (pixel_height p H) as (A & B & C & D). unfold height_check. cbv zeta.
  change three_quarters with (f_dec 75 2). unfold feq_exact. rewrite A, B, C, D, N.eqb_refl. reflexivity.
Qed.

Lemma fzero_cap x : feq x fzero = false -> feq (cap x) fzero = false.
Proof. intros H. unfold cap. destruct (fgt x (f_of_N 255)); [reflexivity|exact H]. Qed.

Lemma check_split width p : width_check width p = true ->
  width_pixels width = p /\ stored_width_pixels (written256 width) = p /\
  feq_exact (col_width_out width false) (fdiv (f_of_N (written256 width)) (f_of_N 256)) = true /\
  feq width DEFAULT_COL_WIDTH = false.
Proof.
  unfold width_check. rewrite !andb_true_iff. intros ((((_ & A) & B) & C) & D).
  apply N.eqb_eq in A, B. apply negb_true_iff in D. auto.
Qed.

(** Setting a column's width in pixels (at least 1): the call succeeds, from then
    on the column counts as min(pixels, 1790) pixels wide (1790 = Excel's limit of
    255 characters) unless it was hidden before, the <col> width written for it is
    a whole number of 1/256 characters that denotes the same number of pixels, and
    no other column changes. *)
Theorem C37_column_pixels : forall w col pixels,
  col < 16384 -> 1 <= pixels < 65536 ->
  exists w', set_column_width_pixels w col pixels = (w', None) /\
    column_pixel_width w' true col = N.min pixels 1790 /\
    (exists o w256, get col (changed_cols w') = Some o /\
       c_hidden o = (match get col (changed_cols w) with Some o0 => c_hidden o0 | None => false end) /\
       feq_exact (col_width_out (c_width o) (c_hidden o)) (fdiv (f_of_N w256) (f_of_N 256)) = true /\
       stored_width_pixels w256 = N.min pixels 1790) /\
    (forall a k, k <> col -> column_pixel_width w' a k = column_pixel_width w a k).
Proof.
  intros w col p Hc Hp. destruct (width_all p Hp) as [Hz W].
  unfold set_column_width_pixels. cbn [step]. unfold set_column_width_internal. rewrite Hz.
  change COL_MAX with 16384. destruct (N.leb_spec 16384 col) as [|_]; [lia|].
  unfold store_column_width. fold (cap (pixels_to_width p)). cbv zeta. eexists. split; [reflexivity|].
  apply check_split in W. destruct W as (W1 & W2 & W3 & W4).
  assert (G : forall o, get col (ins col o (changed_cols w)) = Some o) by (intros o; rewrite get_ins, N.eqb_refl; reflexivity).
  split; [|split].
  - unfold column_pixel_width. cbn [changed_cols upd_cols]. rewrite G.
    destruct (get col (changed_cols w)) as [o|]; cbn [andb]; cbn [c_hidden c_width andb negb];
      rewrite ?andb_false_r; exact W1.
  - cbn [changed_cols upd_cols]. rewrite G. do 2 eexists. split; [reflexivity|].
    assert (K : forall h, col_width_out (cap (pixels_to_width p)) h = col_width_out (cap (pixels_to_width p)) false).
    { intros h. unfold col_width_out. rewrite W4. reflexivity. }
    destruct (get col (changed_cols w)) as [o|]; cbn [andb c_hidden c_width]; (split; [reflexivity|]); [rewrite K|]; eauto.
  - intros a k Hk. unfold column_pixel_width. cbn [changed_cols upd_cols]. rewrite get_ins.
    destruct (N.eqb_spec col k); [congruence|reflexivity].
Qed.

(** A width of 0 pixels hides the column. *)
Theorem C37_column_zero : forall w col, col < 16384 ->
  exists w', set_column_width_pixels w col 0 = (w', None) /\ column_pixel_width w' false col = 0.
Proof.
  intros w col Hc. unfold set_column_width_pixels. cbn [step]. unfold set_column_width_internal.
  change (feq (pixels_to_width 0) fzero) with true. unfold set_column_hidden. change COL_MAX with 16384.
  destruct (N.leb_spec 16384 col) as [|_]; [lia|]. eexists. split; [reflexivity|].
  unfold column_pixel_width. cbn [changed_cols upd_cols]. rewrite get_ins, N.eqb_refl. reflexivity.
Qed.

Lemma run_first_col ops : first_col (run ws_standard ops) <= 16384.
Proof. destruct (std_run ops ws_standard std_start) as [_ M0]. exact (m_fc _ _ M0). Qed.

(** Setting a row's height in pixels, after any history: stored exactly as 3/4
    points per pixel and counted as that many pixels; no other row changes. *)
Theorem C37_row_pixels : forall ops row pixels,
  row < 1048576 -> 1 <= pixels < 65536 ->
  let w := run ws_standard ops in
  exists w' o, set_row_height_pixels w row pixels = (w', None) /\
    get row (changed_rows w') = Some o /\
    r_hidden o = (match get row (changed_rows w) with Some o0 => r_hidden o0 | None => false end) /\
    feq_exact (fmul (r_height o) (f_of_N 4)) (f_of_N (3 * pixels)) = true /\
    row_pixel_height w' true row = pixels /\
    (forall a k, k <> row -> row_pixel_height w' a k = row_pixel_height w a k).
Proof.
  intros ops row p Hr Hp w. pose proof (run_first_col ops) as Hd. fold w in Hd. clearbody w.
  pose proof (height_all p Hp) as W. unfold height_check in W. cbv zeta in W.
  rewrite !andb_true_iff in W. destruct W as (((W1 & _) & W2) & W3). apply negb_true_iff in W1. apply N.eqb_eq in W2.
  unfold set_row_height_pixels. change (f_dec 75 2) with three_quarters. cbn [step]. unfold set_row_height. rewrite W1.
  set (h := fmul three_quarters (f_of_N p)) in *.
  assert (Hm : get_min_col w < 16384).
  { unfold get_min_col. change COL_MAX with 16384. destruct (N.eqb_spec (first_col w) 16384); lia. }
  pose proof (kept_cd w row (get_min_col w)) as K. destruct K as [K1 _ _ _ K2].
  destruct (check_dimensions w row (get_min_col w)) as [w1 b] eqn:E. cbn [fst] in *.
  assert (b = true) as ->.
  { unfold check_dimensions in E. change ROW_MAX with 1048576 in E. change COL_MAX with 16384 in E.
    destruct (N.leb_spec 1048576 row); [lia|]. destruct (N.leb_spec 16384 (get_min_col w)); [lia|].
    destruct (_ || _); congruence. }
  cbn [negb]. cbv zeta. do 2 eexists. split; [reflexivity|]. cbn [changed_rows upd_rows].
  rewrite get_ins, N.eqb_refl, K1. split; [reflexivity|].
  split; [destruct (get row (changed_rows w)); reflexivity|].
  split; [destruct (get row (changed_rows w)); exact W3|]. split.
  - unfold row_pixel_height. cbn [changed_rows upd_rows]. rewrite get_ins, N.eqb_refl.
    destruct (get row (changed_rows w)); cbn [r_hidden r_height new_row andb negb]; rewrite ?andb_false_r; exact W2.
  - intros a k Hk. unfold row_pixel_height. cbn [changed_rows upd_rows default_row_height]. rewrite get_ins.
    destruct (N.eqb_spec row k); [congruence|]. rewrite ?K1, ?K2. reflexivity.
Qed.

(** A hidden row or column: it counts as 0 pixels, except to an object placed "after
    hiding", to which it is as large as before; the others do not change. *)
Theorem C37_hidden_row : forall ops row, row < 1048576 ->
  let w := run ws_standard ops in
  exists w', step w (SetRowHidden row) = (w', None) /\
    row_pixel_height w' false row = 0 /\ row_pixel_height w' true row = row_pixel_height w true row /\
    (forall a k, k <> row -> row_pixel_height w' a k = row_pixel_height w a k).
Proof.
  intros ops row Hr w. pose proof (run_first_col ops) as Hd. fold w in Hd. clearbody w.
  cbn [step]. unfold set_row_hidden.
  assert (Hm : get_min_col w < 16384).
  { unfold get_min_col. change COL_MAX with 16384. destruct (N.eqb_spec (first_col w) 16384); lia. }
  pose proof (kept_cd w row (get_min_col w)) as K. destruct K as [K1 _ _ _ K2].
  destruct (check_dimensions w row (get_min_col w)) as [w1 b] eqn:E. cbn [fst] in *.
  assert (b = true) as ->.
  { unfold check_dimensions in E. change ROW_MAX with 1048576 in E. change COL_MAX with 16384 in E.
    destruct (N.leb_spec 1048576 row); [lia|]. destruct (N.leb_spec 16384 (get_min_col w)); [lia|].
    destruct (_ || _); congruence. }
  cbn [negb]. cbv zeta. eexists. split; [reflexivity|]. unfold row_pixel_height. cbn [changed_rows upd_rows].
  rewrite get_ins, N.eqb_refl, K1. split; [|split].
  - destruct (get row (changed_rows w)); reflexivity.
  - destruct (get row (changed_rows w)); cbn [r_hidden r_height new_row andb negb]; rewrite ?andb_false_r, ?K2; reflexivity.
  - intros a k Hk. cbn [default_row_height upd_rows]. rewrite get_ins. destruct (N.eqb_spec row k); [congruence|]. rewrite ?K1, ?K2. reflexivity.
Qed.
Theorem C37_hidden_column : forall w col, col < 16384 ->
  exists w', step w (SetColumnHidden col) = (w', None) /\
    column_pixel_width w' false col = 0 /\ column_pixel_width w' true col = column_pixel_width w true col /\
    (forall a k, k <> col -> column_pixel_width w' a k = column_pixel_width w a k).
Proof.
  intros w col Hc. cbn [step]. unfold set_column_hidden. change COL_MAX with 16384.
  destruct (N.leb_spec 16384 col) as [|_]; [lia|]. eexists. split; [reflexivity|].
  unfold column_pixel_width. cbn [changed_cols upd_cols]. rewrite get_ins, N.eqb_refl. split; [|split].
  - destruct (get col (changed_cols w)); reflexivity.
  - destruct (get col (changed_cols w)); cbn [c_hidden c_width andb negb]; rewrite ?andb_false_r; reflexivity.
  - intros a k Hk. rewrite get_ins. destruct (N.eqb_spec col k); [congruence|reflexivity].
Qed.

(** The default row height in pixels applies to every row without a height of
    its own; 0 is ignored. *)
Theorem C37_default_row_pixels : forall w pixels, pixels < 65536 ->
  exists w', set_default_row_height_pixels w pixels = (w', None) /\
    changed_rows w' = changed_rows w /\
    (pixels <> 0 -> forall a k, get k (changed_rows w) = None -> row_pixel_height w' a k = pixels) /\
    (pixels = 0 -> w' = w).
Proof.
  intros w p Hp. unfold set_default_row_height_pixels. change (f_dec 75 2) with three_quarters. cbn [step].
  destruct (N.eq_dec p 0) as [->|Hn].
  - exists w. repeat split; congruence.
  - pose proof (height_all p ltac:(lia)) as W. unfold height_check in W. cbv zeta in W.
    rewrite !andb_true_iff in W. destruct W as (((_ & W1) & W2) & _). apply negb_true_iff in W1. apply N.eqb_eq in W2.
    rewrite W1. eexists. split; [reflexivity|]. split; [reflexivity|]. split; [|congruence].
    intros _ a k G. unfold row_pixel_height. cbn [changed_rows upd_texts default_row_height]. rewrite G. exact W2.
Qed.

(** Columns never touched are 64 pixels wide, rows 20 pixels high. *)
Example C37_defaults : column_pixel_width ws_standard false 5 = 64 /\ row_pixel_height ws_standard false 7 = 20.
Proof. vm_compute. auto. Qed.
Example C37_example :
  let w := fst (set_column_width_pixels ws_standard 3 100) in
  column_pixel_width w false 3 = 100 /\
  map cd_width (cols_xml (fun i => i) (changed_cols w)) = [fdiv (f_of_N 3657) (f_of_N 256)] /\
  stored_width_pixels 3657 = 100.
Proof. vm_compute. auto. Qed.
