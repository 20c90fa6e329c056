(** C36: drawn objects are anchored at the pixel position asked for, with the
    size asked for. *)
From Coq Require Import Reals Lra Psatz.
From Flocq Require Import Core.
From Verif Require Import Base F64 F64_Proofs SMap Fmt_Model Ref_Model Ref_Proofs Cells_Model Sheet_Model Sheet_Proofs2 Sheet_Proofs3
  Geom_Model Geom_Spec Geom_Proofs Geom_Proofs2 Geom_Proofs3.
Local Open Scope R_scope.

(** *** Specification *)
Definition pix (n : N) : R := IZR (Z.of_N n).
(** An object that starts [offset] pixels after the beginning of cell [start]
    and is [len] pixels long, given by two anchors (a cell and an offset inside
    it): the first anchor is the start, the second the end.  The end is computed
    with one f64 addition: it is exact for a whole number of pixels and otherwise
    wrong by less than a millionth of a pixel. *)
Record spans (size : N -> N) (start offset : N) (len : R) (c1 : N) (x1 : R) (c2 : N) (x2 : R) : Prop := {
  sp_in1 : 0 <= x1 < pix (size c1);
  sp_from : pix (edge size c1) + x1 = pix (edge size start) + pix offset;
  sp_in2 : 0 <= x2 < pix (size c2);
  sp_to : Rabs (pix (edge size c2) + x2 - (pix (edge size start) + pix offset + len)) < / 1000000;
  sp_exact : forall z, len = IZR z -> pix (edge size c2) + x2 = pix (edge size start) + pix offset + len
}.

Lemma width_pixels_lim x : (width_pixels x < 4294967301)%N.
Proof.
  assert (U : forall y, (f_to_u32 y <= 4294967295)%N).
  { intros y. destruct y as [|[]| |[] m e]; cbn [f_to_u32]; lia. }
  unfold width_pixels. destruct (flt x (f_of_N 1)); [specialize (U (fround (fmul x (fadd (f_of_N 7) (f_of_N 5)))))|specialize (U (fround (fmul x (f_of_N 7))))]; lia.
Qed.
Lemma height_pixels_lim x : (height_pixels x < 4294967301)%N.
Proof.
  unfold height_pixels. destruct (fdiv _ _) as [|[]| |[] m e]; cbn [f_to_u32]; lia.
Qed.
Lemma col_size_lim w a c : (column_pixel_width w a c < 4294967301)%N.
Proof. unfold column_pixel_width. destruct (get c (changed_cols w)) as [o|]; [|lia]. destruct (_ && _); [lia|apply width_pixels_lim]. Qed.
Lemma row_size_lim w a c : (row_pixel_height w a c < 4294967301)%N.
Proof. unfold row_pixel_height. destruct (get c (changed_rows w)) as [o|]; [|apply height_pixels_lim]. destruct (_ && _); [lia|apply height_pixels_lim]. Qed.

Lemma axis_spans limit L D size start offset len X P nmax :
  (1 <= D)%N -> (forall c, (L <= c)%N -> size c = D) -> (forall c, (size c < 4294967301)%N) ->
  frep len X -> 0 <= X -> X + pix offset <= pix P -> (P < D * (nmax + 1))%N -> (P <= 2147483648)%N ->
  (start < L)%N -> (L + nmax + nmax + 1 < limit)%N ->
  exists c1 x1 c2 x2 R2,
    u32_walk (guarded limit) size start offset c1 x1 /\
    f64_walk (guarded limit) size c1 (fadd len (f_of_N x1)) c2 x2 /\ (x1 < 4294967301)%N /\
    frep x2 R2 /\ spans size start offset X c1 (pix x1) c2 R2.
Proof.
  intros HD Htail Hsize Hlen H0 HP Hn Hp Hs Hl.
  destruct (axis limit L D size start offset len X P nmax HD Htail Hsize Hlen H0 HP Hn ltac:(lia) Hs Hl) as (c1 & x1 & c2 & x2 & R2 & W1 & W2 & (A1 & A2 & A3) & F & B & E).
  exists c1, x1, c2, x2, R2. split; [exact W1|]. split; [exact W2|]. split; [specialize (Hsize c1); lia|]. split; [exact F|].
  unfold pix in *. assert (Hx : 0 <= IZR (Z.of_N x1) <= IZR (Z.of_N offset)) by (split; apply IZR_le; lia).
  assert (A2' : IZR (Z.of_N (edge size c1)) + IZR (Z.of_N x1) = IZR (Z.of_N (edge size start)) + IZR (Z.of_N offset)).
  { rewrite <- !plus_IZR, <- !N2Z.inj_add, A2. reflexivity. }
  assert (HP2 : IZR (Z.of_N P) <= bpow radix2 31).
  { replace (bpow radix2 31) with (IZR 2147483648) by reflexivity. apply IZR_le. lia. }
  assert (Hb : Rabs (X + IZR (Z.of_N x1)) <= bpow radix2 31) by (rewrite Rabs_pos_eq; lra).
  assert (Q : forall z, X = IZR z -> rnd (X + IZR (Z.of_N x1)) = X + IZR (Z.of_N x1)).
  { intros z ->. rewrite <- plus_IZR. apply rnd_int. rewrite <- plus_IZR in Hb.
    replace (bpow radix2 31) with (IZR 2147483648) in Hb by reflexivity. rewrite <- abs_IZR in Hb. apply le_IZR in Hb. lia. }
  split; unfold pix.
  - split; [apply IZR_le; lia|apply IZR_lt; lia].
  - exact A2'.
  - exact B.
  - rewrite E. replace (IZR (Z.of_N (edge size c1)) + rnd (X + IZR (Z.of_N x1)) - (IZR (Z.of_N (edge size start)) + IZR (Z.of_N offset) + X))
      with (rnd (X + IZR (Z.of_N x1)) - (X + IZR (Z.of_N x1))) by lra.
    eapply Rle_lt_trans; [apply (rnd_err _ 31); [lia|exact Hb]|]. change (31 - 53)%Z with (-22)%Z.
    change (bpow radix2 (-22)) with (/ IZR 4194304). apply Rinv_lt_contravar; lra.
  - intros z Hz. rewrite E, (Q z Hz). lra.
Qed.

(** C36.  For every worksheet made by any history of calls whose default row is
    at least one pixel high, and every object whose position fits in the sheet
    and whose offset plus size is at most 1,500,000 pixels across and
    2,000,000,000 down: the positioning ends (it neither loops forever nor
    overflows, in debug and in release builds), with one result, whose two
    anchors are the left top and the right bottom corner, in cells that contain
    them, and which records the absolute position of the corner and the size. *)
Theorem C36_anchors_partial lower cmem inl gsst regs t ops s m after row col x_offset y_offset width height W H :
  srun lower (sheet_new (ws_new cmem inl gsst regs t)) ops = Some s ->
  let w := cells s in
  (1 <= height_pixels (default_row_height w))%N ->
  (row < 1048576)%N -> (col < 16384)%N ->
  frep width W -> 0 <= W -> W + pix x_offset <= 1500000 ->
  frep height H -> 0 <= H -> H + pix y_offset <= 2000000000 ->
  (edge (column_pixel_width w after) col + x_offset < 4294967296)%N ->
  (edge (row_pixel_height w after) row + y_offset < 4294967296)%N ->
  exists p,
    position_object_pixels m w after row col x_offset y_offset width height p /\
    (forall q, position_object_pixels m w after row col x_offset y_offset width height q -> q = p) /\
    (exists x1 x2, frep (co_x (p_from p)) x1 /\ frep (co_x (p_to p)) x2 /\
       spans (column_pixel_width w after) col x_offset W (co_col (p_from p)) x1 (co_col (p_to p)) x2) /\
    (exists y1 y2, frep (co_y (p_from p)) y1 /\ frep (co_y (p_to p)) y2 /\
       spans (row_pixel_height w after) row y_offset H (co_row (p_from p)) y1 (co_row (p_to p)) y2) /\
    p_abs_x p = (edge (column_pixel_width w after) col + x_offset)%N /\
    p_abs_y p = (edge (row_pixel_height w after) row + y_offset)%N /\
    p_width p = width /\ p_height p = height.
Proof.
  intros Hrun w HD Hrow Hcol HW W0 WP HH H0 HP Hax Hay.
  pose proof (opts_run lower ops _ _ (opts_new cmem inl gsst regs t) Hrun) as [OC OR].
  assert (RL : rows_lim w).
  { apply (lim_run lower ops _ _ (opts_new cmem inl gsst regs t)) in Hrun; [exact Hrun|]. intros r o. cbn. discriminate. }
  destruct (axis_spans 65536 16384 64 (column_pixel_width w after) col x_offset width W 1500000 24000) as (c1 & x1 & c2 & x2 & X2 & A1 & A2 & A3 & A4 & A5);
    [lia| |apply col_size_lim|exact HW|exact W0|unfold pix at 2; cbn [Z.of_N]; lra|lia|lia|exact Hcol|lia|].
  { intros c Hc. unfold column_pixel_width. destruct (get c (changed_cols w)) as [o|] eqn:G; [|reflexivity]. apply (cc_lim w OC) in G. lia. }
  destruct (axis_spans 4294967296 1048576 (height_pixels (default_row_height w)) (row_pixel_height w after) row y_offset height H 2000000000 2000000000)
    as (r1 & y1 & r2 & y2 & Y2 & B1 & B2 & B3 & B4 & B5);
    [exact HD| |apply row_size_lim|exact HH|exact H0|unfold pix at 2; cbn [Z.of_N]; lra|lia|lia|exact Hrow|lia|].
  { intros c Hc. unfold row_pixel_height. destruct (get c (changed_rows w)) as [o|] eqn:G; [|reflexivity]. apply RL in G. lia. }
  pose proof (walk_mono _ _ _ _ _ _ _ _ _ (guarded_col m) A1) as A1'.
  pose proof (walk_mono _ _ _ _ _ _ _ _ _ (guarded_col m) A2) as A2'.
  pose proof (walk_mono _ _ _ _ _ _ _ _ _ (guarded_row m) B1) as B1'.
  pose proof (walk_mono _ _ _ _ _ _ _ _ _ (guarded_row m) B2) as B2'.
  eexists. split; [apply Positioned; [apply absolute_ok; exact Hax|apply absolute_ok; exact Hay|exact A1'|exact B1'|exact A2'|exact B2']|].
  split.
  { intros q Hq. inversion Hq as [xa ya cs x1' rs y1' ce x2' re y2' E1 E2 V1 V2 V3 V4 Eq].
    rewrite absolute_ok in E1 by exact Hax. rewrite absolute_ok in E2 by exact Hay.
    destruct (walk_det _ _ _ _ _ _ _ _ _ _ A1' V1) as [-> ->]. destruct (walk_det _ _ _ _ _ _ _ _ _ _ B1' V2) as [-> ->].
    destruct (walk_det _ _ _ _ _ _ _ _ _ _ A2' V3) as [-> ->]. destruct (walk_det _ _ _ _ _ _ _ _ _ _ B2' V4) as [-> ->].
    congruence. }
  cbn [p_from p_to co_col co_row co_x co_y p_abs_x p_abs_y p_width p_height].
  split. { exists (pix x1), X2. split; [apply f_of_N_rep; lia|]. split; [exact A4|exact A5]. }
  split. { exists (pix y1), Y2. split; [apply f_of_N_rep; lia|]. split; [exact B4|exact B5]. }
  repeat split.
Qed.

(** The drawing part stores offsets in EMUs (9525 per pixel): for a whole number
    of pixels, the conversion is exact and the end anchor is exact, too. *)
Theorem C36_emus_partial lower cmem inl gsst regs t ops s m after row col x_offset y_offset wd ht p :
  srun lower (sheet_new (ws_new cmem inl gsst regs t)) ops = Some s ->
  let w := cells s in
  (1 <= height_pixels (default_row_height w))%N ->
  (row < 1048576)%N -> (col < 16384)%N ->
  (wd + x_offset <= 1500000)%N -> (ht + y_offset <= 2000000000)%N ->
  (edge (column_pixel_width w after) col + x_offset < 4294967296)%N ->
  (edge (row_pixel_height w after) row + y_offset < 4294967296)%N ->
  position_object_pixels m w after row col x_offset y_offset (f_of_N wd) (f_of_N ht) p ->
  let q := to_emus p in
  let cs := column_pixel_width w after in let rs := row_pixel_height w after in
  exists x1 x2 y1 y2 : N,
    frep (co_x (p_from q)) (pix (9525 * x1)) /\ frep (co_x (p_to q)) (pix (9525 * x2)) /\
    frep (co_y (p_from q)) (pix (9525 * y1)) /\ frep (co_y (p_to q)) (pix (9525 * y2)) /\
    (x1 < cs (co_col (p_from q)) /\ x2 < cs (co_col (p_to q)) /\ y1 < rs (co_row (p_from q)) /\ y2 < rs (co_row (p_to q)))%N /\
    (edge cs (co_col (p_from q)) + x1 = edge cs col + x_offset)%N /\
    (edge cs (co_col (p_to q)) + x2 = edge cs col + x_offset + wd)%N /\
    (edge rs (co_row (p_from q)) + y1 = edge rs row + y_offset)%N /\
    (edge rs (co_row (p_to q)) + y2 = edge rs row + y_offset + ht)%N /\
    p_abs_x q = (9525 * (edge cs col + x_offset))%N /\ p_abs_y q = (9525 * (edge rs row + y_offset))%N /\
    frep (p_width q) (pix (9525 * wd)) /\ frep (p_height q) (pix (9525 * ht)).
Proof.
  intros Hrun w HD Hrow Hcol HW HH Hax Hay Hp q cs rs.
  assert (Fw : frep (f_of_N wd) (pix wd)) by (apply f_of_N_rep; lia).
  assert (Fh : frep (f_of_N ht) (pix ht)) by (apply f_of_N_rep; lia).
  destruct (C36_anchors_partial lower cmem inl gsst regs t ops s m after row col x_offset y_offset (f_of_N wd) (f_of_N ht) (pix wd) (pix ht) Hrun HD Hrow Hcol Fw)
    as (p' & _ & Hu & (X1 & X2 & FX1 & FX2 & SX) & (Y1 & Y2 & FY1 & FY2 & SY) & EX & EY & EW & EH); try assumption.
  { unfold pix. apply IZR_le. lia. }
  { unfold pix. rewrite <- plus_IZR. apply IZR_le. lia. }
  { unfold pix. apply IZR_le. lia. }
  { unfold pix. rewrite <- plus_IZR. apply IZR_le. lia. }
  rewrite <- (Hu p Hp) in *. clear p' Hu.
  assert (Whole : forall a b c X, pix a + X = pix b + pix c -> 0 <= X -> exists x : N, X = pix x /\ (a + x = b + c)%N).
  { unfold pix. intros a b c X E HX. assert (EX' : X = IZR (Z.of_N b + Z.of_N c - Z.of_N a)).
    { rewrite minus_IZR, plus_IZR. lra. }
    rewrite EX' in HX. apply le_IZR in HX. exists (Z.to_N (Z.of_N b + Z.of_N c - Z.of_N a)). rewrite Z2N.id by lia. split; [exact EX'|lia]. }
  assert (Fld : forall a b, pix a + pix b = pix (a + b)) by (intros; unfold pix; rewrite <- plus_IZR, N2Z.inj_add; reflexivity).
  assert (Lt : forall a b, pix a < pix b -> (a < b)%N) by (intros a b Hab; apply lt_IZR in Hab; lia).
  destruct SX as [SX1 SX2 SX3 _ SX4]. destruct SY as [SY1 SY2 SY3 _ SY4].
  specialize (SX4 _ eq_refl). specialize (SY4 _ eq_refl).
  destruct (Whole _ _ _ _ SX2 (proj1 SX1)) as (x1 & -> & E1). destruct (Whole _ _ _ _ SY2 (proj1 SY1)) as (y1 & -> & E3).
  rewrite Fld in SX4, SY4. destruct (Whole _ _ _ _ SX4 (proj1 SX3)) as (x2 & -> & E2). destruct (Whole _ _ _ _ SY4 (proj1 SY3)) as (y2 & -> & E4).
  pose proof (col_size_lim w after (co_col (p_from p))) as L1. pose proof (col_size_lim w after (co_col (p_to p))) as L2.
  pose proof (row_size_lim w after (co_row (p_from p))) as L3. pose proof (row_size_lim w after (co_row (p_to p))) as L4.
  assert (Emu : forall x n, frep x (pix n) -> (n < 4294967301)%N -> frep (round_to_emus x) (pix (9525 * n))).
  { intros x n Hx Hn. unfold pix. rewrite N2Z.inj_mul. apply emus_int; [exact Hx|lia]. }
  destruct SX1 as [_ SX1]. destruct SX3 as [_ SX3]. destruct SY1 as [_ SY1]. destruct SY3 as [_ SY3].
  apply Lt in SX1, SX3, SY1, SY3.
  exists x1, x2, y1, y2. unfold q, to_emus, emu_coords. cbn [p_from p_to co_col co_row co_x co_y p_abs_x p_abs_y p_width p_height].
  subst cs rs w. cbv zeta in *.
  repeat split; try assumption; try (apply Emu; [assumption|lia]); try (rewrite EX; lia); try (rewrite EY; lia).
  - rewrite EW. apply Emu; [exact Fw|lia].
  - rewrite EH. apply Emu; [exact Fh|lia].
Qed.

(** *** The hypotheses are met: a sheet with a wide, a hidden and a narrow column
    and a tall row, and an object that starts and ends inside other cells. *)
Local Open Scope N_scope.
Definition shaped : list sop :=
  [SCell (SetColumnWidth 1 (pixels_to_width 200) false); SCell (SetColumnHidden 2); SCell (SetColumnWidth 3 (pixels_to_width 10) false);
   SCell (SetRowHeight 4 (f_of_N 60))].
Example shaped_runs :
  exists s, srun (fun x => x) (sheet_new (ws_new false false true [] (Sst_Model.sst_new))) shaped = Some s /\
    height_pixels (default_row_height (cells s)) = 20 /\
    map (column_pixel_width (cells s) false) [0; 1; 2; 3; 4] = [64; 200; 0; 10; 64] /\
    map (row_pixel_height (cells s) false) [3; 4; 5] = [20; 80; 20] /\
    edge (column_pixel_width (cells s) false) 4 = 274 /\ edge (row_pixel_height (cells s) false) 5 = 160.
Proof. eexists. split; [vm_compute; reflexivity|]. vm_compute. repeat split. Qed.
Example shaped_object :
  exists s p, srun (fun x => x) (sheet_new (ws_new false false true [] (Sst_Model.sst_new))) shaped = Some s /\
    position_object_pixels Release (cells s) false 3 0 70 25 (f_of_N 200) (f_of_N 90) p /\
    co_col (p_from p) = 1 /\ co_col (p_to p) = 3 /\ co_row (p_from p) = 4 /\ co_row (p_to p) = 5.
Proof.
  eexists. eexists. split; [vm_compute; reflexivity|]. split.
  - eapply Positioned; unfold u32_walk, f64_walk.
    + vm_compute. reflexivity.
    + vm_compute. reflexivity.
    + eapply walk_next; [vm_compute; reflexivity|vm_compute; reflexivity|]. eapply walk_stop. vm_compute. reflexivity.
    + eapply walk_next; [vm_compute; reflexivity|vm_compute; reflexivity|]. eapply walk_stop. vm_compute. reflexivity.
    + eapply walk_next; [vm_compute; reflexivity|vm_compute; reflexivity|]. eapply walk_next; [vm_compute; reflexivity|vm_compute; reflexivity|].
      eapply walk_stop. vm_compute. reflexivity.
    + eapply walk_next; [vm_compute; reflexivity|vm_compute; reflexivity|]. eapply walk_stop. vm_compute. reflexivity.
  - repeat split.
Qed.

(** *** What is refuted *)
(** With a default row height of half a point (0 pixels), no object can be
    positioned: the loop over the rows never ends. *)
Definition flat_rows : list sop := [SCell (SetDefaultRowHeight (f_dec 5 1))].
Theorem C36_zero_default_height_refuted :
  exists s, srun (fun x => x) (sheet_new (ws_new false false true [] (Sst_Model.sst_new))) flat_rows = Some s /\
    forall m after row col x y width height p, ~ position_object_pixels m (cells s) after row col x y width height p.
Proof.
  eexists. split; [vm_compute; reflexivity|]. intros m after row col x y width height p Hp.
  inversion Hp as [xa ya cs x1' rs y1' ce x2' re y2' E1 E2 V1 V2 V3 V4 Eq]. clear - V2.
  unfold u32_walk in V2. induction V2 as [c z Hz|c z c1 c2 z2 Hz Hn V IH]; [|exact IH].
  assert (S : forall r, row_pixel_height (cells (with_cells (sheet_new (ws_new false false true [] Sst_Model.sst_new))
                (fst (step (ws_new false false true [] Sst_Model.sst_new) (SetDefaultRowHeight (f_dec 5 1)))))) after r = 0).
  { intros r. vm_compute. reflexivity. }
  match type of Hz with (?a <=? _) = false => change a with (row_pixel_height (cells (with_cells (sheet_new (ws_new false false true [] Sst_Model.sst_new))
                (fst (step (ws_new false false true [] Sst_Model.sst_new) (SetDefaultRowHeight (f_dec 5 1)))))) after c) in Hz end.
  rewrite S in Hz. apply N.leb_gt in Hz. lia.
Qed.
(** The anchor is not kept inside the sheet: an offset of one column width in the
    last column puts it into a column that does not exist. *)
Theorem C36_beyond_last_column_refuted :
  exists p, position_object_pixels Release (ws_new false false true [] (Sst_Model.sst_new)) false 0 16383 64 0 (f_of_N 10) (f_of_N 10) p /\
    co_col (p_from p) = 16384.
Proof.
  eexists. split.
  - eapply Positioned; unfold u32_walk, f64_walk.
    + vm_compute. reflexivity.
    + vm_compute. reflexivity.
    + eapply walk_next; [vm_compute; reflexivity|vm_compute; reflexivity|]. eapply walk_stop. vm_compute. reflexivity.
    + eapply walk_stop. vm_compute. reflexivity.
    + eapply walk_stop. vm_compute. reflexivity.
    + eapply walk_stop. vm_compute. reflexivity.
  - reflexivity.
Qed.
