(** C69: sparklines. *)
From Verif Require Import Base F64 Ref_Model Ref_Spec Ref_Proofs Quote_Proofs Xml_Model Xml_Spec Xml_Proofs Xml_Read Xml_Read_Proofs Xml_Tree Fmt_Model Rich_Model Rich_Proofs
  Cells_Model SheetXml_Spec SheetXml_Proofs SheetXml_Proofs3 Doc_Spec Doc_Model Props_Doc View_Model View_Spec Setup_Spec Part_Model Tag_Proofs Part_Proofs
  Props_Part View_Hist Part_Groups DV_Model DV_Spec DV_Proofs Props_DV CF_Spec CF_Read Props_TablePart Color_Spec Color_Proofs Spark_Model Spark_Spec.
From Coq Require Import Bool.

(** ** The builder *)
Lemma spoint_eqb_same a b : spoint_eqb a b = same_point a b.
Proof. destruct a, b; reflexivity. Qed.
Definition named_ok (c : Color) : Prop := match c with CNamed n => n < 16 | _ => True end.
Definition op_named (o : spark_op) : Prop := match o with SSeriesColor c | SPointColor _ c => named_ok c | _ => True end.
Lemma real_valid c : named_ok c -> color_valid c = real_color c.
Proof.
  destruct c as [n|t s| | |n]; cbn [named_ok color_valid real_color]; intros H; try reflexivity.
  - apply eq_true_iff_eq. rewrite negb_true_iff, N.ltb_ge, N.leb_le. reflexivity.
  - apply eq_true_iff_eq. rewrite !andb_true_iff, !negb_true_iff, !N.ltb_ge, !N.leb_le. reflexivity.
  - symmetry. apply N.ltb_lt. exact H.
Qed.
Lemma style_rows n : match style_row n with
  | Some (lo, hg, la, fi, ma, ne, sr) =>
      style_color n None = Some sr /\ style_color n (Some PLow) = Some lo /\ style_color n (Some PHigh) = Some hg /\ style_color n (Some PLast) = Some la /\
      style_color n (Some PFirst) = Some fi /\ style_color n (Some PMarkers) = Some ma /\ style_color n (Some PNegative) = Some ne
  | None => forall p, style_color n p = None
  end.
Proof.
  destruct (N.ltb_spec n 37) as [H|H].
  - assert (I : In (N.to_nat n) (seq 0 37)) by (apply in_seq; lia). rewrite <- (N2Nat.id n). clear H. cbn [seq In] in I.
    repeat (destruct I as [<-|I]; [vm_compute; intuition (destruct p as [[]|]; reflexivity)|]). destruct I.
  - unfold style_row. destruct (N.eqb_spec n 0); [lia|]. destruct (nth_error style_table (N.to_nat (n - 1))) eqn:E.
    + assert (X : nth_error style_table (N.to_nat (n - 1)) <> None) by congruence. apply nth_error_Some in X. assert (L : length style_table = 36%nat) by reflexivity. rewrite L in X. lia.
    + intros q. unfold style_color. destruct (N.eqb_spec n 0); [lia|]. destruct (N.ltb_spec 36 n); [reflexivity|lia].
Qed.
Lemma last_fold_if {A O S} (ok : O -> Prop) (f : S -> A) (g : O -> option A) (step : S -> O -> S) :
  (forall s o, ok o -> f (step s o) = match g o with Some v => v | None => f s end) ->
  forall l s, Forall ok l -> f (fold_left step l s) = last_given g (f s) l.
Proof.
  intros H. induction l as [|o l IH]; intros s F; [reflexivity|]. pose proof (Forall_inv F) as Fo. cbn [fold_left]. rewrite IH by exact (Forall_inv_tail F). rewrite H by exact Fo. reflexivity.
Qed.
Lemma built_plain ops : let s := spark_of ops in
  s_data s = data_of ops /\ s_dates s = dates_of ops /\ s_kind s = last_given of_kind KLine ops /\ s_axis s = last_given of_axis false ops /\
  s_hidden s = last_given of_hidden false ops /\ s_rtl s = last_given of_rtl false ops /\ s_empty s = last_given of_empty EGaps ops /\
  s_weight s = last_given of_weight None ops.
Proof.
  cbv zeta. unfold spark_of, data_of, dates_of.
  repeat split; refine (last_fold _ _ _ _ ops spark_new); intros t o; destruct t; destruct o; try reflexivity; cbn [spark_step]; try (destruct (color_valid c); reflexivity);
    (destruct (style_row n) as [[[[[[[lo hg] la] fi] ma] ne] sr]|]; reflexivity).
Qed.
Lemma built_order ops : s_row_order (spark_of ops) = negb (by_columns ops).
Proof.
  unfold spark_of, by_columns. change (negb (last_given of_order false ops)) with (negb (last_given of_order (negb (s_row_order spark_new)) ops)). rewrite <- (last_fold (fun s => negb (s_row_order s)) of_order spark_step); [rewrite negb_involutive; reflexivity|].
  intros t o; destruct t; destruct o; try reflexivity; cbn [spark_step]; try (destruct (color_valid c); reflexivity); try (apply negb_involutive).
  destruct (style_row n) as [[[[[[[lo hg] la] fi] ma] ne] sr]|]; reflexivity.
Qed.
Lemma built_fixed ops : s_axis_color (spark_of ops) = black /\ s_ranges (spark_of ops) = [].
Proof.
  unfold spark_of. assert (G : forall l s, s_axis_color (fold_left spark_step l s) = s_axis_color s /\ s_ranges (fold_left spark_step l s) = s_ranges s); [|apply (G ops spark_new)].
  induction l as [|o l IH]; intros s; [split; reflexivity|]. cbn [fold_left]. destruct (IH (spark_step s o)) as [-> ->]. destruct s, o; try (split; reflexivity); cbn [spark_step]; try (destruct (color_valid c); split; reflexivity).
  destruct (style_row n) as [[[[[[[lo hg] la] fi] ma] ne] sr]|]; split; reflexivity.
Qed.
Lemma built_series ops : Forall op_named ops -> s_series (spark_of ops) = last_given of_series_color (CTheme 4 5) ops.
Proof.
  intros F. unfold spark_of. refine (last_fold_if op_named s_series of_series_color spark_step _ ops spark_new F). intros t o Ho. destruct t as [se ac cs sh da dt rg k ax hi rt em w mn mx gx gn ro]; destruct o; try reflexivity; cbn [spark_step of_series_color].
  - cbn [op_named] in Ho. rewrite (real_valid c Ho). destruct (real_color c); reflexivity.
  - destruct (color_valid c); reflexivity.
  - pose proof (style_rows n) as R. destruct (style_row n) as [[[[[[[lo hg] la] fi] ma] ne] sr]|]; [destruct R as [-> _]; reflexivity|rewrite R; reflexivity].
Qed.
Lemma built_colors p ops : Forall op_named ops -> s_colors (spark_of ops) p = last_given (of_point_color p) (default_color p) ops.
Proof.
  intros F. unfold spark_of. assert (E : default_color p = s_colors spark_new p) by (destruct p; reflexivity). rewrite E.
  refine (last_fold_if op_named (fun s => s_colors s p) (of_point_color p) spark_step _ ops spark_new F). intros t o Ho. destruct t as [se ac cs sh da dt rg k ax hi rt em w mn mx gx gn ro]; destruct o; try reflexivity; cbn [spark_step of_point_color].
  - cbn [op_named] in Ho. rewrite (real_valid c Ho). destruct (real_color c); [|rewrite andb_false_r; reflexivity]. rewrite andb_true_r. cbn [s_colors]. unfold pset. rewrite spoint_eqb_same. destruct (same_point p0 p); reflexivity.
  - pose proof (style_rows n) as R. destruct (style_row n) as [[[[[[[lo hg] la] fi] ma] ne] sr]|]; [|rewrite R; reflexivity].
    destruct R as (R0 & R1 & R2 & R3 & R4 & R5 & R6). destruct p; first [rewrite R1|rewrite R2|rewrite R3|rewrite R4|rewrite R5|rewrite R6]; reflexivity.
Qed.
Lemma built_shows p ops : Forall op_named ops -> s_shows (spark_of ops) p = last_given (of_show p) false ops.
Proof.
  intros F. unfold spark_of. change false with (s_shows spark_new p).
  refine (last_fold_if op_named (fun s => s_shows s p) (of_show p) spark_step _ ops spark_new F). intros t o Ho. destruct t as [se ac cs sh da dt rg k ax hi rt em w mn mx gx gn ro]; destruct o; try reflexivity; cbn [spark_step of_show].
  - cbn [s_shows]. unfold pset. rewrite spoint_eqb_same. destruct (same_point p0 p); reflexivity.
  - cbn [op_named] in Ho. rewrite (real_valid c Ho). destruct (real_color c); [|rewrite andb_false_r; reflexivity]. rewrite andb_true_r. cbn [s_shows]. unfold pset. rewrite spoint_eqb_same. destruct (same_point p0 p); reflexivity.
  - destruct (style_row n) as [[[[[[[lo hg] la] fi] ma] ne] sr]|]; reflexivity.
Qed.
Definition bound_is (num_text : f64 -> str) (custom : option f64) (group : bool) (b : bound) : Prop :=
  match custom with Some x => b = Fixed (num_text x) /\ group = false | None => b = if group then GroupData else OwnData end.
Lemma built_bounds num_text ops : let s := spark_of ops in bound_is num_text (s_cmax s) (s_gmax s) (max_of num_text ops) /\ bound_is num_text (s_cmin s) (s_gmin s) (min_of num_text ops).
Proof.
  cbv zeta. unfold spark_of, max_of, min_of.
  assert (G : forall l s b c, bound_is num_text (s_cmax s) (s_gmax s) b /\ bound_is num_text (s_cmin s) (s_gmin s) c ->
    let s' := fold_left spark_step l s in
    bound_is num_text (s_cmax s') (s_gmax s') (fold_left (fun b o => set_bound num_text b (match o with SCustomMax x => Some x | _ => None end) (match o with SGroupMax g => Some g | _ => None end)) l b) /\
    bound_is num_text (s_cmin s') (s_gmin s') (fold_left (fun b o => set_bound num_text b (match o with SCustomMin x => Some x | _ => None end) (match o with SGroupMin g => Some g | _ => None end)) l c));
    [|apply (G ops spark_new OwnData OwnData); split; reflexivity].
  induction l as [|o l IH]; intros s b c H; [exact H|]. cbn [fold_left]. apply IH. clear IH. destruct s as [se ac cs sh da dt rg k ax hi rt em w mn mx gx gn ro]; destruct o; try exact H; cbn [spark_step]; try (destruct (color_valid c0); exact H);
    try (destruct (style_row n) as [[[[[[[lo hg] la] fi] ma] ne] sr]|]; exact H); destruct H as [H1 H2]; cbn [s_cmax s_gmax s_cmin s_gmin set_bound] in *.
  - split; [split; reflexivity|exact H2].
  - split; [exact H1|split; reflexivity].
  - split; [|exact H2]. destruct b0; [reflexivity|]. unfold bound_is in *. destruct mx; [destruct H1 as [-> _]; split; reflexivity|]. subst b. destruct gx; reflexivity.
  - split; [exact H1|]. destruct b0; [reflexivity|]. unfold bound_is in *. destruct mn; [destruct H2 as [-> _]; split; reflexivity|]. subst c. destruct gn; reflexivity.
Qed.

(** ** Names and areas *)
Lemma existsb_same {A} (f g : A -> bool) l : (forall a, f a = g a) -> existsb f l = existsb g l.
Proof. intros H. induction l as [|a l IH]; [reflexivity|]. cbn [existsb]. rewrite H, IH. reflexivity. Qed.
Lemma name_ok s : (match validate_sheetname s with Some _ => false | None => true end) = sheet_name_ok s.
Proof.
  destruct s as [|c s]; [reflexivity|]. unfold validate_sheetname, sheet_name_ok.
  assert (L : (31 <? char_count (c :: s)) = negb (N.of_nat (length (c :: s)) <=? 31)).
  { unfold char_count. rewrite N.ltb_antisym. reflexivity. }
  rewrite L. destruct (N.of_nat (length (c :: s)) <=? 31); cbn [negb andb]; [|reflexivity].
  assert (X : existsb (fun c => existsb (N.eqb c) [42; 63; 58; 91; 93; 92; 47]) (c :: s) = existsb (fun c => existsb (N.eqb c) (lit "[]:*?/\")) (c :: s)).
  { apply existsb_same. intros a. apply eq_true_iff_eq. rewrite !existsb_exists. split; intros (x & Hx & E); exists x; (split; [|exact E]); vm_compute in Hx |- *; tauto. }
  rewrite X. clear X. destruct (existsb _ (c :: s)); [reflexivity|]. cbn [negb andb].
  assert (E1 : starts_with_char (N.eqb 39) (c :: s) = (c =? 39)) by (unfold starts_with_char; apply N.eqb_sym).
  assert (E2 : ends_with_char (N.eqb 39) (c :: s) = (last (c :: s) 0 =? 39)).
  { unfold ends_with_char, last_char. clear. generalize c. induction s as [|a s IH]; intros c0; [exact (N.eqb_sym 39 c0)|]. specialize (IH a). cbn [last] in *. rewrite <- IH. cbn. destruct (rev s ++ [a]) as [|x y] eqn:Q; [destruct (rev s); discriminate Q|]. reflexivity. }
  rewrite E1, E2. destruct (c =? 39); [reflexivity|]. destruct (last (c :: s) 0 =? 39); reflexivity.
Qed.
Lemma name_start s : sheet_name_ok s = true -> forall r, s <> 39 :: r.
Proof. intros H r ->. unfold sheet_name_ok in H. rewrite !andb_true_iff, !negb_true_iff in H. destruct H as [[_ H] _]. discriminate H. Qed.

Lemma doc_app a b : doc_text (a ++ b) <-> doc_text a /\ doc_text b.
Proof. unfold doc_text. rewrite forallb_app, andb_true_iff. reflexivity. Qed.
Lemma doc_double s : doc_text s -> doc_text (double_quotes s).
Proof.
  unfold doc_text, double_quotes. induction s as [|c s IH]; [reflexivity|]. cbn [flat_map forallb]. intros H. apply andb_prop in H as [H1 H2]. rewrite forallb_app. rewrite (IH H2), andb_true_r.
  destruct (c =? 39); [reflexivity|]. cbn [forallb]. rewrite H1. reflexivity.
Qed.
Section Texts.
  Variable m : ovf.
  Variable u : unicode.
  Hypothesis letters : unicode_ok u.
  Definition quotable (s : str) : Prop := exists q, quote_sheet_name m u s = Some q.
  Lemma doc_quote s q : doc_text s -> quote_sheet_name m u s = Some q -> doc_text q.
  Proof.
    unfold quote_sheet_name. intros D. destruct (requires_quoting m u s) as [[]|]; cbn [obind]; intros E; try discriminate; injection E as <-; [|exact D].
    change (doc_text ([39] ++ double_quotes s ++ [39])). rewrite !doc_app. split; [reflexivity|]. split; [apply doc_double; exact D|reflexivity].
  Qed.
  Definition in_types (c : crange) : Prop := g_fr c < 2 ^ 32 - 1 /\ g_lr c < 2 ^ 32 - 1 /\ g_fc c < 65535 /\ g_lc c < 65535.
  Lemma cell_doc r c t : r < 2 ^ 32 - 1 -> c < 65535 -> row_col_to_cell m r c = Some t -> doc_text t.
  Proof.
    intros A B E. destruct (row_col_to_cell_text m r c A B) as (nm & En & Ez & _). destruct (column_number_to_name_spec m c B) as (nm2 & En2 & U & _ ).
    assert (nm2 = nm) by congruence. subst nm2. assert (t = nm ++ dec (r + 1)) by congruence. subst t. apply doc_app. split; apply doc_simple; [apply upper_simple; exact U|apply dec_simple].
  Qed.
  Lemma formula_reads c : in_types c -> (forall r, g_sheet c <> 39 :: r) -> doc_text (g_sheet c) -> quotable (g_sheet c) ->
    exists f, range_formula m u c = Some f /\ doc_text f /\ read_area f = Some (area_of c).
  Proof.
    intros (A & B & C & D) Hs Dt [q Hq]. destruct (chart_range_parse false m u (g_sheet c) q (g_fr c) (g_fc c) (g_lr c) (g_lc c) letters Hs A C B D Hq) as (f & Ef & Pf).
    exists f. split; [exact Ef|]. split.
    - cbv beta iota in Ef. unfold chart_range in Ef. rewrite Hq in Ef. cbv beta iota delta [obind] in Ef. destruct (row_col_to_cell m (g_fr c) (g_fc c)) as [a|] eqn:Ea; [|discriminate]. destruct (row_col_to_cell m (g_lr c) (g_lc c)) as [b|] eqn:Eb; [|discriminate].
      pose proof (cell_doc _ _ _ A C Ea) as Da. pose proof (cell_doc _ _ _ B D Eb) as Db. pose proof (doc_quote _ _ Dt Hq) as Dq. injection Ef as <-. destruct (str_eqb a b).
      + apply doc_app. split; [exact Dq|]. change (doc_text ([33] ++ a)). apply doc_app. split; [reflexivity|exact Da].
      + apply doc_app. split; [exact Dq|]. change (doc_text ([33] ++ a ++ [58] ++ b)). rewrite !doc_app. repeat split; assumption.
    - unfold read_area. rewrite Pf. reflexivity.
  Qed.
  Lemma error_range_ok c : in_types c -> quotable (g_sheet c) -> error_range m u c = Some tt.
  Proof.
    intros (A & B & C & D) [q Hq]. unfold error_range. rewrite Hq. destruct (row_col_to_cell_text m _ _ A C) as (n1 & _ & E1 & _). destruct (row_col_to_cell_text m _ _ B D) as (n2 & _ & E2 & _). rewrite E1, E2. reflexivity.
  Qed.
  Lemma dims_grid r c : in_dims r c = on_grid r c.
  Proof. unfold in_dims, on_grid, Ref_Model.ROW_MAX, Ref_Model.COL_MAX. rewrite negb_orb, <- !N.ltb_antisym. reflexivity. Qed.
  Lemma validate_ok c : in_types c -> quotable (g_sheet c) -> range_validate m u c = Some (real_area c).
  Proof.
    intros T Q. unfold range_validate. rewrite error_range_ok by assumption. cbv beta iota delta [obind]. rewrite name_ok. f_equal. unfold real_area. rewrite <- !dims_grid. unfold in_dims.
    rewrite !negb_orb, <- !N.leb_antisym.
    destruct (sheet_name_ok (g_sheet c)), (g_fr c <=? g_lr c), (g_fc c <=? g_lc c), (Ref_Model.ROW_MAX <=? g_fr c), (Ref_Model.ROW_MAX <=? g_lr c), (Ref_Model.COL_MAX <=? g_fc c), (Ref_Model.COL_MAX <=? g_lc c); reflexivity.
  Qed.
  Lemma real_given c : real_area c = true -> range_given c = true.
  Proof. unfold real_area, range_given. destruct (g_sheet c); [discriminate|reflexivity]. Qed.
  Lemma real_types c : real_area c = true -> in_types c.
  Proof. unfold real_area, in_types, on_grid. rewrite !andb_true_iff, !N.ltb_lt. change (2 ^ 32 - 1) with 4294967295. lia. Qed.
  Lemma line_1d c : real_area c = true -> is_1d c = line c.
  Proof.
    unfold real_area, is_1d, line. rewrite !andb_true_iff, !N.leb_le. intros H. apply eq_true_iff_eq. rewrite !orb_true_iff, !N.eqb_eq. lia.
  Qed.

  (** ** The loop of a group *)
  Definition cell_at (down : bool) (row col : N) (k : nat) : N * N := if down then (row + N.of_nat k, col) else (row, col + N.of_nat k).
  Definition slice_at (rows : bool) (c : crange) (k : nat) : area :=
    if rows then (g_sheet c, (g_fr c + N.of_nat k, g_fc c, (g_fr c + N.of_nat k, g_lc c))) else (g_sheet c, (g_fr c, g_fc c + N.of_nat k, (g_lr c, g_fc c + N.of_nat k))).
  Definition written (r : str * str) (p : N * N * area) : Prop :=
    cell_of (fst r) = Some (fst p) /\ doc_text (fst r) /\ doc_text (snd r) /\ read_area (snd r) = Some (snd p).
  Lemma loop_spec (rows down : bool) : forall n row col c acc,
    (forall r, g_sheet c <> 39 :: r) -> doc_text (g_sheet c) -> quotable (g_sheet c) -> (if rows then g_lr c = g_fr c else g_lc c = g_fc c) ->
    g_fr c + (if rows then N.of_nat n else 0) <= Ref_Model.ROW_MAX -> g_fc c + (if rows then 0 else N.of_nat n) <= Ref_Model.COL_MAX -> g_lr c <= Ref_Model.ROW_MAX -> g_lc c <= Ref_Model.COL_MAX ->
    row + (if down then N.of_nat n else 0) <= Ref_Model.ROW_MAX -> col + (if down then 0 else N.of_nat n) <= Ref_Model.COL_MAX -> row < Ref_Model.ROW_MAX -> col < Ref_Model.COL_MAX ->
    exists c' l, group_loop m u rows down n row col c acc = Some (c', acc ++ l) /\ Forall2 written l (map (fun k => (cell_at down row col k, slice_at rows c k)) (seq 0 n)).
  Proof.
    induction n as [|n IH]; intros row col c acc Hs Dt Hq Sl R1 C1 R2 C2 R3 C3 R4 C4.
    { exists c, []. rewrite app_nil_r. split; [reflexivity|constructor]. }
    destruct (cell_text m row col R4 C4) as (t & Et & _ & _ & Ct).
    assert (T : in_types c).
    { unfold in_types, Ref_Model.ROW_MAX, Ref_Model.COL_MAX in *. change (2 ^ 32 - 1) with 4294967295. destruct rows; lia. }
    destruct (formula_reads c T Hs Dt Hq) as (f & Ef & Df & Rf).
    assert (Dc : doc_text t). { apply (cell_doc row col); [unfold Ref_Model.ROW_MAX in *; change (2 ^ 32 - 1) with 4294967295; lia|unfold Ref_Model.COL_MAX in *; lia|exact Et]. }
    set (c1 := if rows then {| g_sheet := g_sheet c; g_fr := g_fr c + 1; g_fc := g_fc c; g_lr := g_fr c + 1; g_lc := g_lc c |}
               else {| g_sheet := g_sheet c; g_fr := g_fr c; g_fc := g_fc c + 1; g_lr := g_lr c; g_lc := g_fc c + 1 |}).
    assert (I : incr m rows c = Some c1).
    { unfold incr, c1. destruct rows.
      - assert (W : wrapN m 32 (Z.of_N (g_fr c) + 1) = Some (g_fr c + 1)). { rewrite wrapN_ok; [f_equal; lia|]. unfold Ref_Model.ROW_MAX in *. change (2 ^ Z.of_N 32)%Z with 4294967296%Z. lia. }
        rewrite W. reflexivity.
      - assert (W : wrapN m 16 (Z.of_N (g_fc c) + 1) = Some (g_fc c + 1)). { rewrite wrapN_ok; [f_equal; lia|]. unfold Ref_Model.COL_MAX in *. change (2 ^ Z.of_N 16)%Z with 65536%Z. lia. }
        rewrite W. reflexivity. }
    assert (S1 : g_sheet c1 = g_sheet c) by (unfold c1; destruct rows; reflexivity).
    assert (Rest : exists c' l, group_loop m u rows down n (if down then row + 1 else row) (if down then col else col + 1) c1 (acc ++ [(t, f)]) = Some (c', (acc ++ [(t, f)]) ++ l) /\
      Forall2 written l (map (fun k => (cell_at down (if down then row + 1 else row) (if down then col else col + 1) k, slice_at rows c1 k)) (seq 0 n))).
    { destruct n as [|n]; [exists c1, []; rewrite app_nil_r; split; [reflexivity|constructor]|]. apply IH; rewrite ?S1; try assumption; clear IH; unfold c1; destruct rows, down; cbn [g_fr g_fc g_lr g_lc]; try reflexivity; lia. }
    destruct Rest as (c' & l & El & Fl). exists c', ((t, f) :: l). split.
    - cbn [group_loop]. rewrite Et, Ef, I. cbv beta iota delta [obind]. rewrite El, <- app_assoc. reflexivity.
    - cbn [seq map]. constructor.
      + unfold written. cbn [fst snd]. split; [rewrite Ct; unfold cell_at; destruct down; rewrite N.add_0_r; reflexivity|]. split; [exact Dc|]. split; [exact Df|]. rewrite Rf. unfold slice_at, area_of. destruct rows; rewrite N.add_0_r; rewrite ?Sl; reflexivity.
      + rewrite <- seq_shift, map_map. match type of Fl with Forall2 _ _ ?a => match goal with |- Forall2 _ _ ?b => replace b with a; [exact Fl|] end end. apply map_ext. intros k.
        rewrite <- ?seq_shift. assert (E : forall x, x + 1 + N.of_nat k = x + N.of_nat (S k)) by (intros; lia). unfold cell_at, slice_at, c1. destruct rows, down; cbn [g_sheet g_fr g_fc g_lr g_lc]; rewrite ?E; reflexivity.
  Qed.
End Texts.

(** ** Writing and reading a group *)
Section Writing.
  Variable num_text : f64 -> str.
  Variable m : ovf.
  Variable u : unicode.
  Hypothesis plain_numbers : forall x, forallb simple (num_text x) = true.
  Hypothesis letters : unicode_ok u.
  Lemma num_attr x : attr_ok (num_text x). Proof. apply simple_attrs, plain_numbers. Qed.

  Lemma opt_sub k o : sub (opt_attr num_text k o) [(lit k, match o with Some x => num_text x | None => [] end)].
  Proof. destruct o; [apply sub_refl|apply sub_none]. Qed.
  Lemma axis_sub k c g : sub (axis_type k c g) [(lit k, match c with Some _ => lit "custom" | None => lit "group" end)].
  Proof. destruct c; [apply sub_refl|apply sub_when]. Qed.
  Lemma kind_sub k : sub (kind_attr k) [(lit "type", kind_name k)].
  Proof. destruct k; [apply sub_none|apply sub_refl..]. Qed.
  Lemma empty_sub e : sub (empty_attr e) [(lit "displayEmptyCellsAs", empty_name e)].
  Proof. destruct e; [apply sub_refl|apply sub_none|apply sub_refl]. Qed.
  Lemma group_attrs_good s : attrs_good (group_attrs num_text s).
  Proof.
    unfold group_attrs. eapply sub_attrs.
    { repeat (apply sub_app; [first [apply opt_sub|apply kind_sub|apply empty_sub|apply axis_sub|apply sub_when]|]). apply sub_when. }
    cbn [app]. apply attrs_check; [reflexivity|].
    assert (O : forall o, attr_ok (match o with Some x => num_text x | None => [] end)) by (intros []; [apply num_attr|reflexivity]).
    assert (A : forall c : option f64, attr_ok (match c with Some _ => lit "custom" | None => lit "group" end)) by (intros []; reflexivity).
    repeat (constructor; [split; [reflexivity|first [reflexivity|apply O|apply A|destruct (s_kind s); reflexivity|destruct (s_empty s); reflexivity]]|]). constructor.
  Qed.
  Lemma attr_opt k j o : attr k (opt_attr num_text j o) = if String.eqb j k then option_map num_text o else None.
  Proof. destruct o; cbn [opt_attr option_map]; [rewrite attr_cons, attr_nil; reflexivity|]. rewrite attr_nil. destruct (String.eqb j k); reflexivity. Qed.
  Lemma attr_flag k j b : attr k (one b j) = if String.eqb j k then if b then Some (lit "1") else None else None.
  Proof. unfold one. rewrite attr_when, attr_cons, attr_nil. destruct b, (String.eqb j k); reflexivity. Qed.
  Lemma attr_axis k j c g : attr k (axis_type j c g) = if String.eqb j k then match c with Some _ => Some (lit "custom") | None => if g then Some (lit "group") else None end else None.
  Proof. destruct c; cbn [axis_type]; [rewrite attr_cons, attr_nil; reflexivity|]. rewrite attr_when, attr_cons, attr_nil. destruct g, (String.eqb j k); reflexivity. Qed.
  Lemma attr_kind k x : attr k (kind_attr x) = if String.eqb "type" k then match x with KLine => None | x => Some (kind_name x) end else None.
  Proof. destruct x; cbn [kind_attr]; rewrite ?attr_cons, attr_nil; [destruct (String.eqb "type" k)|..]; reflexivity. Qed.
  Lemma attr_empty k e : attr k (empty_attr e) = if String.eqb "displayEmptyCellsAs" k then match e with EZero => None | e => Some (empty_name e) end else None.
  Proof. destruct e; cbn [empty_attr]; rewrite ?attr_cons, attr_nil; [|destruct (String.eqb "displayEmptyCellsAs" k)|]; reflexivity. Qed.
  Ltac attrs := unfold flag_of, attr_default, read_bound, group_attrs; rewrite ?attr_app, ?attr_opt, ?attr_flag, ?attr_axis, ?attr_kind, ?attr_empty; cbn [String.eqb Ascii.eqb Bool.eqb].

  (** What an object says, given what is found for its cells and dates *)
  Definition shown_group (s : spark) (mn mx : bound) (cells : list (N * N * area)) : rgroup :=
    {| v_kind := kind_name (s_kind s); v_empty := empty_name (s_empty s); v_weight := option_map num_text (s_weight s); v_min := mn; v_max := mx;
       v_points := map (s_shows s) points; v_axis := s_axis s; v_hidden := s_hidden s; v_rtl := s_rtl s;
       v_series := color_seen (s_series s); v_axis_color := color_seen (s_axis_color s); v_colors := map (fun p => color_seen (s_colors s p)) points;
       v_dates := match g_sheet (s_dates s) with [] => None | _ => Some (area_of (s_dates s)) end; v_cells := cells |}.
  Definition dates_ok (c : crange) : Prop := g_sheet c = [] \/ real_area c = true /\ doc_text (g_sheet c) /\ quotable m u (g_sheet c).
  Lemma flag_lit (b : bool) : match (if b then Some (lit "1") else None) with Some v => str_eqb v (lit "1") | None => false end = b.
  Proof. destruct b; reflexivity. Qed.
  Lemma bound_reads kind manual c g b l : bound_is num_text c g b -> attr kind l = match c with Some _ => Some (lit "custom") | None => if g then Some (lit "group") else None end ->
    attr manual l = option_map num_text c -> read_bound kind manual l = Some b.
  Proof.
    unfold bound_is, read_bound, attr_default. intros B E1 E2. rewrite E1, E2. destruct c as [x|].
    - destruct B as [-> _]. reflexivity.
    - subst b. destruct g; reflexivity.
  Qed.
  Lemma cells_read l cells : Forall2 written l cells -> read_all read_cell (map node_of (map spark_xml l)) = Some cells /\ Forall wx_ok (map spark_xml l).
  Proof.
    induction 1 as [|[t f] [q a] l cells (Hc & Dt & Df & Ha) F [IH W]]; [split; [reflexivity|constructor]|]. cbn [fst snd] in *. cbn [map read_all]. split.
    - assert (E : read_cell (node_of (spark_xml (t, f))) = Some (q, a)).
      { unfold spark_xml. cbn [fst snd node_of map]. unfold read_cell. change (is_elem "x14:sparkline" (Elem (lit "x14:sparkline") [] _)) with true. cbn [kids_of].
        pose proof (node_data (lit "xm:f") f [] Df) as N1. pose proof (node_data (lit "xm:sqref") t [] Dt) as N2. cbn [node_of] in N1, N2. rewrite N1, N2.
        rewrite !kid_one. cbn [String.eqb Ascii.eqb Bool.eqb bind]. rewrite !text_leaf. cbn [bind]. rewrite Hc. cbn [bind]. rewrite Ha. reflexivity. }
      rewrite E. cbn [bind]. rewrite IH. reflexivity.
    - constructor; [|exact W]. apply wx_ok_elem. split; [reflexivity|]. split; [apply attrs_nil|]. constructor; [apply ok_data; [reflexivity|apply attrs_nil|exact Df]|]. constructor; [apply ok_data; [reflexivity|apply attrs_nil|exact Dt]|constructor].
  Qed.
  Lemma color_wx k c : good_name (lit k) = true -> wx_ok (spark_color k c). Proof. intros H. split; [exact H|apply color_attrs_good]. Qed.
  Lemma group_reads s mn mx cells :
    bound_is num_text (s_cmin s) (s_gmin s) mn -> bound_is num_text (s_cmax s) (s_gmax s) mx -> Forall2 written (s_ranges s) cells ->
    real_color (s_series s) = true -> real_color (s_axis_color s) = true -> (forall p, real_color (s_colors s p) = true) -> dates_ok (s_dates s) ->
    exists x, group_xml m u num_text s = Some x /\ wx_ok x /\ read_group (node_of x) = Some (shown_group s mn mx cells).
  Proof.
    intros Bn Bx C R0 R1 R2 D. destruct (cells_read _ _ C) as [Rc Wc].
    assert (Dx : exists d, (if range_given (s_dates s) then obind (range_formula m u (s_dates s)) (fun f => Some [WData (lit "xm:f") f []]) else Some []) = Some d /\ Forall wx_ok d /\
      (range_given (s_dates s) = false /\ d = [] /\ g_sheet (s_dates s) = [] \/
       exists f, range_given (s_dates s) = true /\ d = [WData (lit "xm:f") f []] /\ doc_text f /\ read_area f = Some (area_of (s_dates s)) /\ g_sheet (s_dates s) <> [])).
    { unfold range_given. destruct D as [E|(Re & Dt & Q)].
      - rewrite E. exists []. split; [reflexivity|]. split; [constructor|]. left. repeat split.
      - pose proof (real_given _ Re) as Gv. unfold range_given in Gv. rewrite Gv. pose proof Re as Re'. unfold real_area in Re'. rewrite !andb_true_iff in Re'. destruct Re' as ((((Nm & _) & _) & _) & _).
        destruct (formula_reads m u letters (s_dates s) (real_types _ Re) (name_start _ Nm) Dt Q) as (f & Ef & Df & Rf). rewrite Ef. exists [WData (lit "xm:f") f []]. split; [reflexivity|].
        split; [constructor; [apply ok_data; [reflexivity|apply attrs_nil|exact Df]|constructor]|]. right. exists f. split; [reflexivity|]. repeat (split; [first [reflexivity|assumption]|]). intros E. rewrite E in Gv. discriminate. }
    destruct Dx as (d & Ed & Wd & Dc). eexists. split; [unfold group_xml; rewrite Ed; cbv beta iota delta [obind]; reflexivity|]. split.
    - apply wx_ok_elem. split; [reflexivity|]. split; [apply group_attrs_good|]. apply Forall_app. split; [repeat (constructor; [apply color_wx; reflexivity|]); constructor|].
      apply Forall_app. split; [exact Wd|]. constructor; [|constructor]. apply wx_ok_elem. split; [reflexivity|]. split; [apply attrs_nil|exact Wc].
    - cbn [node_of]. unfold read_group. change (is_elem "x14:sparklineGroup" (Elem (lit "x14:sparklineGroup") _ _)) with true. cbn [attrs_of kids_of]. cbv zeta beta iota.
      rewrite (bound_reads "minAxisType" "manualMin" (s_cmin s) (s_gmin s) mn); [|exact Bn|attrs; destruct (s_cmin s), (s_gmin s); reflexivity|attrs; destruct (s_cmin s); reflexivity]. cbn [bind].
      rewrite (bound_reads "maxAxisType" "manualMax" (s_cmax s) (s_gmax s) mx); [|exact Bx|attrs; destruct (s_cmax s), (s_gmax s); reflexivity|attrs; destruct (s_cmax s); reflexivity]. cbn [bind].
      unfold spark_color. cbn [app map node_of]. rewrite map_app. cbn [map node_of].
      assert (Kc : forall k c r, kid_color k (Elem (lit k) (color_attributes c) [] :: r) = read_rcolor (color_attributes c)).
      { intros k c r. unfold kid_color. rewrite kid_one, String.eqb_refl. reflexivity. }
      assert (Ks : forall k j c r, String.eqb j k = false -> kid_color k (Elem (lit j) (color_attributes c) [] :: r) = kid_color k r).
      { intros k j c r E. unfold kid_color. rewrite kid_one, E. reflexivity. }
      assert (Ko : forall k j c r, String.eqb j k = false -> kid k (Elem (lit j) (color_attributes c) [] :: r) = kid k r).
      { intros k j c r E. rewrite kid_one, E. reflexivity. }
      cbn [read_all]. repeat (rewrite Ks by reflexivity). repeat (rewrite ?Kc; repeat (rewrite Ks by reflexivity)). rewrite !color_reads by (first [exact R0|exact R1|apply R2]). cbn [bind].
      repeat (rewrite Ko by reflexivity).
      assert (Fl : forall k, In k ["negative"; "markers"; "first"; "last"; "high"; "low"; "displayXAxis"; "displayHidden"; "rightToLeft"; "dateAxis"]%string ->
        flag_of k (group_attrs num_text s) = if String.eqb k "negative" then s_shows s PNegative else if String.eqb k "markers" then s_shows s PMarkers else if String.eqb k "first" then s_shows s PFirst
          else if String.eqb k "last" then s_shows s PLast else if String.eqb k "high" then s_shows s PHigh else if String.eqb k "low" then s_shows s PLow else if String.eqb k "displayXAxis" then s_axis s
          else if String.eqb k "displayHidden" then s_hidden s else if String.eqb k "rightToLeft" then s_rtl s else range_given (s_dates s)).
      { intros k Hk. cbn [In] in Hk. repeat (destruct Hk as [<-|Hk]; [attrs; match goal with |- context [if ?b then Some _ else None] => destruct b end; reflexivity|]). destruct Hk. }
      cbn [map]. rewrite !Fl by (cbn [In]; tauto). cbn [String.eqb Ascii.eqb Bool.eqb].
      assert (Kx : forall d', kid "x14:sparklines" (map node_of d' ++ [Elem (lit "x14:sparklines") [] (map node_of (map spark_xml (s_ranges s)))]) =
        match kid "x14:sparklines" (map node_of d') with Some e => Some e | None => Some (Elem (lit "x14:sparklines") [] (map node_of (map spark_xml (s_ranges s)))) end).
      { intros d'. rewrite kid_app, kid_one. reflexivity. }
      assert (Tail : forall dd : option area, bind (kid "x14:sparklines" (map node_of d ++ [Elem (lit "x14:sparklines") [] (map node_of (map spark_xml (s_ranges s)))])) (fun sl => bind (read_all read_cell (kids_of sl)) (fun cs => Some cs)) = Some cells).
      { intros _. rewrite Kx. destruct Dc as [(_ & -> & _)|(f & _ & -> & _)]; [cbn [map kid find]|change (kid "x14:sparklines" (map node_of [WData (lit "xm:f") f []])) with (@None node)]; cbn [bind kids_of]; rewrite Rc; reflexivity. }
      assert (At : attr_default "type" (lit "line") (group_attrs num_text s) = kind_name (s_kind s)) by (attrs; destruct (s_cmax s), (s_cmin s), (s_kind s); reflexivity).
      assert (Ae : attr_default "displayEmptyCellsAs" (lit "zero") (group_attrs num_text s) = empty_name (s_empty s)).
      { attrs. destruct (s_empty s); reflexivity. }
      assert (Aw : attr "lineWeight" (group_attrs num_text s) = option_map num_text (s_weight s)) by (attrs; destruct (s_weight s); reflexivity).
      rewrite At, Ae, Aw.
      destruct Dc as [(G & -> & Gs)|(f & G & -> & Df & Rf & Gs)].
      + rewrite G. cbn [map app]. rewrite !kid_one. cbn [String.eqb Ascii.eqb Bool.eqb]. change (kid "xm:f" []) with (@None node). cbn [bind kids_of]. rewrite Rc. cbn [bind]. unfold shown_group. rewrite Gs. reflexivity.
      + rewrite G. cbn [map app]. rewrite (node_data (lit "xm:f") f [] Df), kid_one. cbn [String.eqb Ascii.eqb Bool.eqb bind]. rewrite text_leaf. cbn [bind]. rewrite Rf. cbn [bind]. rewrite !kid_one. cbn [String.eqb Ascii.eqb Bool.eqb bind kids_of]. rewrite Rc. cbn [bind].
        unfold shown_group. destruct (g_sheet (s_dates s)) eqn:Eg; [congruence|reflexivity].
  Qed.
End Writing.

(** ** Colours are real *)
Lemma style_real n p c : style_color n p = Some c -> real_color c = true.
Proof.
  destruct (N.ltb_spec n 37) as [H|H].
  - assert (I : In (N.to_nat n) (seq 0 37)) by (apply in_seq; lia). rewrite <- (N2Nat.id n). clear H. cbn [seq In] in I.
    repeat (destruct I as [<-|I]; [destruct p as [[]|]; intros E; vm_compute in E; first [discriminate E|injection E as <-; reflexivity]|]). destruct I.
  - unfold style_color. destruct (N.ltb_spec 36 n); [|lia]. rewrite orb_true_r. discriminate.
Qed.
Lemma last_given_all {A O} (P : A -> Prop) (g : O -> option A) l : forall d, P d -> (forall o v, g o = Some v -> P v) -> P (last_given g d l).
Proof.
  unfold last_given. induction l as [|o l IH]; intros d D H; [exact D|]. cbn [fold_left]. apply IH; [|exact H]. destruct (g o) eqn:E; [exact (H o a E)|exact D].
Qed.
Lemma series_real ops : real_color (last_given of_series_color (CTheme 4 5) ops) = true.
Proof.
  apply (last_given_all (fun c => real_color c = true)); [reflexivity|]. intros o v. destruct o; cbn [of_series_color]; try discriminate; [|apply style_real].
  unfold allowed. destruct (real_color c) eqn:E; [|discriminate]. intros X. injection X as <-. exact E.
Qed.
Lemma point_real p ops : real_color (last_given (of_point_color p) (default_color p) ops) = true.
Proof.
  apply (last_given_all (fun c => real_color c = true)); [destruct p; reflexivity|]. intros o v. destruct o; cbn [of_point_color]; try discriminate; [|apply style_real].
  unfold allowed. destruct (same_point p0 p); cbn [andb]; [|discriminate]. destruct (real_color c) eqn:E; [|discriminate]. intros X. injection X as <-. exact E.
Qed.

Lemma grid_lt r c : on_grid r c = true -> r < Ref_Model.ROW_MAX /\ c < Ref_Model.COL_MAX.
Proof. unfold on_grid. rewrite andb_true_iff, !N.ltb_lt. intros H. exact H. Qed.

(** ** Lines of cells *)
Lemma combine_maps {A B C} (f : A -> B) (g : A -> C) l : combine (map f l) (map g l) = map (fun x => (f x, g x)) l.
Proof. induction l as [|a l IH]; [reflexivity|]. cbn [map combine]. rewrite IH. reflexivity. Qed.
Lemma up_one n : up_from n n = [n].
Proof. unfold up_from. rewrite N.sub_diag. change (N.to_nat (0 + 1)) with 1%nat. cbn [seq map]. change (N.of_nat 0) with 0. rewrite N.add_0_r. reflexivity. Qed.
Lemma cells_down fr fc lr : cells_in fr fc lr fc = map (fun k => (fr + N.of_nat k, fc)) (seq 0 (N.to_nat (lr - fr + 1))).
Proof.
  unfold cells_in. rewrite up_one. assert (G : forall l, flat_map (fun r => map (fun c : N => (r, c)) [fc]) l = map (fun r : N => (r, fc)) l) by (induction l as [|k l IH]; [reflexivity|cbn [map flat_map app] in *; rewrite IH; reflexivity]).
  rewrite G. unfold up_from. rewrite map_map. reflexivity.
Qed.
Lemma cells_right fr fc lc : cells_in fr fc fr lc = map (fun k => (fr, fc + N.of_nat k)) (seq 0 (N.to_nat (lc - fc + 1))).
Proof. unfold cells_in. rewrite up_one. cbn [flat_map]. rewrite app_nil_r. unfold up_from. rewrite map_map. reflexivity. Qed.
Lemma slices_are columns c : slices columns c = map (slice_at (negb columns) c) (seq 0 (N.to_nat (if columns then g_lc c - g_fc c + 1 else g_lr c - g_fr c + 1))).
Proof. destruct columns; unfold slices, up_from; rewrite map_map; reflexivity. Qed.

Section Sparklines.
  Variable num_text : f64 -> str.
  Variable m : ovf.
  Variable u : unicode.
  Hypothesis plain_numbers : forall x, forallb simple (num_text x) = true.
  Hypothesis letters : unicode_ok u.

  (** The names of sheets can be written and quoted without a panic, numbers of rows
      and columns are below the largest of their types, dates are in a real range, and a
      group has as many cells as the data has rows or columns. *)
  Definition spark_ok (a : spark_call) : Prop :=
    let ops := ops_of a in let d := data_of ops in
    Forall op_named ops /\ in_types d /\ doc_text (g_sheet d) /\ quotable m u (g_sheet d) /\ dates_ok m u (dates_of ops) /\ (taken a = true -> fits a).

  Lemma made_reads a s' : Forall op_named (ops_of a) -> dates_ok m u (dates_of (ops_of a)) ->
    (exists c l, s' = with_ranges (spark_of (ops_of a)) c l /\ Forall2 written l (asked_cells a)) ->
    exists x, group_xml m u num_text s' = Some x /\ wx_ok x /\ read_group (node_of x) = Some (asked_group num_text a).
  Proof.
    intros F D (c & l & -> & C). set (ops := ops_of a) in *.
    destruct (built_plain ops) as (B1 & B2 & B3 & B4 & B5 & B6 & B7 & B8). destruct (built_bounds num_text ops) as [Bx Bn]. destruct (built_fixed ops) as [Ba _].
    pose proof (built_series ops F) as Bs. pose proof (fun p => built_colors p ops F) as Bc. pose proof (fun p => built_shows p ops F) as Bw.
    destruct (spark_of ops) as [se ac cs sh da dt rg k ax hi rt em w mn mx gx gn ro] eqn:Es. cbn [s_data s_dates s_kind s_axis s_hidden s_rtl s_empty s_weight s_cmax s_gmax s_cmin s_gmin s_axis_color s_series s_colors s_shows] in *.
    destruct (group_reads num_text m u plain_numbers letters (with_ranges (spark_of ops) c l) (min_of num_text ops) (max_of num_text ops) (asked_cells a)) as (x & Ex & Wx & Rx).
    - rewrite Es. exact Bn.
    - rewrite Es. exact Bx.
    - rewrite Es. exact C.
    - rewrite Es. cbn [with_ranges s_series]. rewrite Bs. apply series_real.
    - rewrite Es. cbn [with_ranges s_axis_color]. rewrite Ba. reflexivity.
    - intros p. rewrite Es. cbn [with_ranges s_colors]. rewrite Bc. apply point_real.
    - rewrite Es. cbn [with_ranges s_dates]. rewrite B2. exact D.
    - rewrite Es in Ex, Rx. exists x. split; [exact Ex|]. split; [exact Wx|]. rewrite Rx. f_equal. unfold shown_group, asked_group. fold ops.
      cbn [with_ranges s_kind s_empty s_weight s_shows s_axis s_hidden s_rtl s_series s_axis_color s_colors s_dates]. unfold points. cbn [map]. rewrite !Bw, !Bc, B2, B3, B4, B5, B6, B7, B8, Bs, Ba. reflexivity.
  Qed.

  Lemma call_spec l a : spark_ok a -> exists s, spark_call_step m u l a = Some (if taken a then l ++ [s] else l, negb (taken a)) /\
    (taken a = true -> exists x, group_xml m u num_text s = Some x /\ wx_ok x /\ read_group (node_of x) = Some (asked_group num_text a)).
  Proof.
    intros (F & T & Dt & Q & Dd & Ft). pose proof (built_plain (ops_of a)) as (B1 & _). pose proof (built_order (ops_of a)) as Bo. destruct (built_fixed (ops_of a)) as [_ Br].
    assert (V : range_validate m u (s_data (spark_of (ops_of a))) = Some (real_area (data_of (ops_of a)))) by (rewrite B1; apply validate_ok; assumption).
    assert (E : error_range m u (s_data (spark_of (ops_of a))) = Some tt) by (rewrite B1; apply error_range_ok; assumption).
    assert (G : real_area (data_of (ops_of a)) = true -> range_given (s_data (spark_of (ops_of a))) = true) by (rewrite B1; apply real_given).
    assert (L : real_area (data_of (ops_of a)) = true -> is_1d (s_data (spark_of (ops_of a))) = line (data_of (ops_of a))) by (rewrite B1; apply line_1d).
    destruct a as [row col ops|fr fc lr lc ops]; cbn [ops_of spark_call_step taken asked_cells] in *.
    - unfold add_sparkline. rewrite dims_grid. destruct (on_grid row col) eqn:Gr; cbn [negb andb]; [|exists spark_new; split; [reflexivity|discriminate]].
      destruct (real_area (data_of ops)) eqn:Re; cbn [andb].
      + rewrite (G eq_refl), V, (L eq_refl). cbn [negb obind]. destruct (line (data_of ops)) eqn:Ln; cbn [negb]; [|rewrite E; exists spark_new; split; [reflexivity|discriminate]].
        apply grid_lt in Gr as [G1 G2]. destruct (cell_text m row col G1 G2) as (t & Et & _ & _ & Ct). pose proof Re as Re'. unfold real_area in Re'. rewrite !andb_true_iff in Re'. destruct Re' as ((((Nm & _) & _) & _) & _).
        destruct (formula_reads m u letters (data_of ops) T (name_start _ Nm) Dt Q) as (f & Ef & Df & Rf). unfold add_cell_range. rewrite Et, B1, Ef, Br. cbn [obind app].
        exists (with_ranges (spark_of ops) (data_of ops) [(t, f)]). split; [reflexivity|]. intros _. apply (made_reads (AddOne row col ops)); [exact F|exact Dd|]. exists (data_of ops), [(t, f)]. split; [reflexivity|].
        cbn [asked_cells]. constructor; [|constructor]. split; [exact Ct|]. split; [|split; [exact Df|exact Rf]]. cbn [fst]. apply (cell_doc m row col); [change (row < 4294967295); change (row < 1048576) in G1; clear - G1; lia|change (col < 16384) in G2; clear - G2; lia|exact Et].
      + destruct (range_given (s_data (spark_of ops))); cbn [negb]; [rewrite V; cbn [obind negb]|]; exists spark_new; (split; [reflexivity|discriminate]).
    - unfold add_sparkline_group. rewrite !dims_grid. destruct (on_grid fr fc) eqn:G1; cbn [negb orb andb]; [|exists spark_new; split; [reflexivity|discriminate]].
      destruct (on_grid lr lc) eqn:G2; cbn [negb orb andb]; [|exists spark_new; split; [reflexivity|discriminate]].
      rewrite (N.ltb_antisym fr lr), (N.ltb_antisym fc lc). destruct (fr <=? lr) eqn:O1; cbn [negb orb andb]; [|exists spark_new; split; [reflexivity|discriminate]].
      destruct (fc <=? lc) eqn:O2; cbn [negb orb andb]; [|exists spark_new; split; [reflexivity|discriminate]].
      destruct (real_area (data_of ops)) eqn:Re; cbn [andb].
      2: { destruct (range_given (s_data (spark_of ops))); cbn [negb]; [rewrite V; cbn [obind negb]|]; exists spark_new; (split; [reflexivity|discriminate]). }
      rewrite (G eq_refl), V, (L eq_refl). cbn [negb obind]. destruct (line (data_of ops)) eqn:Ln; cbn [negb andb]; [rewrite E; exists spark_new; split; [reflexivity|discriminate]|].
      rewrite <- negb_orb, B1. destruct ((N.max (lr - fr + 1) (lc - fc + 1) =? g_lr (data_of ops) - g_fr (data_of ops) + 1) || (N.max (lr - fr + 1) (lc - fc + 1) =? g_lc (data_of ops) - g_fc (data_of ops) + 1)) eqn:Nn; cbn [negb];
        [|rewrite <- B1, E; exists spark_new; split; [reflexivity|discriminate]].
      cbn [andb] in Ft. specialize (Ft eq_refl). cbn [fits] in Ft. destruct Ft as [Fl Fc]. set (d := data_of ops) in *. apply N.leb_le in O1, O2. apply grid_lt in G1 as [G1 G1']. apply grid_lt in G2 as [G2 G2'].
      pose proof Re as Re'. unfold real_area in Re'. rewrite !andb_true_iff in Re'. destruct Re' as ((((Nm & A1) & A2) & A3) & A4). apply N.leb_le in A1, A2. apply grid_lt in A3 as [A3 A3']. apply grid_lt in A4 as [A4 A4'].
      unfold add_group_range. rewrite B1, Bo, Br. fold d.
      set (rows := negb (by_columns ops)). set (down := lc - fc =? 0). set (n := N.to_nat (if down then lr - fr + 1 else lc - fc + 1)).
      assert (Cs : cells_in fr fc lr lc = map (cell_at down fr fc) (seq 0 n)).
      { unfold n, down, cell_at. destruct (N.eqb_spec (lc - fc) 0) as [Z|Z].
        - assert (lc = fc) by lia. subst lc. apply cells_down.
        - assert (lr = fr) by (destruct Fl; lia). subst lr. apply cells_right. }
      assert (Ns : n = N.to_nat (if by_columns ops then g_lc d - g_fc d + 1 else g_lr d - g_fr d + 1)).
      { rewrite Cs, slices_are, !map_length, !seq_length in Fc. exact Fc. }
      assert (Sl : forall k, slice_at rows (baseline rows d) k = slice_at rows d k) by (intros k; unfold slice_at, baseline, rows; destruct (by_columns ops); reflexivity).
      destruct (loop_spec m u letters rows down n fr fc (baseline rows d) []) as (c' & l' & El & Fw).
      + unfold baseline. destruct rows; exact (name_start _ Nm).
      + unfold baseline. destruct rows; exact Dt.
      + unfold baseline. destruct rows; exact Q.
      + unfold baseline. destruct rows; reflexivity.
      + unfold baseline, rows in *. destruct (by_columns ops); cbn [negb g_fr] in *; lia.
      + unfold baseline, rows in *. destruct (by_columns ops); cbn [negb g_fc] in *; lia.
      + unfold baseline, rows in *. destruct (by_columns ops); cbn [negb g_lr] in *; lia.
      + unfold baseline, rows in *. destruct (by_columns ops); cbn [negb g_lc] in *; lia.
      + unfold n. destruct down; lia.
      + unfold n. destruct down; lia.
      + exact G1.
      + exact G1'.
      + rewrite El. cbn [obind fst snd app]. exists (with_ranges (spark_of ops) c' l'). split; [reflexivity|]. intros _. apply (made_reads (AddGroup fr fc lr lc ops)); [exact F|exact Dd|]. exists c', l'. split; [reflexivity|].
        cbn [asked_cells]. fold d. rewrite Cs, slices_are, <- Ns, combine_maps. fold rows. erewrite map_ext; [exact Fw|]. intros k. cbn beta. rewrite Sl. reflexivity.
  Qed.

  Lemma groups_app l : forall x xs s, groups_xml m u num_text l = Some xs -> group_xml m u num_text s = Some x -> groups_xml m u num_text (s :: l) = Some (x :: xs).
  Proof. intros x xs s E1 E2. cbn [groups_xml]. rewrite E2, E1. reflexivity. Qed.
  Lemma groups_snoc l : forall xs s x, groups_xml m u num_text l = Some xs -> group_xml m u num_text s = Some x -> groups_xml m u num_text (l ++ [s]) = Some (xs ++ [x]).
  Proof.
    induction l as [|a l IH]; intros xs s x E1 E2; cbn [groups_xml app] in *; [injection E1 as <-; rewrite E2; reflexivity|].
    destruct (group_xml m u num_text a) as [y|]; [|discriminate]. destruct (groups_xml m u num_text l) as [ys|] eqn:El; [|discriminate]. cbn [obind] in *. injection E1 as <-. rewrite (IH ys s x eq_refl E2). reflexivity.
  Qed.
  Definition groups_say (l : list spark) (gs : list rgroup) : Prop :=
    Forall2 (fun s g => exists x, group_xml m u num_text s = Some x /\ wx_ok x /\ read_group (node_of x) = Some g) l gs.
  Lemma groups_written l gs : groups_say l gs -> exists xs, groups_xml m u num_text l = Some xs /\ Forall wx_ok xs /\ read_all read_group (map node_of xs) = Some gs.
  Proof.
    induction 1 as [|s g l gs (x & Ex & Wx & Rx) F (xs & E & W & R)]; [exists []; repeat split; constructor|]. exists (x :: xs). split; [apply groups_app; assumption|]. split; [constructor; assumption|].
    cbn [map read_all]. rewrite Rx. cbn [bind]. rewrite R. reflexivity.
  Qed.
  Lemma forall2_rev {A B} (P : A -> B -> Prop) l l' : Forall2 P l l' -> Forall2 P (rev l) (rev l').
  Proof. induction 1 as [|a b l l' H F IH]; [constructor|]. cbn [rev]. apply Forall2_app; [exact IH|constructor; [exact H|constructor]]. Qed.
  Lemma run_spec calls : forall l gs, Forall spark_ok calls -> groups_say l gs -> exists l', spark_run m u l calls = Some (l', map (fun a => negb (taken a)) calls) /\
    groups_say l' (gs ++ map (asked_group num_text) (filter taken calls)).
  Proof.
    induction calls as [|a calls IH]; intros l gs F S; [exists l; rewrite app_nil_r; split; [reflexivity|exact S]|]. pose proof (Forall_inv F) as Fa. cbn [spark_run filter map].
    destruct (call_spec l a Fa) as (s & E & H). rewrite E. cbn [obind fst snd].
    destruct (taken a) eqn:Ta.
    - destruct (IH (l ++ [s]) (gs ++ [asked_group num_text a]) (Forall_inv_tail F)) as (l' & El & Sl).
      { apply Forall2_app; [exact S|]. constructor; [exact (H eq_refl)|constructor]. }
      exists l'. rewrite El. cbn [obind fst snd]. split; [reflexivity|]. rewrite <- app_assoc in Sl. exact Sl.
    - destruct (IH l gs (Forall_inv_tail F) S) as (l' & El & Sl). exists l'. rewrite El. cbn [obind fst snd]. split; [reflexivity|exact Sl].
  Qed.

  (** C69: no call panics, a call fails exactly if its cells or its data are not as
      required, and the sheet has the groups of the calls that did not, the last first,
      saying what was asked for: each cell has its row or column of the data. *)
  Theorem C69_sparklines_partial calls : Forall spark_ok calls -> exists l out,
    spark_run m u [] calls = Some (l, map (fun a => negb (taken a)) calls) /\
    sparklines_xml m u num_text l = Some out /\ match out with Some xs => Forall wx_ok xs | None => True end /\
    forall i, n_sparklines i = out -> n_x14_cf i = None -> sections_ok i ->
      exists text root, worksheet_text num_text m i = Some text /\ read_document text = Some root /\
        read_sparklines root = Some (rev (map (asked_group num_text) (filter taken calls))).
  Proof.
    intros F. destruct (run_spec calls [] [] F ltac:(constructor)) as (l & El & Sl). cbn [app] in Sl. exists l. destruct (groups_written _ _ (forall2_rev _ _ _ Sl)) as (xs & Ex & Wx & Rx).
    exists (match l with [] => None | _ => Some xs end). split; [exact El|]. split; [unfold sparklines_xml; destruct l; [reflexivity|rewrite Ex; reflexivity]|]. split; [destruct l; [exact I|exact Wx]|].
    intros i Hi Hx Ok. assert (B : both_extensions i = false) by (unfold both_extensions; rewrite Hx; reflexivity).
    destruct (worksheet_section num_text m plain_numbers i Ok B) as (text & root & Et & Rd & _ & _ & _ & _ & _ & _ & _ & _ & _ & _ & _ & _ & Kx). exists text, root. split; [exact Et|]. split; [exact Rd|].
    unfold read_sparklines. rewrite kid_is, Kx. unfold ext_nodes. rewrite Hx, Hi. destruct l as [|s l].
    - inversion Sl as [E0|]. reflexivity.
    - cbn [kids_of]. rewrite kid_one. cbn [String.eqb Ascii.eqb Bool.eqb bind attrs_of]. unfold ext_attrs. rewrite !attr_cons. cbn [String.eqb Ascii.eqb Bool.eqb bind]. change (str_eqb (lit spark_ext_uri) sparkline_uri) with true. cbv iota.
      cbn [kids_of]. unfold spark_ext_body. cbn [node_of]. rewrite kid_one. cbn [String.eqb Ascii.eqb Bool.eqb bind kids_of]. exact Rx.
  Qed.
End Sparklines.

(** In a release build, every name can be quoted; in a debug build every name without a dot. *)
Lemma quotable_release u s : quotable Release u s. Proof. apply quote_total_release. Qed.
Lemma quotable_debug u s : unicode_ok u -> ~ In 46 s -> quotable Debug u s. Proof. apply quote_total_debug. Qed.

(** ** What does not hold *)
Definition data2 (rows cols : N) : crange := {| g_sheet := lit "Sheet1"; g_fr := 0; g_fc := 0; g_lr := rows - 1; g_lc := cols - 1 |}.
Definition written_cells (m : ovf) (calls : list spark_call) : option (list (list (str * str))) :=
  match spark_run m ascii_unicode [] calls with Some (l, _) => Some (map s_ranges l) | None => None end.
(** Five cells in a column for two rows of five columns, taken row by row: the last three refer to rows below the data. *)
Theorem C69_outside_data_refuted m : taken (AddGroup 0 9 4 9 [SRange (data2 2 5)]) = true /\
  written_cells m [AddGroup 0 9 4 9 [SRange (data2 2 5)]] =
    Some [[(lit "J1", lit "Sheet1!A1:E1"); (lit "J2", lit "Sheet1!A2:E2"); (lit "J3", lit "Sheet1!A3:E3"); (lit "J4", lit "Sheet1!A4:E4"); (lit "J5", lit "Sheet1!A5:E5")]].
Proof. split; [reflexivity|]. destruct m; vm_compute; reflexivity. Qed.
(** A block of cells, two by two: those in the second row get nothing. *)
Theorem C69_block_refuted m : taken (AddGroup 0 9 1 10 [SRange (data2 2 3)]) = true /\ cells_in 0 9 1 10 = [(0, 9); (0, 10); (1, 9); (1, 10)] /\
  written_cells m [AddGroup 0 9 1 10 [SRange (data2 2 3)]] = Some [[(lit "J1", lit "Sheet1!A1:C1"); (lit "K1", lit "Sheet1!A2:C2")]].
Proof. split; [reflexivity|]. split; [reflexivity|]. destruct m; vm_compute; reflexivity. Qed.
(** The range of the dates is not checked: here it is outside of every sheet, and written. *)
Definition bad_dates : crange := {| g_sheet := lit "Sheet1"; g_fr := 2000000; g_fc := 0; g_lr := 5; g_lc := 0 |}.
Theorem C69_dates_refuted m : exists x, match spark_run m ascii_unicode [] [AddOne 0 9 [SRange (data2 1 5); SDates bad_dates]] with
    | Some ([s], [false]) => group_xml m ascii_unicode (fun _ => []) s | _ => None end = Some x /\
  bind (read_group (node_of x)) v_dates = Some (lit "Sheet1", (2000000, 0, (5, 0))).
Proof.
  destruct (match spark_run m ascii_unicode [] [AddOne 0 9 [SRange (data2 1 5); SDates bad_dates]] with
    | Some ([s], [false]) => group_xml m ascii_unicode (fun _ => []) s | _ => None end) as [x|] eqn:E; [|destruct m; vm_compute in E; discriminate E].
  exists x. split; [reflexivity|]. destruct m; vm_compute in E; assert (X : x = match Some x with Some y => y | None => x end) by reflexivity; rewrite <- E in X; rewrite X; vm_compute; reflexivity.
Qed.
(** A column number that cannot be one is not refused with an error in a debug build. *)
Theorem C69_limit_refuted : let d := {| g_sheet := lit "Sheet1"; g_fr := 0; g_fc := 65535; g_lr := 0; g_lc := 65535 |} in
  spark_call_step Debug ascii_unicode [] (AddOne 0 0 [SRange d]) = None /\ spark_call_step Release ascii_unicode [] (AddOne 0 0 [SRange d]) = Some ([], true).
Proof. split; vm_compute; reflexivity. Qed.

(** ** An example *)
Definition demo_sparks : list spark_call :=
  [AddOne 0 5 [SRange (data2 1 5); SKind KColumn; SPointColor PHigh (CRGB 255); SShow PLow true; SShow PHigh false; SStyle 34; SCustomMax fzero; SGroupMax true; SSeriesColor (CTheme 4 7)];
   AddOne 0 6 [SRange (data2 2 5)];
   AddGroup 1 5 3 5 [SRange {| g_sheet := lit "My Data"; g_fr := 1; g_fc := 0; g_lr := 3; g_lc := 4 |}; SDates (data2 1 5); SWeight fzero];
   AddGroup 9 0 9 4 [SRange (data2 3 5); SColumnOrder true; SEmpty EConnected];
   AddGroup 9 0 9 6 [SRange (data2 3 5)]].
Example C69_meets m num_text : Forall (spark_ok m ascii_unicode) demo_sparks /\ map taken demo_sparks = [true; false; true; true; false] /\
  map (fun g => (v_points g, v_max g, v_series g, v_cells g)) (map (asked_group num_text) (filter taken demo_sparks)) =
    [([false; false; false; false; false; true], GroupData, RRgb 45136, [(0, 5, (lit "Sheet1", (0, 0, (0, 4))))]);
     ([false; false; false; false; false; false], OwnData, RTheme 4 (-50), [(1, 5, (lit "My Data", (1, 0, (1, 4)))); (2, 5, (lit "My Data", (2, 0, (2, 4)))); (3, 5, (lit "My Data", (3, 0, (3, 4))))]);
     ([false; false; false; false; false; false], OwnData, RTheme 4 (-50), map (fun k => (9, k, (lit "Sheet1", (0, k, (2, k))))) [0; 1; 2; 3; 4])].
Proof.
  split; [|split; vm_compute; reflexivity].
  assert (Q1 : quotable m ascii_unicode (lit "Sheet1")) by (exists (lit "Sheet1"); destruct m; vm_compute; reflexivity).
  assert (Q2 : quotable m ascii_unicode (lit "My Data")) by (exists (lit "'My Data'"); destruct m; vm_compute; reflexivity).
  assert (Ty : forall c, g_fr c <= 100 -> g_lr c <= 100 -> g_fc c <= 100 -> g_lc c <= 100 -> in_types c) by (unfold in_types; change (2 ^ 32 - 1) with 4294967295; intros; lia).
  unfold demo_sparks. repeat apply Forall_cons; try apply Forall_nil; unfold spark_ok; cbn [ops_of]; cbv zeta.
  all: split; [repeat constructor|]; split; [apply Ty; vm_compute; discriminate|]; split; [reflexivity|]; split; [first [exact Q1|exact Q2]|].
  all: split; [first [left; reflexivity|right; split; [reflexivity|]; split; [reflexivity|exact Q1]]|].
  - intros _. exact I.
  - intros _. exact I.
  - intros _. split; [right; reflexivity|reflexivity].
  - intros _. split; [left; reflexivity|reflexivity].
  - intros X. vm_compute in X. discriminate X.
Qed.
Print Assumptions C69_sparklines_partial.
