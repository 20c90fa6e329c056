(** Property C41: set_range_format_with_border. *)
From Coq Require FinFun.
From Verif Require Import Base SMap F64 Fmt_Model Sst_Model Cells_Model Cells_Spec Cells_Inv Cells_Proofs Cells_Proofs2 Cells_Save Cells_Hist
  Sheet_Proofs Props_Cells Border_Model Border_Spec.

(** The position the code selects for a cell of the rectangle. *)
Definition position (fr fc lr lc r c : N) : border_position :=
  if (fr =? lr) && (fc =? lc) then All
  else if fr =? lr then (if c =? fc then RowLeft else if c =? lc then RowRight else RowCenter)
  else if fc =? lc then (if r =? fr then ColTop else if r =? lr then ColBottom else ColCenter)
  else if r =? fr then (if c =? fc then TopLeft else if c =? lc then TopRight else TopCenter)
  else if r =? lr then (if c =? fc then BottomLeft else if c =? lc then BottomRight else BottomCenter)
  else if c =? fc then CenterLeft else if c =? lc then CenterRight else CenterCenter.
Definition border_op (fr fc lr lc : N) (cf bf : Format) (p : N * N) : op :=
  SetCellFormat (fst p) (snd p) (combined_border_format cf bf (position fr fc lr lc (fst p) (snd p))).
Definition border_ops fr fc lr lc cf bf : list op := map (border_op fr fc lr lc cf bf) (range_cells fr fc lr lc).

Lemma try_run {A} (body : ws -> A -> ws * option error) (ops : A -> list op) l :
  (forall x w, In x l -> body w x = (run w (ops x), None)) -> forall w, try_each body l w = (run w (flat_map ops l), None).
Proof.
  induction l as [|x l IH]; intros H w; [reflexivity|]. cbn [try_each flat_map].
  rewrite (H x w) by (left; reflexivity). unfold run. rewrite fold_left_app. apply IH. intros. apply H. right. assumption.
Qed.
Lemma scf_run w r c f : in_limits r c -> set_cell_format w r c f = (run w [SetCellFormat r c f], None).
Proof.
  intros [A B]. cbn [run fold_left step]. unfold set_cell_format. pose proof (cd_accepts w r c A B) as E.
  destruct (check_dimensions w r c) as [w1 b]. cbn [snd] in E. subst b. cbn [negb]. destruct (reg w1 f). reflexivity.
Qed.
Lemma range_incl_In a b x : In x (range_incl a b) <-> a <= x <= b.
Proof.
  unfold range_incl. rewrite in_map_iff. split.
  - intros (i & <- & H). apply in_seq in H. lia.
  - intros H. exists (N.to_nat (x - a)). split; [lia|]. apply in_seq. lia.
Qed.
Lemma range_incl_NoDup a b : NoDup (range_incl a b).
Proof.
  unfold range_incl. apply FinFun.Injective_map_NoDup; [intros i j H; lia|apply seq_NoDup].
Qed.
Lemma range_incl_self a : range_incl a a = [a].
Proof. unfold range_incl. replace (N.to_nat (a + 1 - a)) with 1%nat by lia. cbn [seq map]. f_equal. lia. Qed.
Lemma range_cells_In fr fc lr lc r c : In (r, c) (range_cells fr fc lr lc) <-> fr <= r <= lr /\ fc <= c <= lc.
Proof.
  unfold range_cells. rewrite in_flat_map. split.
  - intros (x & Hx & H). apply in_map_iff in H as (y & E & Hy). injection E as -> ->. apply range_incl_In in Hx, Hy. auto.
  - intros [H1 H2]. exists r. split; [apply range_incl_In; assumption|]. apply in_map_iff. exists c. split; [reflexivity|]. apply range_incl_In. assumption.
Qed.
Lemma range_cells_NoDup fr fc lr lc : NoDup (range_cells fr fc lr lc).
Proof.
  unfold range_cells. pose proof (range_incl_NoDup fr lr) as H. induction (range_incl fr lr) as [|r l IH]; [constructor|].
  inversion H; subst. cbn [flat_map].
  assert (A : NoDup (map (fun c : N => (r, c)) (range_incl fc lc))).
  { apply FinFun.Injective_map_NoDup; [intros i j E; congruence|apply range_incl_NoDup]. }
  specialize (IH H3). revert A. generalize (range_incl fc lc) at 1 2 as cs. intros cs0 A.
  assert (B : forall p, In p (map (fun c : N => (r, c)) cs0) -> ~ In p (flat_map (fun r0 => map (fun c => (r0, c)) (range_incl fc lc)) l)).
  { intros p Hp Hq. apply in_map_iff in Hp as (c & <- & _). apply in_flat_map in Hq as (r' & Hr & Hq).
    apply in_map_iff in Hq as (c' & E & _). congruence. }
  revert A B. induction (map (fun c : N => (r, c)) cs0) as [|p ps IHp]; intros A B; [assumption|].
  inversion A; subst. cbn [app]. constructor.
  - rewrite in_app_iff. intros [|]; [contradiction|]. apply (B p); [left; reflexivity|assumption].
  - apply IHp; [assumption|]. intros. apply B. right. assumption.
Qed.

Definition good_range (fr fc lr lc : N) : Prop := in_limits fr fc /\ in_limits lr lc /\ fr <= lr /\ fc <= lc.

Lemma flat_map_single {A B} (f : A -> B) l : flat_map (fun x => [f x]) l = map f l.
Proof. induction l; cbn; [|rewrite IHl]; reflexivity. Qed.
Lemma flat_map_flat {A B C} (f : A -> list B) (g : B -> C) l : map g (flat_map f l) = flat_map (fun x => map g (f x)) l.
Proof. induction l; cbn; [reflexivity|]. rewrite map_app, IHl. reflexivity. Qed.

(** The whole call is the sequence of the per-cell calls. *)
Lemma border_run w fr fc lr lc cf bf : good_range fr fc lr lc ->
  set_range_format_with_border w fr fc lr lc cf bf = (run w (border_ops fr fc lr lc cf bf), None).
Proof.
  intros (L1 & L2 & Hr & Hc). unfold set_range_format_with_border.
  assert (D1 : check_dimensions_only fr fc = true) by (destruct L1; unfold check_dimensions_only; apply andb_true_intro; split; apply N.ltb_lt; assumption).
  assert (D2 : check_dimensions_only lr lc = true) by (destruct L2; unfold check_dimensions_only; apply andb_true_intro; split; apply N.ltb_lt; assumption).
  rewrite D1, D2. cbn [negb orb]. replace (lr <? fr) with false by (symmetry; apply N.ltb_ge; assumption).
  replace (lc <? fc) with false by (symmetry; apply N.ltb_ge; assumption). cbn [orb].
  destruct L1 as [R1 C1], L2 as [R2 C2].
  unfold border_ops, border_op, position, range_cells.
  destruct (N.eqb_spec fr lr) as [Er|Er], (N.eqb_spec fc lc) as [Ec|Ec]; cbn [andb].
  - subst lr lc. rewrite !range_incl_self. cbn [flat_map map app]. unfold set_range_border_cell. rewrite scf_run by (split; assumption). reflexivity.
  - subst lr. rewrite range_incl_self. cbn [flat_map]. rewrite app_nil_r, map_map. cbn [fst snd]. unfold set_range_border_row.
    rewrite <- flat_map_single. apply try_run. intros c w0 H. apply range_incl_In in H.
    assert (L : in_limits fr c) by (split; [assumption|lia]).
    destruct (c =? fc); [|destruct (c =? lc)]; apply scf_run; assumption.
  - subst lc. rewrite range_incl_self. cbn [map]. unfold set_range_border_col.
    rewrite flat_map_flat. cbn [map fst snd]. apply try_run. intros r w0 H. apply range_incl_In in H.
    assert (L : in_limits r fc) by (split; [lia|assumption]).
    destruct (r =? fr); [|destruct (r =? lr)]; apply scf_run; assumption.
  - unfold set_range_border_range. rewrite flat_map_flat. apply try_run. intros r w0 H. apply range_incl_In in H.
    rewrite map_map. cbn [fst snd]. rewrite <- flat_map_single. apply try_run. intros c w1 H2. apply range_incl_In in H2.
    assert (L : in_limits r c) by (split; lia).
    destruct (r =? fr); [destruct (c =? fc); [|destruct (c =? lc)]; apply scf_run; assumption|].
    destruct (r =? lr); [destruct (c =? fc); [|destruct (c =? lc)]; apply scf_run; assumption|].
    destruct (c =? fc); [|destruct (c =? lc)]; apply scf_run; assumption.
Qed.

(** The format of each position is the promised one. *)
Lemma combined_outlined fr fc lr lc cf bf r c : fr <= r <= lr -> fc <= c <= lc ->
  outlined fr fc lr lc cf bf r c (combined_border_format cf bf (position fr fc lr lc r c)).
Proof.
  intros Hr Hc. unfold outlined, position.
  split; [|split].
  - intros s H. destruct s; cbn [on_edge] in H; subst;
    repeat match goal with
    | |- context [?a =? ?a] => rewrite (N.eqb_refl a)
    | |- context [?a =? ?b] => destruct (N.eqb_spec a b); subst
    end; cbn [andb]; try reflexivity; exfalso; lia.
  - intros s H. destruct s; cbn [on_edge] in H;
    repeat match goal with
    | |- context [?a =? ?a] => rewrite (N.eqb_refl a)
    | |- context [?a =? ?b] => destruct (N.eqb_spec a b); subst
    end; cbn [andb]; try reflexivity; exfalso; lia.
  - destruct (_ && _); [repeat split|].
    destruct (fr =? lr); [destruct (c =? fc); [|destruct (c =? lc)]; repeat split|].
    destruct (fc =? lc); [destruct (r =? fr); [|destruct (r =? lr)]; repeat split|].
    destruct (r =? fr); [destruct (c =? fc); [|destruct (c =? lc)]; repeat split|].
    destruct (r =? lr); [destruct (c =? fc); [|destruct (c =? lc)]; repeat split|].
    destruct (c =? fc); [|destruct (c =? lc)]; repeat split.
Qed.
Lemma format_ext f g : (forall s, line f s = line g s) -> same_otherwise f g -> f = g.
Proof.
  intros L (A1 & A2 & A3 & A4 & A5 & A6 & A7 & A8 & A9 & A10 & A11 & A12).
  pose proof (L Top) as T. pose proof (L Bottom) as B. pose proof (L Left) as E. pose proof (L Right) as R. clear L.
  cbn [line] in *. injection T as T1 T2. injection B as B1 B2. injection E as E1 E2. injection R as R1 R2.
  destruct f as [? ? ? ? bo ? ? ? ? ?], g as [? ? ? ? bo' ? ? ? ? ?]. cbn in *. destruct bo, bo'. cbn in *. congruence.
Qed.
(** The promised format is unique. *)
Lemma outlined_unique fr fc lr lc cf bf r c f g :
  outlined fr fc lr lc cf bf r c f -> outlined fr fc lr lc cf bf r c g -> f = g.
Proof.
  intros (A1 & A2 & A3) (B1 & B2 & B3). apply format_ext.
  - intros s. assert (D : on_edge fr fc lr lc r c s \/ ~ on_edge fr fc lr lc r c s).
    { destruct s; cbn [on_edge]; [destruct (N.eq_dec r fr)|destruct (N.eq_dec r lr)|destruct (N.eq_dec c fc)|destruct (N.eq_dec c lc)]; auto. }
    destruct D as [D|D]; [rewrite A1, B1 by assumption|rewrite A2, B2 by assumption]; reflexivity.
  - unfold same_otherwise in *. intuition congruence.
Qed.

Lemma nodup_split {A} (x : A) l : NoDup l -> In x l -> exists a b, l = a ++ x :: b /\ ~ In x a /\ ~ In x b.
Proof.
  intros N H. apply in_split in H as (a & b & ->). exists a, b. split; [reflexivity|].
  apply NoDup_remove_2 in N. rewrite in_app_iff in N. tauto.
Qed.
Lemma border_op_away fr fc lr lc cf bf l r c : ~ In (r, c) l ->
  forall o, In o (map (border_op fr fc lr lc cf bf) l) -> touches o r c = false.
Proof.
  intros H o Ho. apply in_map_iff in Ho as ([r' c'] & <- & Hp). cbn [border_op touches fst snd].
  destruct (here r' c' r c) eqn:E; [|reflexivity]. apply here_true in E as [-> ->]. contradiction.
Qed.
Lemma away_untouched r c post ops : (forall o, In o ops -> touches o r c = false) -> forall w,
  untouched (run w ops) post r c -> untouched w (ops ++ post) r c.
Proof.
  induction ops as [|o ops IH]; intros H w U; [exact U|]. cbn [app untouched]. split.
  - left. apply H. left. reflexivity.
  - apply IH; [intros; apply H; right; assumption|]. exact U.
Qed.
Lemma away_same r c ops : (forall o, In o ops -> touches o r c = false) -> forall w, std w ->
  table_get r c (data (run w ops)) = table_get r c (data w).
Proof.
  induction ops as [|o ops IH]; intros H w S; [reflexivity|]. rewrite run_cons. destruct (step w o) as [w' e] eqn:E.
  destruct (std_step _ _ _ _ S E) as [S' F]. cbn [fst]. rewrite IH; [|intros; apply H; right; assumption|assumption].
  apply F. apply H. left. reflexivity.
Qed.

(** ** The property *)

(** Every cell of the rectangle is written with the format promised by
    [outlined], provided nothing mentions the cell afterwards and that format
    is not the default one. *)
Theorem C41_cells_of_the_range_are_outlined pre post fr fc lr lc cf bf w1 r c t g :
  keeps_styles g ->
  set_range_format_with_border (run ws_standard pre) fr fc lr lc cf bf = (w1, None) ->
  fr <= r <= lr -> fc <= c <= lc -> untouched w1 post r c ->
  exists out, outlined fr fc lr lc cf bf r c out /\
    (out <> format_default ->
     let w := run w1 post in
     exists v i, shown (sheet_rows w t g) r c = [(v, g i)] /\ i <> 0 /\ nth_error (xfs w) (N.to_nat i) = Some out).
Proof.
  intros Hg E Hr Hc U.
  assert (G : good_range fr fc lr lc).
  { unfold set_range_format_with_border in E.
    destruct (negb (check_dimensions_only fr fc) || negb (check_dimensions_only lr lc)) eqn:E1; [discriminate|].
    destruct ((lr <? fr) || (lc <? fc)) eqn:E2; [discriminate|].
    unfold check_dimensions_only in E1. unfold good_range, in_limits. repeat split; lia. }
  rewrite border_run in E by assumption. apply pair_equal_spec in E as [E _].
  exists (combined_border_format cf bf (position fr fc lr lc r c)). split; [apply combined_outlined; assumption|].
  intros Hne. cbv zeta.
  destruct (nodup_split (r, c) _ (range_cells_NoDup fr fc lr lc)) as (a & b & Eab & Na & Nb); [apply range_cells_In; auto|].
  unfold border_ops in E. rewrite Eab, map_app in E. cbn [map] in E.
  remember (map (border_op fr fc lr lc cf bf) a) as A eqn:EA. remember (map (border_op fr fc lr lc cf bf) b) as B eqn:EB.
  assert (EW : run w1 post = run ws_standard ((pre ++ A) ++ border_op fr fc lr lc cf bf (r, c) :: (B ++ post))).
  { rewrite <- E, !run_app, !run_cons, !run_app. reflexivity. }
  rewrite EW.
  assert (L : in_limits r c) by (unfold good_range, in_limits in *; lia).
  set (w0 := run ws_standard (pre ++ A)) in *.
  assert (ES : step w0 (border_op fr fc lr lc cf bf (r, c)) = (run w0 [border_op fr fc lr lc cf bf (r, c)], None)).
  { apply scf_run. assumption. }
  apply (C27_own_format_wins (pre ++ A) (border_op fr fc lr lc cf bf (r, c)) (B ++ post) _ r c _ t g Hg ES); try assumption.
  - cbn [border_op gives_format fst snd]. rewrite here_refl. reflexivity.
  - reflexivity.
  - apply away_untouched; [subst B; apply border_op_away; assumption|].
    replace (run (run w0 [border_op fr fc lr lc cf bf (r, c)]) B) with w1; [assumption|].
    rewrite <- E. unfold w0. rewrite !run_app. reflexivity.
Qed.

(** Directly after the call, every cell of the rectangle, stored or not, has the
    promised format: a cell that is not stored has the default format. *)
Theorem C41_no_cell_of_the_range_is_missed pre fr fc lr lc cf bf w1 r c :
  set_range_format_with_border (run ws_standard pre) fr fc lr lc cf bf = (w1, None) ->
  fr <= r <= lr -> fc <= c <= lc ->
  exists out, outlined fr fc lr lc cf bf r c out /\
    match table_get r c (data w1) with
    | Some (_, i) => nth_error (xfs w1) (N.to_nat i) = Some out
    | None => out = format_default
    end.
Proof.
  intros E Hr Hc.
  assert (G : good_range fr fc lr lc).
  { unfold set_range_format_with_border in E.
    destruct (negb (check_dimensions_only fr fc) || negb (check_dimensions_only lr lc)) eqn:E1; [discriminate|].
    destruct ((lr <? fr) || (lc <? fc)) eqn:E2; [discriminate|].
    unfold check_dimensions_only in E1. unfold good_range, in_limits. repeat split; lia. }
  rewrite border_run in E by assumption. apply pair_equal_spec in E as [E _].
  exists (combined_border_format cf bf (position fr fc lr lc r c)). split; [apply combined_outlined; assumption|].
  destruct (nodup_split (r, c) _ (range_cells_NoDup fr fc lr lc)) as (a & b & Eab & Na & Nb); [apply range_cells_In; auto|].
  unfold border_ops in E. rewrite Eab, map_app in E. cbn [map] in E.
  remember (map (border_op fr fc lr lc cf bf) a) as A eqn:EA. remember (map (border_op fr fc lr lc cf bf) b) as B eqn:EB.
  assert (L : in_limits r c) by (unfold good_range, in_limits in *; lia).
  destruct (std_run (pre ++ A) ws_standard std_start) as [S0 _]. rewrite run_app in S0.
  set (w0 := run (run ws_standard pre) A) in *.
  destruct (step w0 (border_op fr fc lr lc cf bf (r, c))) as [w2 e] eqn:ES.
  assert (E2 : w1 = run w2 B).
  { rewrite <- E, run_app, run_cons. fold w0. rewrite ES. reflexivity. }
  destruct (std_step _ _ _ _ S0 ES) as [S2 _]. destruct (std_run B w2 S2) as [S1 M].
  assert (T : table_get r c (data w1) = table_get r c (data w2)).
  { rewrite E2. apply away_same; [subst B; apply border_op_away; assumption|assumption]. }
  rewrite T. cbn [border_op fst snd step] in ES. assert (e = None).
  { rewrite scf_run in ES by assumption. congruence. }
  subst e. apply set_cell_format_spec in ES; [|apply S0].
  destruct ES as (w3 & i & M3 & D3 & N3 & _ & _ & ->).
  rewrite insert_cell_format_get, here_refl, D3.
  destruct (insert_cell_format_frame w3 r c i) as [d Ed].
  assert (Nw : nth_error (xfs w1) (N.to_nat i) = Some (combined_border_format cf bf (position fr fc lr lc r c))).
  { rewrite E2. eapply prefix_nth; [apply M|]. rewrite Ed. exact N3. }
  destruct ((i =? 0) && _) eqn:Ei.
  - apply andb_prop in Ei as [Ei _]. apply N.eqb_eq in Ei. subst i.
    pose proof (d_reg _ S1) as R. unfold reg0 in R. rewrite E2 in Nw. change (N.to_nat 0) with 0%nat in Nw. congruence.
  - unfold fmt_cell. destruct (table_get r c (data w0)) as [[k x]|]; exact Nw.
Qed.

(** No cell outside the rectangle changes, and no contents change anywhere. *)
Theorem C41_other_cells_unchanged pre fr fc lr lc cf bf r c :
  ~ (fr <= r <= lr /\ fc <= c <= lc) ->
  table_get r c (data (fst (set_range_format_with_border (run ws_standard pre) fr fc lr lc cf bf))) =
  table_get r c (data (run ws_standard pre)).
Proof.
  intros H. unfold set_range_format_with_border at 1.
  destruct (negb (check_dimensions_only fr fc) || negb (check_dimensions_only lr lc)) eqn:E1; [reflexivity|].
  destruct ((lr <? fr) || (lc <? fc)) eqn:E2; [reflexivity|].
  assert (G : good_range fr fc lr lc) by (unfold check_dimensions_only in E1; unfold good_range, in_limits; repeat split; lia).
  pose proof (border_run (run ws_standard pre) fr fc lr lc cf bf G) as E.
  unfold set_range_format_with_border in E. rewrite E1, E2 in E. rewrite E. cbn [fst].
  apply away_same; [|apply std_run, std_start].
  apply border_op_away. rewrite range_cells_In. exact H.
Qed.
Theorem C41_contents_unchanged pre fr fc lr lc cf bf r c k x :
  table_get r c (data (run ws_standard pre)) = Some (k, x) ->
  exists x', table_get r c (data (fst (set_range_format_with_border (run ws_standard pre) fr fc lr lc cf bf))) = Some (k, x').
Proof.
  intros H. unfold set_range_format_with_border at 1.
  destruct (negb (check_dimensions_only fr fc) || negb (check_dimensions_only lr lc)) eqn:E1; [eauto|].
  destruct ((lr <? fr) || (lc <? fc)) eqn:E2; [eauto|].
  assert (G : good_range fr fc lr lc) by (unfold check_dimensions_only in E1; unfold good_range, in_limits; repeat split; lia).
  pose proof (border_run (run ws_standard pre) fr fc lr lc cf bf G) as E.
  unfold set_range_format_with_border in E. rewrite E1, E2 in E. rewrite E. cbn [fst]. clear E.
  destruct (std_run pre ws_standard std_start) as [S _]. revert S x H. generalize (run ws_standard pre).
  unfold border_ops. induction (range_cells fr fc lr lc) as [|p l IH]; intros w S x H; [eauto|]. cbn [map]. rewrite run_cons.
  destruct (step w (border_op fr fc lr lc cf bf p)) as [w' e] eqn:E. destruct (std_step _ _ _ _ S E) as [S' F]. cbn [fst].
  pose proof (sf_keep _ _ _ _ F r c eq_refl) as K. rewrite H in K. destruct K as [x' K]. apply (IH w' S' x' K).
Qed.

(** The call is rejected exactly if a corner is outside the worksheet or the
    corners are in the wrong order, and then nothing at all changes. *)
Theorem C41_rejected_iff w fr fc lr lc cf bf :
  (snd (set_range_format_with_border w fr fc lr lc cf bf) <> None <->
   ~ (fr <= lr /\ fc <= lc /\ lr < 1048576 /\ lc < 16384)) /\
  (snd (set_range_format_with_border w fr fc lr lc cf bf) <> None ->
   fst (set_range_format_with_border w fr fc lr lc cf bf) = w).
Proof.
  assert (D : good_range fr fc lr lc \/ ~ (fr <= lr /\ fc <= lc /\ lr < 1048576 /\ lc < 16384)).
  { unfold good_range, in_limits, ROW_MAX, COL_MAX. lia. }
  destruct D as [G|G].
  - rewrite border_run by assumption. cbn [fst snd]. split; [|congruence]. split; [congruence|].
    intros H. exfalso. apply H. unfold good_range, in_limits, ROW_MAX, COL_MAX in G. lia.
  - unfold set_range_format_with_border.
    destruct (negb (check_dimensions_only fr fc) || negb (check_dimensions_only lr lc)) eqn:E1; [cbn [fst snd]; split; [split; [auto|discriminate]|auto]|].
    destruct ((lr <? fr) || (lc <? fc)) eqn:E2; [cbn [fst snd]; split; [split; [auto|discriminate]|auto]|].
    exfalso. apply G. unfold check_dimensions_only, ROW_MAX, COL_MAX in E1. lia.
Qed.

(** A 2x3 range on a sheet with data: the corner and the middle of the top row. *)
Definition boxed : Format :=
  {| num_format := []; num_format_index := 0; font := font_default; alignment := align_default;
     borders := {| bottom_style := 5; top_style := 5; left_style := 5; right_style := 5;
                   bottom_color := CDefault; top_color := CDefault; left_color := CDefault; right_color := CDefault;
                   diagonal_style := 0; diagonal_color := CDefault; diagonal_type := 0 |};
     fill := fill_default; hidden := false; locked := true; checkbox := false; quote_prefix := false |}.
Example C41_witness :
  let pre := [WriteNumber 2 2 (f_of_N 7) None; WriteString 9 9 (lit "x") None] in
  let '(w1, e) := set_range_format_with_border (run ws_standard pre) 1 1 2 3 bold_format boxed in
  e = None /\ shown (sheet_rows w1 sst_new (fun i => i)) 2 2 = [(VNumber (f_of_N 7), 5)] /\
  option_map (fun f => (line f Top, line f Bottom, line f Left, line f Right, bold (font f))) (nth_error (xfs w1) 5)
    = Some ((0, CDefault), (5, CDefault), (0, CDefault), (0, CDefault), true) /\
  shown (sheet_rows w1 sst_new (fun i => i)) 1 1 = [(VBlank, 1)] /\
  option_map (fun f => (line f Top, line f Bottom, line f Left, line f Right)) (nth_error (xfs w1) 1)
    = Some ((5, CDefault), (0, CDefault), (5, CDefault), (0, CDefault)).
Proof. vm_compute. auto 10. Qed.
