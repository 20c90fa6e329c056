(** Histories of calls on the settings, and how their view reads back. *)
From Verif Require Import Base F64 Ref_Model Ref_Spec Ref_Proofs Xml_Model Xml_Spec Xml_Proofs Xml_Read Xml_Read_Proofs Xml_Tree Fmt_Model Rich_Model Rich_Proofs
  Cells_Model SheetXml_Spec SheetXml_Proofs SheetXml_Proofs3 Doc_Spec Props_Ref View_Model View_Spec Setup_Spec Part_Model Tag_Proofs Part_Proofs View_Proofs Props_Part.

(** ** Histories *)
Lemma grid_check r c : check_dimensions_only r c = on_grid r c. Proof. reflexivity. Qed.
Lemma on_grid_lt r c : on_grid r c = true -> r < ROW_MAX /\ c < COL_MAX.
Proof. unfold on_grid, ROW_MAX, COL_MAX. lia. Qed.

(** One call in full. *)
Definition step_to (m : ovf) (s : setup) (o : setup_op) : setup :=
  match setup_step m s o with Some (t, _) => t | None => s end.
Lemma step_total m s o : setup_step m s o = Some (step_to m s o, refused o).
Proof.
  unfold step_to. destruct o; cbn [setup_step refused]; change check_dimensions_only with on_grid.
  5: destruct (on_grid row col); reflexivity.
  5: destruct (on_grid row col); reflexivity.
  3: destruct v; reflexivity.
  4: {
    destruct (on_grid fr fc) eqn:A, (on_grid lr lc) eqn:B; try reflexivity. cbn [negb orb andb].
    apply on_grid_lt in A as [A1 A2]. apply on_grid_lt in B as [B1 B2]. destruct (cell_text m fr fc A1 A2) as (t & -> & _).
    destruct (range_text m (N.min fr lr) (N.min fc lc) (N.max fr lr) (N.max fc lc)) as (g & -> & _); try lia. reflexivity. }
  4: {
    destruct (on_grid row col) eqn:A; [|reflexivity]. cbn [negb]. destruct ((row =? 0) && (col =? 0)); [reflexivity|].
    apply on_grid_lt in A as [A1 A2]. destruct (cell_text m row col A1 A2) as (t & -> & _). reflexivity. }
  all: reflexivity.
Qed.
Lemma run_total m calls : forall s, exists t, setup_run m s calls = Some t.
Proof.
  induction calls as [|o l IH]; intros s; [exists s; reflexivity|]. cbn [setup_run]. rewrite step_total. cbn [obind fst]. apply IH.
Qed.
Lemma run_keeps m (R : setup -> Prop) : (forall s o, R s -> R (step_to m s o)) ->
  forall calls s t, R s -> setup_run m s calls = Some t -> R t.
Proof.
  intros H. induction calls as [|o l IH]; intros s t Rs E; [assert (s = t) by (cbn in E; congruence); subst; exact Rs|].
  cbn [setup_run] in E. rewrite step_total in E. cbv beta iota delta [obind fst] in E. eapply IH; [|exact E]. apply H, Rs.
Qed.
Lemma run_latest_if {A} m (P : setup_op -> Prop) (R : setup -> A -> Prop) (sel : setup_op -> option A) :
  (forall s a o, P o -> R s a -> R (step_to m s o) (match sel o with Some v => v | None => a end)) ->
  forall calls s a t, Forall P calls -> R s a -> setup_run m s calls = Some t -> R t (latest sel a calls).
Proof.
  intros H. induction calls as [|o l IH]; intros s a t F Rs E; [assert (s = t) by (cbn in E; congruence); subst; exact Rs|].
  cbn [setup_run] in E. rewrite step_total in E. cbv beta iota delta [obind fst] in E. unfold latest. cbn [fold_left]. inversion F; subst.
  apply (IH (step_to m s o)); [assumption|apply H; assumption|exact E].
Qed.
Lemma run_latest {A} m (R : setup -> A -> Prop) (sel : setup_op -> option A) :
  (forall s a o, R s a -> R (step_to m s o) (match sel o with Some v => v | None => a end)) ->
  forall calls s a t, R s a -> setup_run m s calls = Some t -> R t (latest sel a calls).
Proof.
  intros H calls s a t. apply (run_latest_if m (fun _ => True)); [intros; apply H; assumption|]. induction calls; constructor; auto.
Qed.

(** Splitting a call into its cases. *)
Ltac cases :=
  repeat match goal with |- context [if ?b then _ else _] => let E := fresh "B" in destruct b eqn:E end.
Lemma step_freeze m s r c : step_to m s (UFreeze r c) = if on_grid r c then set_u_freeze s (r, c) else s.
Proof. unfold step_to. cbn [setup_step]. change check_dimensions_only with on_grid. destruct (on_grid r c); reflexivity. Qed.
Lemma step_top_cell m s r c : step_to m s (UTopCell r c) = if on_grid r c then set_u_top_cell s (r, c) else s.
Proof. unfold step_to. cbn [setup_step]. change check_dimensions_only with on_grid. destruct (on_grid r c); reflexivity. Qed.
Lemma step_select m s fr fc lr lc : exists a g, step_to m s (USelect fr fc lr lc) = (if on_grid fr fc && on_grid lr lc then set_u_selection s (a, g) else s) /\
  attr_ok a /\ attr_ok g /\ given a = true /\ given g = true /\
  (on_grid fr fc && on_grid lr lc = true -> cell_of a = Some (fr, fc) /\ range_of g = Some (N.min fr lr, N.min fc lc, (N.max fr lr, N.max fc lc))).
Proof.
  unfold step_to. cbn [setup_step]. change check_dimensions_only with on_grid. destruct (on_grid fr fc) eqn:A, (on_grid lr lc) eqn:B; cbn [negb orb andb].
  2-4: exists (lit "A1"), (lit "A1"); repeat split; discriminate.
  apply on_grid_lt in A as [A1 A2]. apply on_grid_lt in B as [B1 B2]. destruct (cell_text m fr fc A1 A2) as (t & -> & T1 & T2 & T3).
  destruct (range_text m (N.min fr lr) (N.min fc lc) (N.max fr lr) (N.max fc lc)) as (g & -> & G1 & G2 & G3); try lia. exists t, g. repeat split; assumption.
Qed.
Lemma step_top_left m s r c : exists a, step_to m s (UTopLeft r c) = (if on_grid r c && negb ((r =? 0) && (c =? 0)) then set_u_top_left s a else s) /\
  attr_ok a /\ given a = true /\ (on_grid r c = true -> cell_of a = Some (r, c)).
Proof.
  unfold step_to. cbn [setup_step]. change check_dimensions_only with on_grid. destruct (on_grid r c) eqn:A; cbn [negb andb]; [|exists (lit "A1"); repeat split; discriminate].
  apply on_grid_lt in A as [A1 A2]. destruct (cell_text m r c A1 A2) as (t & -> & T1 & T2 & T3). exists t. destruct ((r =? 0) && (c =? 0)); repeat split; auto.
Qed.
(** A projection of the state after a call. *)
Lemma margin_inv {A} (f : setup -> A) x set s : (forall s v, f (set s v) = f s) -> (forall s, f (changed s) = f s) -> f (margin x set s) = f s.
Proof. intros H1 H2. unfold margin. destruct (fle (f_of_Z 0) x); [rewrite H2, H1|]; reflexivity. Qed.
Ltac each_call o :=
  destruct o;
  [ | | | | rewrite step_freeze | rewrite step_top_cell
  | match goal with |- context [step_to ?m ?s (USelect ?a ?b ?c ?d)] => destruct (step_select m s a b c d) as (ta & tg & -> & ? & ? & ? & ? & ?) end
  | match goal with |- context [step_to ?m ?s (UTopLeft ?a ?b)] => destruct (step_top_left m s a b) as (ta & -> & ? & ? & ?) end
  | | | | | | | | | | | | | | | | | | | ];
  try match goal with v : page_view |- _ => destruct v end;
  unfold step_to; cbn [setup_step]; unfold if_do, changed_options, changed_hf in *.
Ltac field_of := intros m s a o <-; each_call o; try reflexivity;
  try (repeat rewrite margin_inv by (intros; reflexivity); reflexivity);
  cbv beta iota delta [changed allowed of_grid of_rtl of_mode of_zoom of_freeze of_top_cell of_selection of_top_left of_paper of_order of_portrait of_scaling of_bw of_draft of_first_page of_center_h of_center_v of_headings of_print_grid of_header of_footer of_scale_doc of_align]; cases; reflexivity.

Definition tracks {A} (f : setup -> A) (sel : setup_op -> option A) : Prop :=
  forall m s a o, f s = a -> f (step_to m s o) = match sel o with Some v => v | None => a end.
Lemma f_grid : tracks u_grid of_grid. Proof. field_of. Qed.
Lemma f_rtl : tracks u_rtl of_rtl. Proof. field_of. Qed.
Lemma f_zoom : tracks u_zoom of_zoom. Proof. field_of. Qed.
Lemma f_freeze : tracks u_freeze of_freeze. Proof. field_of. Qed.
Lemma f_top_cell : tracks u_top_cell of_top_cell. Proof. field_of. Qed.
Lemma f_paper : tracks u_paper of_paper. Proof. field_of. Qed.
Lemma f_down : tracks u_down of_order. Proof. field_of. Qed.
Lemma f_portrait : tracks u_portrait of_portrait. Proof. field_of. Qed.
Lemma f_bw : tracks u_bw of_bw. Proof. field_of. Qed.
Lemma f_draft : tracks u_draft of_draft. Proof. field_of. Qed.
Lemma f_center_h : tracks u_center_h of_center_h. Proof. field_of. Qed.
Lemma f_center_v : tracks u_center_v of_center_v. Proof. field_of. Qed.
Lemma f_headings : tracks u_headings of_headings. Proof. field_of. Qed.
Lemma f_print_grid : tracks u_print_grid of_print_grid. Proof. field_of. Qed.
Lemma f_scale_doc : tracks u_scale_doc of_scale_doc. Proof. field_of. Qed.
Lemma f_align : tracks u_align of_align. Proof. field_of. Qed.
Lemma f_selected : tracks u_selected (fun _ => None). Proof. field_of. Qed.
Definition mode_view (v : page_view) : view_mode := match v with PvNormal => ModeNormal | PvLayout => ModePageLayout | PvBreaks => ModePageBreaks end.
Lemma f_mode : tracks (fun s => mode_view (u_mode s)) of_mode. Proof. field_of. Qed.
Definition scaling_field (s : setup) : scaling := if u_fit s then Pages (u_fit_w s) (u_fit_h s) else Percent (u_scale s).
Lemma f_scaling : tracks scaling_field of_scaling. Proof. field_of. Qed.
Definition raw_header (o : setup_op) : option str := match o with UHeader h => allowed (negb (255 <? N.of_nat (length (hf_expand h)))) h | _ => None end.
Definition raw_footer (o : setup_op) : option str := match o with UFooter h => allowed (negb (255 <? N.of_nat (length (hf_expand h)))) h | _ => None end.
Opaque hf_expand.
Ltac header_of := intros m s a o <-; each_call o; cbn [raw_header raw_footer]; unfold allowed;
  try match goal with |- context [255 <? ?n] => destruct (255 <? n) end; cbn [negb]; try reflexivity;
  try (repeat rewrite margin_inv by (intros; reflexivity); reflexivity); cases; reflexivity.
Lemma r_header : tracks u_header raw_header. Proof. header_of. Qed.
Lemma r_footer : tracks u_footer raw_footer. Proof. header_of. Qed.
Lemma f_header : tracks (fun s => hf_expand (u_header s)) of_header.
Proof.
  intros m s a o <-. rewrite (r_header m s (u_header s) o eq_refl). destruct o; try reflexivity. unfold raw_header, of_header, allowed. rewrite <- hf_shorten, N.leb_antisym.
  destruct (negb (255 <? N.of_nat (length (hf_expand s0)))); reflexivity.
Qed.
Lemma f_footer : tracks (fun s => hf_expand (u_footer s)) of_footer.
Proof.
  intros m s a o <-. rewrite (r_footer m s (u_footer s) o eq_refl). destruct o; try reflexivity. unfold raw_footer, of_footer, allowed. rewrite <- hf_shorten, N.leb_antisym.
  destruct (negb (255 <? N.of_nat (length (hf_expand s0)))); reflexivity.
Qed.
Lemma margin_hit (f : setup -> f64) x set s : (forall s v, f (set s v) = v) -> (forall s, f (changed s) = f s) -> f (margin x set s) = if fle (f_of_Z 0) x then x else f s.
Proof. intros H1 H2. unfold margin. destruct (fle (f_of_Z 0) x); [rewrite H2, H1|]; reflexivity. Qed.
Ltac margin_of := intros m s a o <-; each_call o; cbn [of_margin m_left m_right m_top m_bottom m_header m_footer];
  try (unfold changed; cases; reflexivity); try reflexivity;
  cbv zeta; unfold allowed;
  repeat rewrite margin_inv by (intros; reflexivity); rewrite margin_hit by (intros; reflexivity); repeat rewrite margin_inv by (intros; reflexivity);
  match goal with |- context [if ?b then _ else _] => destruct b end; reflexivity.
Lemma f_mleft : tracks u_left (of_margin m_left). Proof. margin_of. Qed.
Lemma f_mright : tracks u_right (of_margin m_right). Proof. margin_of. Qed.
Lemma f_mtop : tracks u_top (of_margin m_top). Proof. margin_of. Qed.
Lemma f_mbottom : tracks u_bottom (of_margin m_bottom). Proof. margin_of. Qed.
Lemma f_mheader : tracks u_mheader (of_margin m_header). Proof. margin_of. Qed.
Lemma f_mfooter : tracks u_mfooter (of_margin m_footer). Proof. margin_of. Qed.

(** Texts of the state and the cells they name. *)
Definition sel_rel (s : setup) (v : option (N * N * (N * N * (N * N)))) : Prop :=
  match v with
  | None => u_selection s = ([], [])
  | Some (c, g) => attr_ok (fst (u_selection s)) /\ attr_ok (snd (u_selection s)) /\ given (fst (u_selection s)) = true /\ given (snd (u_selection s)) = true /\
                   cell_of (fst (u_selection s)) = Some c /\ range_of (snd (u_selection s)) = Some g
  end.
Definition tl_rel (s : setup) (v : option (N * N)) : Prop :=
  match v with
  | None => u_top_left s = []
  | Some c => attr_ok (u_top_left s) /\ given (u_top_left s) = true /\ cell_of (u_top_left s) = Some c
  end.
Definition is_select (o : setup_op) : bool := match o with USelect _ _ _ _ => true | _ => false end.
Definition is_top_left (o : setup_op) : bool := match o with UTopLeft _ _ => true | _ => false end.
Lemma other_selection m s o : is_select o = false -> u_selection (step_to m s o) = u_selection s.
Proof. intros H. each_call o; try discriminate H; try reflexivity; try (repeat rewrite margin_inv by (intros; reflexivity); reflexivity); unfold changed; cases; reflexivity. Qed.
Lemma other_top_left m s o : is_top_left o = false -> u_top_left (step_to m s o) = u_top_left s.
Proof. intros H. each_call o; try discriminate H; try reflexivity; try (repeat rewrite margin_inv by (intros; reflexivity); reflexivity); unfold changed; cases; reflexivity. Qed.
Lemma r_selection m s a o : sel_rel s a -> sel_rel (step_to m s o) (match of_selection o with Some v => v | None => a end).
Proof.
  intros R. destruct (is_select o) eqn:E.
  - destruct o; try discriminate E. destruct (step_select m s fr fc lr lc) as (ta & tg & -> & A & G & Ga & Gg & C). cbn [of_selection]. unfold allowed.
    destruct (on_grid fr fc && on_grid lr lc); [|exact R]. destruct (C eq_refl) as [C1 C2]. cbn [sel_rel]. change (u_selection (set_u_selection s (ta, tg))) with (ta, tg). cbn [fst snd]. repeat (split; [assumption|]). assumption.
  - assert (X : of_selection o = None) by (destruct o; try reflexivity; discriminate E). rewrite X. unfold sel_rel in *. rewrite (other_selection m s o E). exact R.
Qed.
Lemma r_top_left m s a o : o <> UTopLeft 0 0 -> tl_rel s a -> tl_rel (step_to m s o) (match of_top_left o with Some v => v | None => a end).
Proof.
  intros N R. destruct (is_top_left o) eqn:E.
  - destruct o; try discriminate E. destruct (step_top_left m s row col) as (ta & -> & A & G & C). cbn [of_top_left]. unfold allowed.
    destruct (on_grid row col) eqn:O; [|exact R]. destruct ((row =? 0) && (col =? 0)) eqn:Z; [exfalso; apply N; f_equal; lia|]. cbn [andb negb tl_rel].
    change (u_top_left (set_u_top_left s ta)) with ta. auto.
  - assert (X : of_top_left o = None) by (destruct o; try reflexivity; discriminate E). rewrite X. unfold tl_rel in *. rewrite (other_top_left m s o E). exact R.
Qed.

(** What may be written follows from the calls. *)
Lemma step_texts m s o : call_texts o -> setup_ok s -> setup_ok (step_to m s o).
Proof.
  intros T []. constructor.
  - destruct (is_top_left o) eqn:E; [|rewrite (other_top_left m s o E); exact so_tl].
    destruct o; try discriminate E. destruct (step_top_left m s row col) as (ta & -> & A & _). destruct (_ && _); [exact A|exact so_tl].
  - destruct (is_select o) eqn:E; [|rewrite (other_selection m s o E); exact so_sel].
    destruct o; try discriminate E. destruct (step_select m s fr fc lr lc) as (ta & tg & -> & A & G & _). destruct (_ && _); [split; assumption|exact so_sel].
  - rewrite (f_freeze m s (u_freeze s) o eq_refl). destruct o; try exact so_freeze. cbn [of_freeze]. unfold allowed. destruct (on_grid row col) eqn:G; [|exact so_freeze]. apply on_grid_lt in G. exact G.
  - rewrite (f_top_cell m s (u_top_cell s) o eq_refl). destruct o; try exact so_top. cbn [of_top_cell]. unfold allowed. destruct (on_grid row col) eqn:G; [|exact so_top]. apply on_grid_lt in G. exact G.
  - rewrite (r_header m s (u_header s) o eq_refl). destruct o; try exact so_header. cbn [raw_header]. unfold allowed. destruct (negb _); [apply hf_doc, T|exact so_header].
  - rewrite (r_footer m s (u_footer s) o eq_refl). destruct o; try exact so_footer. cbn [raw_footer]. unfold allowed. destruct (negb _); [apply hf_doc, T|exact so_footer].
Qed.
Lemma run_texts m calls : Forall call_texts calls -> forall s t, setup_ok s -> setup_run m s calls = Some t -> setup_ok t.
Proof.
  intros F s t H E. exact (run_latest_if m call_texts (fun s (_ : unit) => setup_ok s) (fun _ => None) (fun s a o P R => step_texts m s o P R) calls s tt t F H E).
Qed.
Lemma start_ok cs b : setup_ok (set_u_selected (setup_new cs) b).
Proof. constructor; try reflexivity; try (split; reflexivity). Qed.

(** Elements left out because nothing was changed: the settings are the defaults. *)
Record quiet (cs : bool) (s : setup) : Prop := {
  q_setup : u_setup s = false -> u_paper s = 0 /\ u_down s = true /\ u_portrait s = negb cs /\ scaling_field s = Percent 100 /\ u_bw s = false /\ u_draft s = false;
  q_options : u_options s = false -> u_center_h s = false /\ u_center_v s = false /\ u_headings s = false /\ u_print_grid s = false;
  q_hf : u_hf s = false -> u_header s = [] /\ u_footer s = [] /\ u_scale_doc s = true /\ u_align s = true }.
Ltac quiet_step :=
  let E := fresh "E" in intros E; first [discriminate E | auto].
Lemma step_quiet cs m s o : quiet cs s -> quiet cs (step_to m s o).
Proof.
  intros Q. assert (M : forall x set t, (forall s v, u_setup (set s v) = u_setup s /\ u_options (set s v) = u_options s /\ u_hf (set s v) = u_hf s /\
     u_center_h (set s v) = u_center_h s /\ u_center_v (set s v) = u_center_v s /\ u_headings (set s v) = u_headings s /\ u_print_grid (set s v) = u_print_grid s /\
     u_header (set s v) = u_header s /\ u_footer (set s v) = u_footer s /\ u_scale_doc (set s v) = u_scale_doc s /\ u_align (set s v) = u_align s) -> quiet cs t -> quiet cs (margin x set t)).
  { intros x set t H []. unfold margin. destruct (fle (f_of_Z 0) x); [|constructor; assumption]. destruct (H t x) as (H1 & H2 & H3 & H4 & H5 & H6 & H7 & H8 & H9 & H10 & H11). unfold changed. constructor.
    - discriminate.
    - change (u_options (set_u_setup (set t x) true)) with (u_options (set t x)). rewrite H2. intros E.
      change (u_center_h (set t x) = false /\ u_center_v (set t x) = false /\ u_headings (set t x) = false /\ u_print_grid (set t x) = false). rewrite H4, H5, H6, H7. auto.
    - change (u_hf (set_u_setup (set t x) true)) with (u_hf (set t x)). rewrite H3. intros E.
      change (u_header (set t x) = [] /\ u_footer (set t x) = [] /\ u_scale_doc (set t x) = true /\ u_align (set t x) = true). rewrite H8, H9, H10, H11. auto. }
  each_call o.
  all: try match goal with |- quiet _ (margin _ _ _) => do 6 (apply M; [intros; repeat split|]); exact Q end.
  all: destruct Q as [Q1 Q2 Q3]; unfold changed; try (match goal with |- context [if negb ?x then _ else _] => is_var x; destruct x | |- context [if ?x then _ else _] => is_var x; destruct x end; cbn [negb]).
  all: repeat match goal with |- context [if ?b then _ else _] => destruct b eqn:? end; try (constructor; assumption).
  all: constructor; try exact Q1; try exact Q2; try exact Q3; try discriminate.
  all: intros E; first [destruct (Q1 E) as (? & ? & ? & ? & ? & ?)|destruct (Q2 E) as (? & ? & ? & ?)|destruct (Q3 E) as (? & ? & ? & ?)]; repeat split; assumption || (subst; first [reflexivity|assumption]).
Qed.
Lemma start_quiet cs b : quiet cs (set_u_selected (setup_new cs) b).
Proof. constructor; intros; repeat split. Qed.

(** ** Reading the view *)
Ltac find_attr := rewrite ?attr_app, ?attr_when, ?attr_cons, ?attr_nil; cbn [String.eqb Ascii.eqb Bool.eqb].
Lemma dec_num n : number_of (dec n) = Some n. Proof. apply number_of_dec. Qed.
Definition frozen_field (s : setup) : option (N * N * (N * N)) :=
  if panes_empty s then None
  else Some (fst (u_freeze s), snd (u_freeze s), if (fst (u_top_cell s) =? 0) && (snd (u_top_cell s) =? 0) then u_freeze s else u_top_cell s).
Lemma has_pane_skip f l : Forall has_pane l -> (forall n, f n = is_elem "selection" n && match attr "pane" (attrs_of n) with None => true | _ => false end) ->
  find f (map node_of l) = None.
Proof.
  intros H Hf. induction H as [|t l [T P] H IH]; [reflexivity|]. cbn [map find]. rewrite Hf. destruct (attr "pane" (attrs_of (node_of t))); [|congruence]. rewrite andb_false_r. exact IH.
Qed.
Lemma find_app_none {A} (f : A -> bool) a b : find f a = None -> find f (a ++ b) = find f b.
Proof. induction a as [|x a IH]; [reflexivity|]. cbn [find app]. destruct (f x); [discriminate|exact IH]. Qed.
Lemma view_reads m cs s p tl sel : setup_ok s -> panes_xml m s = Some p -> tl_rel s tl -> sel_rel s sel ->
  read_sheet_view (Elem (lit "sheetView") (view_attrs cs s) (map node_of (p ++ selections_xml s))) =
  Some {| w_gridlines := u_grid s; w_right_to_left := u_rtl s; w_selected := u_selected s; w_mode := mode_view (u_mode s);
          w_top_left := tl; w_zoom := u_zoom s; w_frozen := frozen_field s; w_selection := sel |}.
Proof.
  intros S Ep T X. unfold read_sheet_view. cbn [attrs_of kids_of].
  assert (A1 : attr "view" (view_attrs cs s) = match u_mode s with PvNormal => None | PvLayout => Some (lit "pageLayout") | PvBreaks => Some (lit "pageBreakPreview") end).
  { unfold view_attrs, no, yes, given_attr. destruct (u_mode s), cs; cbn [negb when]; find_attr; destruct (negb (u_grid s)), (u_rtl s), (u_selected s), (given (u_top_left s)), (negb (u_zoom s =? 100)); reflexivity. }
  assert (A2 : attr "zoomScale" (view_attrs cs s) = if negb (u_zoom s =? 100) then Some (dec (u_zoom s)) else None).
  { unfold view_attrs, no, yes, given_attr. destruct (u_mode s), cs; cbn [negb when]; find_attr; destruct (negb (u_grid s)), (u_rtl s), (u_selected s), (given (u_top_left s)), (negb (u_zoom s =? 100)); reflexivity. }
  assert (A3 : attr "topLeftCell" (view_attrs cs s) = if given (u_top_left s) then Some (u_top_left s) else None).
  { unfold view_attrs, no, yes, given_attr. destruct (u_mode s), cs; cbn [negb when]; find_attr; destruct (negb (u_grid s)), (u_rtl s), (u_selected s), (given (u_top_left s)), (negb (u_zoom s =? 100)); reflexivity. }
  assert (A4 : attr "showGridLines" (view_attrs cs s) = if negb (u_grid s) then Some (lit "0") else None).
  { unfold view_attrs, no, yes, given_attr. destruct (u_mode s), cs; cbn [negb when]; find_attr; destruct (negb (u_grid s)), (u_rtl s), (u_selected s), (given (u_top_left s)), (negb (u_zoom s =? 100)); reflexivity. }
  assert (A5 : attr "rightToLeft" (view_attrs cs s) = if u_rtl s then Some (lit "1") else None).
  { unfold view_attrs, no, yes, given_attr. destruct (u_mode s), cs; cbn [negb when]; find_attr; destruct (negb (u_grid s)), (u_rtl s), (u_selected s), (given (u_top_left s)), (negb (u_zoom s =? 100)); reflexivity. }
  assert (A6 : attr "tabSelected" (view_attrs cs s) = if u_selected s then Some (lit "1") else None).
  { unfold view_attrs, no, yes, given_attr. destruct (u_mode s), cs; cbn [negb when]; find_attr; destruct (negb (u_grid s)), (u_rtl s), (u_selected s), (given (u_top_left s)), (negb (u_zoom s =? 100)); reflexivity. }
  unfold mode_of, num_default, on_default, flag_of. rewrite A1, A2, A3, A4, A5, A6.
  assert (B1 : match match u_mode s with PvNormal => None | PvLayout => Some (lit "pageLayout") | PvBreaks => Some (lit "pageBreakPreview") end with
    | None => Some ModeNormal
    | Some t => if str_eqb t (lit "pageLayout") then Some ModePageLayout else if str_eqb t (lit "pageBreakPreview") then Some ModePageBreaks else if str_eqb t (lit "normal") then Some ModeNormal else None
    end = Some (mode_view (u_mode s))) by (destruct (u_mode s); reflexivity).
  rewrite B1. cbn [bind].
  assert (B2 : match (if negb (u_zoom s =? 100) then Some (dec (u_zoom s)) else None) with None => Some 100 | Some t => number_of t end = Some (u_zoom s)).
  { destruct (N.eqb_spec (u_zoom s) 100) as [->|]; [reflexivity|]. cbn [negb]. apply dec_num. }
  rewrite B2. cbn [bind].
  assert (B3 : match (if given (u_top_left s) then Some (u_top_left s) else None) with None => Some None | Some t => bind (cell_of t) (fun c => Some (Some c)) end = Some tl).
  { unfold tl_rel in T. destruct tl as [c|]; [destruct T as (_ & -> & ->); reflexivity|rewrite T; reflexivity]. }
  rewrite B3. cbn [bind].
  destruct (panes_shape m s S) as (p' & Ep' & _ & Sh). assert (p' = p) by congruence. subst p'.
  assert (K : kid "pane" (map node_of (selections_xml s)) = None) by (unfold selections_xml; destruct (given (fst (u_selection s))); reflexivity).
  assert (B4 : frozen_of (map node_of (p ++ selections_xml s)) = Some (frozen_field s)).
  { unfold frozen_of, frozen_field. destruct (panes_empty s) eqn:Pe.
    - subst p. cbn [app]. rewrite K. reflexivity.
    - destruct Sh as (t & r & -> & Et & _). cbn [app map]. change (node_of (pane_node s t (active_pane (fst (u_freeze s)) (snd (u_freeze s))))) with
        (Elem (lit "pane") (when (0 <? snd (u_freeze s)) [(lit "xSplit", dec (snd (u_freeze s)))] ++ when (0 <? fst (u_freeze s)) [(lit "ySplit", dec (fst (u_freeze s)))] ++
          [(lit "topLeftCell", t); (lit "activePane", lit (active_pane (fst (u_freeze s)) (snd (u_freeze s)))); (lit "state", lit "frozen")]) []).
      rewrite kid_one. cbn [String.eqb Ascii.eqb Bool.eqb attrs_of]. unfold num_default. find_attr.
      destruct (pane_text m s S) as (t' & Et' & _ & Ct). assert (t' = t) by congruence. subst t'.
      assert (Y1 : match (if 0 <? snd (u_freeze s) then None else None) with Some v => Some v | None => match (if 0 <? fst (u_freeze s) then Some (dec (fst (u_freeze s))) else None) with Some v => Some v | None => None end end =
                   if 0 <? fst (u_freeze s) then Some (dec (fst (u_freeze s))) else @None str) by (destruct (0 <? snd (u_freeze s)), (0 <? fst (u_freeze s)); reflexivity).
      rewrite Y1. clear Y1.
      destruct (N.ltb_spec 0 (fst (u_freeze s))), (N.ltb_spec 0 (snd (u_freeze s))); cbn [bind]; rewrite ?dec_num; cbn [bind]; rewrite Ct; cbn [bind]; rewrite str_eqb_refl; cbn [andb].
      all: try assert (Z1 : fst (u_freeze s) = 0) by lia; try assert (Z2 : snd (u_freeze s) = 0) by lia; rewrite ?Z1, ?Z2 in *; rewrite ?str_eqb_refl; try reflexivity. }
  rewrite B4. cbn [bind].
  assert (B5 : selection_of (map node_of (p ++ selections_xml s)) = Some sel).
  { unfold selection_of. rewrite map_app, find_app_none.
    2: { destruct (panes_empty s); [subst p; reflexivity|]. destruct Sh as (t & r & -> & _ & Hr). cbn [map find]. change (is_elem "selection" (node_of (pane_node s t (active_pane (fst (u_freeze s)) (snd (u_freeze s)))))) with false.
         cbn [andb]. apply has_pane_skip; [exact Hr|reflexivity]. }
    unfold selections_xml. unfold sel_rel in X. destruct sel as [[c g]|].
    - destruct X as (_ & _ & G1 & G2 & C1 & C2). rewrite G1. cbn [when map].
      assert (En : node_of (selection_xml "" (fst (u_selection s)) (snd (u_selection s))) = Elem (lit "selection") [(lit "activeCell", fst (u_selection s)); (lit "sqref", snd (u_selection s))] []).
      { unfold selection_xml, given_attr. rewrite G1, G2. reflexivity. }
      rewrite En. cbn [find]. change (is_elem "selection" (Elem (lit "selection") [(lit "activeCell", fst (u_selection s)); (lit "sqref", snd (u_selection s))] [])) with true.
      cbn [attrs_of]. find_attr. cbn [andb]. cbv beta iota. cbn [attrs_of]. find_attr. cbn [bind]. rewrite C1. cbn [bind]. rewrite C2. reflexivity.
    - rewrite X. reflexivity. }
  rewrite B5. cbn [bind]. do 2 f_equal; [destruct (u_grid s)|destruct (u_rtl s)|destruct (u_selected s)]; reflexivity.
Qed.
