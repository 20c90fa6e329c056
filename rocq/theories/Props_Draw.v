(** C76: the objects of a sheet come back from its drawing part. C77: so do text boxes, with their text and looks. *)
From Coq Require Import Reals SpecFloat.
From Verif Require Import Base F64 F64_Proofs Xml_Model Xml_Spec Xml_Read Xml_Tree Fmt_Model SheetXml_Spec Doc_Spec CF_Spec CF_Model Note_Spec Note_Proofs2 Dml_Model Dml_Spec Dml_Proofs Dml_Line Draw_Model Draw_Spec Draw_Proofs Draw_Proofs2 Draw_Proofs3 Draw_Proofs4 Draw_Size.
Open Scope N_scope.

(** ** C76 *)
(** Whatever was put on a sheet, the drawing part is written (no crash), is well-formed XML, and has one item for each
    object, in order, with the object's place, number, name, alternative text and link, and with its content. *)
Theorem C76_objects num_text l : (forall x, attr_text (num_text x)) -> Forall object_known l ->
  exists part root items, drawing_file num_text l = Some part /\ read_document part = Some root /\ read_drawing root = Some items /\ length items = length l /\
    forall k o, nth_error l k = Some o -> exists x, nth_error items k = Some x /\ i_place x = place_for o /\ i_named x = name_for (number_at l k) o /\ content_for o (i_content x).
Proof.
  intros Num F. destruct (drawing_reads num_text Num l F) as (part & root & x & E1 & E2 & E3 & E4 & H). exists part, root, x. repeat (split; [assumption|]).
  intros k o Hk. destruct (H k o Hk) as (y & Ey & T1 & T2 & T3 & _). exists y. auto.
Qed.

Lemma count_grows l : forall j k, (j < k)%nat -> forall o, nth_error l j = Some o -> counted o = true -> (length (filter counted (firstn j l)) < length (filter counted (firstn k l)))%nat.
Proof.
  induction l as [|x l IH]; intros [|j] [|k] H o E C; try discriminate; try lia.
  - injection E as ->. cbn [firstn filter]. rewrite C. cbn [length]. lia.
  - cbn [firstn filter]. assert (G := IH j k ltac:(lia) o E C). destruct (counted x); cbn [length]; lia.
Qed.
(** On a worksheet (no chart of a chartsheet among the objects) no two objects have the same id. *)
Theorem C76_ids_distinct l j k a b : Forall (fun o => counted o = true) l -> nth_error l j = Some a -> nth_error l k = Some b ->
  n_id (name_for (number_at l j) a) = n_id (name_for (number_at l k) b) -> j = k.
Proof.
  intros F Ea Eb E. pose proof (proj1 (Forall_forall _ _) F a (nth_error_In _ _ Ea)) as Ca. pose proof (proj1 (Forall_forall _ _) F b (nth_error_In _ _ Eb)) as Cb.
  assert (Ia : n_id (name_for (number_at l j) a) = number_at l j + 1) by (destruct a; try reflexivity; discriminate Ca). assert (Ib : n_id (name_for (number_at l k) b) = number_at l k + 1) by (destruct b; try reflexivity; discriminate Cb).
  rewrite Ia, Ib in E. unfold number_at in E. destruct (Nat.lt_trichotomy j k) as [H|[H|H]]; [|exact H|]; exfalso.
  - assert (G := count_grows l j k H a Ea Ca). lia.
  - assert (G := count_grows l k j H b Eb Cb). lia.
Qed.
Definition spot0 : spot := {| sp_from := {| cn_col := 1; cn_row := 2; cn_x := 9525; cn_y := 0 |}; sp_to := {| cn_col := 4; cn_row := 9; cn_x := 0; cn_y := 19050 |}; sp_x := 619125; sp_y := 381000; sp_cx := 1828800; sp_cy := 1333500 |}.
(** A picture on a chartsheet has the id of the chart: ids of a drawing should be unique. *)
Theorem C76_ids_refuted : exists l j k a b, Forall object_known l /\ nth_error l j = Some a /\ nth_error l k = Some b /\ n_id (name_for (number_at l j) a) = n_id (name_for (number_at l k) b) /\ j <> k.
Proof.
  exists [OImage spot0 [] [] false MoveOnly 1 None; OChartSheet [] [] false 2 false], 0%nat, 1%nat. do 2 eexists. split; [repeat constructor|]. split; [reflexivity|]. split; [reflexivity|]. split; [reflexivity|discriminate].
Qed.
Definition demo_objects : list object :=
  [OImage spot0 (lit "Logo") (lit "A <logo>") false MoveOnly 1 (Some (3, lit "Go")); OChart spot0 [] [] true MoveAndSize 2; OText spot0 (make_tbox [TbText (lit "Hello"); TbMove DontMove]) None].
Example C76_demo : Forall object_known demo_objects /\ Forall (fun o => counted o = true) demo_objects /\
  map (fun p => name_for (number_at demo_objects (fst p)) (snd p)) (combine [0; 1; 2]%nat demo_objects) =
    [{| n_id := 2; n_name := lit "Logo"; n_alt := lit "A <logo>"; n_decorative := false; n_link := Some (lit "rId3", lit "Go") |};
     {| n_id := 3; n_name := lit "Chart 2"; n_alt := []; n_decorative := true; n_link := None |};
     {| n_id := 4; n_name := lit "TextBox 3"; n_alt := []; n_decorative := false; n_link := None |}].
Proof.
  split; [|split; [repeat constructor|vm_compute; reflexivity]]. constructor; [repeat split|]. constructor; [repeat split|]. constructor; [|constructor]. split; [exact I|]. eexists. split; [reflexivity|]. repeat constructor.
Qed.

(** ** C77 *)
(** The text box at place k: what the calls on it asked for is what the part says. *)
Definition font_told (num_text : f64 -> str) (l : list sfont_op) (f : tfont) : Prop :=
  t_bold f = font_bold l /\ t_italic f = font_italic l /\ t_underline f = font_underline l /\ t_name f = font_face l /\ t_color f = font_says (font_color l) /\ t_pitch f = font_pitch l /\ t_charset f = font_charset l.
Theorem C77_text_boxes_partial num_text objs k p l u : (forall x, attr_text (num_text x)) -> Forall object_known objs -> nth_error objs k = Some (OText p (make_tbox l) u) -> Forall tbox_known l ->
  exists part root items x b, drawing_file num_text objs = Some part /\ read_document part = Some root /\ read_drawing root = Some items /\ nth_error items k = Some x /\
    i_content x = Text b (sp_x p) (sp_y p) (sp_cx p) (sp_cy p) /\
    b_source b = match box_link l with Some s => s | None => [] end /\
    b_fill b = Some (box_fill (box_format l)) /\
    (exists w, b_line b = Some {| li_width := Some w; li_fill := Some (fst (box_line (box_format l))); li_dash := snd (box_line (box_format l)) |} /\ forall z, box_points (box_format l) = Some z -> w = line_emus z) /\
    b_vert b = lit (vert_for (text_direction (box_options l))) /\ (b_anchor b, b_centered b) = (lit (fst (anchor_for (text_valign (box_options l)))), snd (anchor_for (text_valign (box_options l)))) /\
    (box_link l = None -> rejoin (map p_text (b_paras b)) = drop_last_nl (box_text l)) /\
    Forall (fun q => p_align q = align_for (text_align (box_options l)) /\ p_field q = match box_link l with Some _ => true | None => false end /\ font_told num_text (box_font l) (p_font q)) (b_paras b) /\
    b_paras b <> [].
Proof.
  intros Num F Hk Fl. destruct (drawing_reads num_text Num objs F) as (part & root & x & E1 & E2 & E3 & _ & H). destruct (H k _ Hk) as (y & Ey & _ & _ & _ & T). specialize (T l eq_refl Fl).
  destruct (known_box l Fl) as (D & _). destruct (paras_join _ D) as (J1 & J2 & J3).
  exists part, root, x, y, (said_box num_text l). do 4 (split; [assumption|]). split; [exact T|]. split; [reflexivity|]. split; [reflexivity|].
  split. { eexists. split; [reflexivity|]. intros z ->. reflexivity. }
  split; [reflexivity|]. split; [reflexivity|]. pose proof (made_tbox l) as M. split.
  - intros Nl. unfold said_box. cbn [b_paras]. rewrite map_map. rewrite (map_ext _ (fun s => s)); [rewrite map_id; exact J1|]. intros s. unfold said_para. cbn [p_text]. rewrite M. cbn [tb_link]. rewrite Nl. reflexivity.
  - split; [|unfold said_box; cbn [b_paras]; destruct (paras_of (box_text l)); [congruence|discriminate]].
    apply Forall_forall. intros q Hq. unfold said_box in Hq. cbn [b_paras] in Hq. apply in_map_iff in Hq as (s & <- & _). unfold said_para. cbn [p_align p_field p_font]. rewrite M. cbn [tb_options tb_link tb_font].
    rewrite made_stext, made_sfont. repeat split.
Qed.
(** The size: n hundredths of a point are written as n, if numbers are written in decimals. *)
Theorem C77_font_size num_text objs k p l u r n : shows_whole num_text -> Forall object_known objs -> nth_error objs k = Some (OText p (make_tbox l) u) -> Forall tbox_known l ->
  frep (font_points (box_font l)) r -> (r * 100)%R = IZR (Z.of_N n) -> 0 < n < 2 ^ 53 ->
  exists part root items x b, drawing_file num_text objs = Some part /\ read_document part = Some root /\ read_drawing root = Some items /\ nth_error items k = Some x /\
    i_content x = Text b (sp_x p) (sp_y p) (sp_cx p) (sp_cy p) /\ Forall (fun q => t_size (p_font q) = Some (dec n)) (b_paras b).
Proof.
  intros [Num1 Num2] F Hk Fl Hr Er Bn. destruct (drawing_reads num_text Num2 objs F) as (part & root & x & E1 & E2 & E3 & _ & H). destruct (H k _ Hk) as (y & Ey & _ & _ & _ & T). specialize (T l eq_refl Fl).
  exists part, root, x, y, (said_box num_text l). do 4 (split; [assumption|]). split; [exact T|]. destruct (hundred_times _ _ _ Hr Er Bn) as [S1 S2].
  apply Forall_forall. intros q Hq. unfold said_box in Hq. cbn [b_paras] in Hq. apply in_map_iff in Hq as (s & <- & _). unfold said_para. cbn [p_font]. rewrite (made_tbox l). cbn [tb_font]. rewrite made_sfont. unfold said_font. cbn [sf_size t_size].
  rewrite S1, S2. rewrite Num1 by apply Bn. reflexivity.
Qed.
(** The width of the line: the nearest quarter of a point (3175 EMUs each), exact for quarters. *)
Theorem C77_line_width z r : frep z r -> (0 <= r <= 1584)%R -> exists k, line_emus z = 3175 * k /\ (Rabs (IZR (Z.of_N k) - 4 * r) <= 1 / 2 + / IZR (2 ^ 39))%R.
Proof. intros H B. destruct (line_emus_quarters z r H B) as (k & E & D). exists k. split; [exact E|]. exact D. Qed.
Theorem C77_line_width_exact z k : frep z (IZR (Z.of_N k) / 4) -> k <= 6336 -> line_emus z = 3175 * k.
Proof. apply line_emus_exact. Qed.

(** Calls without effect, and what is lost. *)
(** Striking out and the reading order of the font of a text box are never written. *)
Theorem C77_strike_refuted num_text p u a b c : drawing_file num_text [OText p (make_tbox [TbText a; TbFont (SfStrike :: SfRtl b :: c)]) u] = drawing_file num_text [OText p (make_tbox [TbText a; TbFont c]) u].
Proof.
  unfold drawing_file, drawing_part. cbn [shapes_in flat_map app map]. apply f_equal. set (t1 := make_tbox [TbText a; TbFont (SfStrike :: SfRtl b :: c)]). set (t2 := make_tbox [TbText a; TbFont c]).
  assert (I1 : info_of (OText p t1 u) = info_of (OText p t2 u)) by reflexivity. rewrite I1. cbn [anchors]. change (in_type (info_of (OText p t2 u))) with TShape. cbv iota. cbn [option_map]. apply f_equal. apply (f_equal (fun x => [two_cell 1 (info_of (OText p t2 u)) x])).
  assert (Fo : forall tag, tfont_xml num_text tag (tb_font t1) = tfont_xml num_text tag (tb_font t2)).
  { intros tag. unfold t1, t2. cbn [make_tbox fold_left tbox_step tb_font tb_width tb_height tb_text tb_link tb_alt tb_move tb_format tb_options tbox_new]. rewrite (made_sfont (SfStrike :: SfRtl b :: c)), (made_sfont c). reflexivity. }
  unfold sp_xml. change (tb_link t1) with (tb_link t2). change (tb_format t1) with (tb_format t2). unfold tx_body. change (tb_options t1) with (tb_options t2).
  erewrite map_ext; [reflexivity|]. intros s. unfold para_xml. rewrite !Fo. reflexivity.
Qed.
(** A line end at the end of the text is lost. *)
Theorem C77_last_line_refuted : exists a b, a <> b /\ forall num_text p u,
  drawing_file num_text [OText p (make_tbox [TbText a]) u] = drawing_file num_text [OText p (make_tbox [TbText b]) u].
Proof.
  exists (lit "Hi"), (lit "Hi" ++ [10]). split; [discriminate|]. intros num_text p u. unfold drawing_file, drawing_part. cbn [shapes_in flat_map app map anchors]. reflexivity.
Qed.
(** The transparency of a line is lost unless it has a colour of its own. *)
Theorem C77_line_transparency_refuted : exists n, n <> 0 /\ n <= 100 /\ box_line [FoLine [LnTransparency n]] = box_line [] /\ box_line [FoLine [LnColor CAutomatic; LnTransparency n]] = box_line [FoLine [LnColor CAutomatic]].
Proof. exists 50. repeat split; discriminate. Qed.
(** The last fill does not win. *)
Theorem C77_last_fill_refuted : exists s p, box_fill [FoSolid s; FoPattern p] = box_fill [FoSolid s] /\ box_fill [FoNoFill; FoSolid s] = NoFill.
Proof. exists [SoColor (CRGB 255)], [PfFore (CRGB 1)]. split; reflexivity. Qed.
(** A gradient without stops is written although a gradient must have two. *)
Theorem C77_no_stops_refuted : box_fill [FoGradient []] = Gradient (Linear 90) [].
Proof. reflexivity. Qed.
(** Sizes with decimals need not be whole: 8.2 points are 819.9999999999999 hundredths, and no integer. *)
Definition size_8_2 : f64 := f_dec 82 1.
Theorem C77_size_refuted : exists x, font_points [SfSize x] = x /\ forall n, (n <= 2000)%nat -> sf_size (make_sfont [SfSize x]) <> f_of_N (N.of_nat n).
Proof.
  exists size_8_2. split; [reflexivity|]. intros n H E. assert (A : forallb (fun n => match SFcompare (sf_size (make_sfont [SfSize size_8_2])) (f_of_N (N.of_nat n)) with Some Eq => false | _ => true end) (seq 0 2001) = true) by (vm_compute; reflexivity).
  rewrite forallb_forall in A. specialize (A n ltac:(apply in_seq; lia)). rewrite <- E in A. revert A. vm_compute. discriminate.
Qed.
(** A text box that says something. *)
Definition demo_calls : list tbox_op :=
  [TbText (lit "Line 1" ++ [10; 10] ++ lit "Line 3"); TbFont [SfBold; SfSize (f_dec 105 1); SfColor (CRGB 255); SfName (lit "Arial")]; TbOptions [StH HCenter; StDir Dir90; StV VMiddleCentered];
   TbFormat [FoSolid [SoColor (CTheme 4 2); SoTransparency 25]; FoLine [LnColor (CNamed 14); LnWidth (f_of_N 2); LnDash 3]]].
Example C77_demo : Forall tbox_known demo_calls /\ frep (font_points (box_font demo_calls)) (105 / 10) /\ (105 / 10 * 100)%R = IZR (Z.of_N 1050) /\ rejoin (paras_of (box_text demo_calls)) = box_text demo_calls /\ length (paras_of (box_text demo_calls)) = 3%nat /\
  box_line (box_format demo_calls) = (Solid (DRgb 16777215) 100000, lit "dash") /\ line_emus (f_of_N 2) = 25400 /\ fst (anchor_for (text_valign (box_options demo_calls))) = "ctr"%string.
Proof.
  split; [repeat constructor|]. split.
  { change (font_points (box_font demo_calls)) with (f_dec 105 1). assert (G := fdiv_rep (f_of_Z 105) (f_of_Z 10) 105 10 10 (f_of_Z_rep 105 ltac:(cbn; lia)) (f_of_Z_rep 10 ltac:(cbn; lia)) ltac:(Lra.lra) ltac:(lia)).
    replace (105 / 10)%R with (IZR 42 / 4)%R in * by Lra.lra. rewrite quarter_format in G by (cbn; lia). apply G. rewrite Rabs_pos_eq by Lra.lra. cbn. Lra.lra. }
  split; [change (Z.of_N 1050) with 1050%Z; Lra.lra|]. vm_compute. repeat split; reflexivity.
Qed.
