(** Text boxes read back. *)
From Verif Require Import Base F64 Xml_Model Xml_Spec Xml_Proofs Xml_Read Xml_Read_Proofs Xml_Tree Fmt_Model Rich_Model Rich_Proofs SheetXml_Spec SheetXml_Proofs SheetXml_Proofs3 Doc_Spec Props_Doc Tag_Proofs Part_Proofs
  CF_Spec CF_Model CF_Build CF_Read Ref_Proofs Note_Spec Note_Proofs Note_Proofs2 Note_Proofs4 Note_Proofs5 Dml_Model Dml_Spec Dml_Proofs Draw_Model Draw_Spec Draw_Proofs.
From Verif Require Color_Spec.

(** ** Calls *)
Lemma last_map {O A B} (G : A -> B) (g : O -> option A) d l : last_of (fun o => option_map G (g o)) (G d) l = G (last_of g d l).
Proof. unfold last_of. revert d. induction l as [|o l IH]; intros d; [reflexivity|]. cbn [fold_left]. rewrite <- IH. f_equal. destruct (g o); reflexivity. Qed.
Lemma last_folded {A B O S} (f : S -> B) (G : A -> B) (g : O -> option A) (step : S -> O -> S) d s l :
  (forall s o, f (step s o) = match g o with Some v => G v | None => f s end) -> f s = G d -> f (fold_left step l s) = G (last_of g d l).
Proof. intros H H0. rewrite (last_fold f (fun o => option_map G (g o))) by (intros; rewrite H; destruct (g o); reflexivity). rewrite H0. apply last_map. Qed.
Ltac calls := intros s o; destruct o; cbn -[N.leb N.ltb fmul f_of_N color_valid make_format make_sfont make_stext]; rewrite ?in_range_eq; repeat match goal with |- context [if ?b then _ else _] => destruct b end; reflexivity.
Lemma made_sfont l : make_sfont l =
  {| sf_bold := font_bold l; sf_italic := font_italic l; sf_underline := font_underline l; sf_name := font_face l; sf_size := fmul (font_points l) (f_of_N 100); sf_color := font_color l;
     sf_strike := sf_strike (make_sfont l); sf_pitch := font_pitch l; sf_charset := font_charset l; sf_rtl := sf_rtl (make_sfont l) |}.
Proof.
  assert (H : forall a b : sfont, sf_bold a = sf_bold b -> sf_italic a = sf_italic b -> sf_underline a = sf_underline b -> sf_name a = sf_name b -> sf_size a = sf_size b -> sf_color a = sf_color b ->
    sf_strike a = sf_strike b -> sf_pitch a = sf_pitch b -> sf_charset a = sf_charset b -> sf_rtl a = sf_rtl b -> a = b) by (intros [] []; cbn; intros; subst; reflexivity).
  unfold font_italic, font_underline. rewrite !last_existsb. apply H; cbn [sf_bold sf_italic sf_underline sf_name sf_size sf_color sf_strike sf_pitch sf_charset sf_rtl]; try reflexivity; unfold make_sfont, font_bold, font_face, font_color, font_pitch, font_charset.
  - apply (last_fold sf_bold); calls.
  - apply (last_fold sf_italic (fun o => if match o with SfItalic => true | _ => false end then Some true else None)); calls.
  - apply (last_fold sf_underline (fun o => if match o with SfUnderline => true | _ => false end then Some true else None)); calls.
  - apply (last_fold sf_name); calls.
  - unfold font_points. apply (last_folded sf_size (fun x => fmul x (f_of_N 100))); [calls|reflexivity].
  - apply (last_fold sf_color); calls.
  - apply (last_fold sf_pitch); calls.
  - apply (last_fold sf_charset); calls.
Qed.
Lemma made_stext l : make_stext l = {| st_h := text_align l; st_v := text_valign l; st_dir := text_direction l |}.
Proof.
  unfold make_stext, text_align, text_valign, text_direction. match goal with |- ?a = _ => transitivity {| st_h := st_h a; st_v := st_v a; st_dir := st_dir a |} end; [destruct (fold_left _ _ _); reflexivity|].
  f_equal; [apply (last_fold st_h)|apply (last_fold st_v)|apply (last_fold st_dir)]; calls.
Qed.
Lemma short_length n s : (n <? N.of_nat (length s)) = negb (short n s).
Proof. unfold short. apply N.ltb_antisym. Qed.
Lemma made_tbox l : make_tbox l =
  {| tb_width := box_width l; tb_height := box_height l; tb_text := box_text l; tb_link := box_link l; tb_alt := box_alt l; tb_move := box_move l;
     tb_format := make_format (Some three_quarters) (box_format l); tb_font := make_sfont (box_font l); tb_options := make_stext (box_options l) |}.
Proof.
  assert (H : forall a b : tbox, tb_width a = tb_width b -> tb_height a = tb_height b -> tb_text a = tb_text b -> tb_link a = tb_link b -> tb_alt a = tb_alt b -> tb_move a = tb_move b -> tb_format a = tb_format b ->
    tb_font a = tb_font b -> tb_options a = tb_options b -> a = b) by (intros [] []; cbn; intros; subst; reflexivity).
  apply H; cbn [tb_width tb_height tb_text tb_link tb_alt tb_move tb_format tb_font tb_options]; unfold make_tbox, box_width, box_height, box_text, box_link, box_alt, box_move, box_format, box_font, box_options.
  - apply (last_fold tb_width). intros s o; destruct o; cbn -[N.leb N.ltb]; rewrite ?N.ltb_antisym; repeat match goal with |- context [?a <=? ?b] => destruct (a <=? b) end; reflexivity.
  - apply (last_fold tb_height). intros s o; destruct o; cbn -[N.leb N.ltb]; rewrite ?N.ltb_antisym; repeat match goal with |- context [?a <=? ?b] => destruct (a <=? b) end; reflexivity.
  - apply (last_fold tb_text). intros s o; destruct o; cbn -[N.leb N.ltb]; repeat match goal with |- context [if ?b then _ else _] => destruct b end; reflexivity.
  - apply (last_fold tb_link). intros s o; destruct o; cbn -[N.leb N.ltb]; repeat match goal with |- context [if ?b then _ else _] => destruct b end; reflexivity.
  - apply (last_fold tb_alt). intros s o; destruct o as [x|x|x|x|x|x|x|x|x]; cbn -[N.leb N.ltb short]; try (destruct (x <? 5)); try reflexivity. rewrite short_length. destruct (short 255 x); reflexivity.
  - apply (last_fold tb_move). intros s o; destruct o; cbn -[N.leb N.ltb]; repeat match goal with |- context [if ?b then _ else _] => destruct b end; reflexivity.
  - apply (last_folded tb_format (make_format (Some three_quarters))); [|reflexivity]. intros s o; destruct o; cbn -[N.leb N.ltb make_format]; repeat match goal with |- context [if ?b then _ else _] => destruct b end; reflexivity.
  - apply (last_folded tb_font make_sfont); [|reflexivity]. intros s o; destruct o; cbn -[N.leb N.ltb make_sfont]; repeat match goal with |- context [if ?b then _ else _] => destruct b end; reflexivity.
  - apply (last_folded tb_options make_stext); [|reflexivity]. intros s o; destruct o; cbn -[N.leb N.ltb make_stext]; repeat match goal with |- context [if ?b then _ else _] => destruct b end; reflexivity.
Qed.

(** ** Lines of text *)
Lemma doc_cons c s : doc_text (c :: s) <-> (xml_char c && negb (c =? 13) = true /\ doc_text s).
Proof. unfold doc_text. cbn [forallb]. rewrite andb_true_iff. reflexivity. Qed.
Lemma doc_app a b : doc_text (a ++ b) <-> doc_text a /\ doc_text b.
Proof. unfold doc_text. rewrite forallb_app, andb_true_iff. reflexivity. Qed.
Lemma doc_rev a : doc_text a -> doc_text (rev a).
Proof. unfold doc_text. rewrite !forallb_forall. intros H x Hx. apply H, in_rev. exact Hx. Qed.
Lemma strip_none s : doc_text s -> strip_cr s = s.
Proof.
  intros D. unfold strip_cr. destruct (rev s) as [|c r] eqn:E; [reflexivity|]. assert (D' := doc_rev _ D). rewrite E in D'. apply doc_cons in D' as [H _].
  destruct (N.eq_dec c 13) as [-> |Ne]; [exfalso; revert H; vm_compute; discriminate|]. destruct c as [|p]; [reflexivity|]. do 4 (destruct p as [p|p|]; try reflexivity). congruence.
Qed.
Lemma lines_nil s : forall cur, lines_from cur s = [] -> cur = [] /\ s = [].
Proof.
  induction s as [|c s IH]; intros cur H; cbn [lines_from] in H; [destruct cur; [auto|discriminate]|]. destruct (c =? 10); [discriminate|]. apply IH in H as [H _]. discriminate.
Qed.
Lemma drop_last_snoc a : drop_last_nl (a ++ [10]) = a.
Proof. unfold drop_last_nl. rewrite rev_app_distr. cbn [rev app N.eqb Pos.eqb]. apply rev_involutive. Qed.
Lemma drop_last_app a s : s <> [] -> drop_last_nl (a ++ s) = a ++ drop_last_nl s.
Proof.
  intros Ne. unfold drop_last_nl. rewrite rev_app_distr. destruct (rev s) as [|c r] eqn:E; [exfalso; apply Ne; rewrite <- (rev_involutive s), E; reflexivity|]. cbn [app].
  destruct (c =? 10); [|reflexivity]. rewrite rev_app_distr, rev_involutive. reflexivity.
Qed.
Lemma lines_join s : forall cur, doc_text s -> doc_text cur -> ~ In 10 cur -> rejoin (lines_from cur s) = drop_last_nl (rev cur ++ s) /\ Forall (fun t => doc_text t /\ ~ In 10 t) (lines_from cur s).
Proof.
  induction s as [|c s IH]; intros cur D Dc N10; cbn [lines_from].
  - rewrite app_nil_r. destruct cur as [|x cur]; [split; [reflexivity|constructor]|]. split.
    + cbn [rejoin flat_map]. rewrite app_nil_r. unfold drop_last_nl. rewrite rev_involutive. destruct (N.eqb_spec x 10) as [->|]; [exfalso; apply N10; left; reflexivity|reflexivity].
    + constructor; [|constructor]. split; [apply doc_rev; exact Dc|]. intros Hi. apply in_rev in Hi. apply N10. exact Hi.
  - apply doc_cons in D as [Hc D]. destruct (N.eqb_spec c 10) as [->|Nc].
    + destruct (IH [] D eq_refl ltac:(intros [])) as [J F]. cbn [rev app] in J. rewrite strip_none by (apply doc_rev; exact Dc). split.
      * destruct (lines_from [] s) as [|t r] eqn:E.
        -- apply lines_nil in E as [_ ->]. cbn [rejoin flat_map]. rewrite app_nil_r, drop_last_snoc. reflexivity.
        -- assert (Ne : s <> []) by (intros ->; discriminate E). cbn [rejoin] in J |- *. cbn [flat_map]. assert (Q : rev cur ++ 10 :: s = (rev cur ++ [10]) ++ s) by (rewrite <- app_assoc; reflexivity). rewrite Q, (drop_last_app (rev cur ++ [10]) s Ne). rewrite <- J. rewrite <- app_assoc. reflexivity.
      * constructor; [|exact F]. split; [apply doc_rev; exact Dc|]. intros Hi. apply in_rev in Hi. apply N10. exact Hi.
    + destruct (IH (c :: cur) D) as [J F]; [apply doc_cons; split; assumption|intros [E|E]; [congruence|exact (N10 E)]|]. split; [|exact F]. rewrite J. cbn [rev]. rewrite <- app_assoc. reflexivity.
Qed.
Definition paras_of (text : str) : list str := lines (if is_nil text then [10] else text).
Lemma paras_join text : doc_text text -> rejoin (paras_of text) = drop_last_nl text /\ Forall (fun t => doc_text t /\ ~ In 10 t) (paras_of text) /\ paras_of text <> [].
Proof.
  intros D. unfold paras_of, lines. destruct text as [|c s]; cbn [is_nil].
  - split; [reflexivity|]. split; [constructor; [split; [reflexivity|intros []]|constructor]|discriminate].
  - destruct (lines_join (c :: s) [] D eq_refl ltac:(intros [])) as [J F]. split; [exact J|]. split; [exact F|]. intros E. apply lines_nil in E as [_ E]. discriminate.
Qed.

(** ** Fonts *)
Section Numbers.
Variable num_text : f64 -> str.
Hypothesis Num : forall x, attr_text (num_text x).
Definition said_font (f : sfont) : tfont :=
  {| t_size := if flt (f_of_N 0) (sf_size f) then Some (num_text (sf_size f)) else None; t_bold := sf_bold f; t_italic := sf_italic f; t_underline := sf_underline f; t_color := font_says (sf_color f);
     t_name := sf_name f; t_pitch := sf_pitch f; t_charset := sf_charset f |}.
Definition font_fits (f : sfont) : Prop := attr_ok (sf_name f) /\ Color_Spec.real_color (sf_color f) = true.
Lemma font_attrs_ok f : attrs_good (font_attrs num_text f).
Proof.
  pose proof (Num (sf_size f)) as A. unfold font_attrs. eapply sub_attrs; [apply sub_keep; repeat (apply sub_app; [apply sub_when|]); apply sub_when|]. cbn [app]. good.
Qed.
Lemma latin_ok tag f : good_name (lit tag) = true -> font_fits f -> wx_ok (latin_xml tag f).
Proof.
  intros G [A _]. split; [exact G|]. eapply sub_attrs; [repeat (apply sub_app; [apply sub_when|]); apply sub_when|]. cbn [app]. good.
Qed.
Lemma tfont_reads tag f : good_name (lit tag) = true -> font_fits f -> wx_ok (tfont_xml num_text tag f) /\
  exists k, node_of (tfont_xml num_text tag f) = Elem (lit tag) (font_attrs num_text f) k /\ read_font (Elem (lit tag) (font_attrs num_text f) k) = Some (said_font f).
Proof.
  intros G F. pose proof (font_attrs_ok f) as Ga. pose proof F as [Fn Fc]. set (kids0 := when (negb (auto_or_default (sf_color f))) [solid_xml (sf_color f) 0] ++ when (is_latin f) [latin_xml "a:latin" f; latin_xml "a:cs" f]).
  destruct (solid_reads (sf_color f) 0 Fc ltac:(discriminate)) as (Ws & Rs & Is).
  assert (E : exists x, tfont_xml num_text tag f = x /\ wx_ok x /\ node_of x = Elem (lit tag) (font_attrs num_text f) (map node_of kids0)).
  { eexists. split; [reflexivity|]. unfold tfont_xml. fold kids0. destruct (is_latin f || negb (auto_or_default (sf_color f))) eqn:Q.
    - split; [|reflexivity]. apply ok_elem; [exact G|exact Ga|]. unfold kids0. apply Forall_app. split; apply ok_if; [constructor; [exact Ws|constructor]|].
      constructor; [apply latin_ok; [reflexivity|exact F]|]. constructor; [apply latin_ok; [reflexivity|exact F]|constructor].
    - split; [split; assumption|]. apply orb_false_elim in Q as [Q1 Q2]. unfold kids0. rewrite Q1, Q2. reflexivity. }
  destruct E as (x & -> & W & Ex). split; [exact W|]. eexists. split; [exact Ex|]. unfold read_font. cbv zeta. cbn [attrs_of kids_of].
  assert (Fi : fill_of (map node_of kids0) = Some (if auto_or_default (sf_color f) then None else Some (Solid (seen_color (sf_color f)) 100000))).
  { unfold fill_of, kids0. rewrite map_app, filter_app.
    assert (L : filter is_fill (map node_of (when (is_latin f) [latin_xml "a:latin" f; latin_xml "a:cs" f])) = []) by (destruct (is_latin f); reflexivity).
    rewrite L, app_nil_r. destruct (sf_color f) eqn:Ec; cbn [auto_or_default negb when map] in *; try reflexivity; cbn [filter]; rewrite Is, Rs; reflexivity. }
  rewrite Fi. cbn [bind].
  assert (Fc' : match (if auto_or_default (sf_color f) then None else Some (Solid (seen_color (sf_color f)) 100000)) with None => Some None | Some (Solid c 100000) => Some (Some c) | _ => None end = Some (font_says (sf_color f)))
    by (destruct (sf_color f); reflexivity).
  rewrite Fc'. cbn [bind].
  set (lat := match kid "a:latin" (map node_of kids0) with Some x => attrs_of x | None => [] end).
  assert (El : lat = if is_latin f then when (negb (is_nil (sf_name f))) [(lit "typeface", sf_name f)] ++ when (0 <? sf_pitch f) [(lit "pitchFamily", dec (sf_pitch f))] ++
      when ((0 <? sf_charset f) || (0 <? sf_pitch f)) [(lit "charset", dec (sf_charset f))] else []).
  { unfold lat, kids0. rewrite map_app, kid_app. replace (kid "a:latin" (map node_of (when (negb (auto_or_default (sf_color f))) [solid_xml (sf_color f) 0]))) with (@None node) by (destruct (auto_or_default (sf_color f)); reflexivity).
    destruct (is_latin f); [|reflexivity]. cbn [when map]. unfold latin_xml at 1. rewrite node_empty. kids. reflexivity. }
  assert (P : num_or 0 "pitchFamily" lat = Some (sf_pitch f) /\ num_or 0 "charset" lat = Some (sf_charset f) /\ match attr "typeface" lat with Some s => s | None => [] end = sf_name f).
  { rewrite El. unfold is_latin, num_or. destruct (sf_name f) as [|c n]; cbn [is_nil negb]; destruct (N.ltb_spec 0 (sf_pitch f)), (N.ltb_spec 0 (sf_charset f)); cbn [orb when app]; ats; rewrite ?attr_nil, ?number_of_dec;
      repeat split; try reflexivity; f_equal; lia. }
  destruct P as (P1 & P2 & P3). rewrite P1. cbn [bind]. rewrite P2. cbn [bind]. unfold said_font. f_equal. f_equal.
  - unfold font_attrs. ats. rewrite !attr_app, !attr_when. ats. rewrite !attr_nil. destruct (flt (f_of_N 0) (sf_size f)); [reflexivity|]. destruct (sf_bold f), (sf_italic f), (sf_underline f); reflexivity.
  - unfold flag_of, font_attrs. ats. rewrite !attr_app, !attr_when. ats. rewrite !attr_nil. destruct (flt (f_of_N 0) (sf_size f)), (sf_bold f), (sf_italic f), (sf_underline f); reflexivity.
  - unfold flag_of, font_attrs. ats. rewrite !attr_app, !attr_when. ats. rewrite !attr_nil. destruct (flt (f_of_N 0) (sf_size f)), (sf_bold f), (sf_italic f), (sf_underline f); reflexivity.
  - unfold font_attrs. ats. rewrite !attr_app, !attr_when. ats. rewrite !attr_nil. destruct (flt (f_of_N 0) (sf_size f)), (sf_bold f), (sf_italic f), (sf_underline f); reflexivity.
  - exact P3.
Qed.

(** ** Paragraphs *)
Definition said_para (t : tbox) (s : str) : para :=
  {| p_align := align_for (st_h (tb_options t)); p_field := match tb_link t with Some _ => true | None => false end;
     p_text := match tb_link t, s with Some _, [] => lit " " | _, _ => s end; p_font := said_font (tb_font t) |}.
Lemma align_reads t r : (forall n, kid "a:pPr" r = Some n -> False) -> read_align (map node_of (align_xml t) ++ r) = Some (align_for (st_h t)) /\ Forall wx_ok (align_xml t) /\
  forall k, String.eqb "a:pPr" k = false -> kid k (map node_of (align_xml t) ++ r) = kid k r.
Proof.
  intros Nr. unfold align_xml, read_align. destruct (st_h t); cbn [map app align_for]; rewrite ?node_empty; kids; cbn [attrs_of]; ats.
  1: { destruct (kid "a:pPr" r) as [n|] eqn:E; [exfalso; eapply Nr; reflexivity|]. repeat split; constructor. }
  all: (split; [reflexivity|]); (split; [constructor; [split; [reflexivity|good]|constructor]|]); intros k E; apply kid_miss; exact E.
Qed.
Lemma para_reads t s : font_fits (tb_font t) -> doc_text s -> wx_ok (para_xml num_text t s) /\ read_para (node_of (para_xml num_text t s)) = Some (said_para t s).
Proof.
  intros F D. unfold para_xml. set (rest := match tb_link t with Some _ => _ | None => _ end).
  destruct (tfont_reads "a:rPr" (tb_font t) eq_refl F) as (W1 & k1 & E1 & R1). destruct (tfont_reads "a:endParaRPr" (tb_font t) eq_refl F) as (W2 & k2 & E2 & R2).
  assert (Np : forall n, kid "a:pPr" (map node_of rest) = Some n -> False).
  { intros n. unfold rest. destruct (tb_link t); [|destruct (is_nil s)]; cbn [map]; rewrite ?E2, ?node_elem; kids; discriminate. }
  destruct (align_reads (tb_options t) (map node_of rest) Np) as (A1 & A2 & A3). split.
  - apply ok_elem; [reflexivity|apply attrs_nil|]. apply Forall_app. split; [exact A2|]. unfold rest. destruct (tb_link t).
    + constructor; [|constructor; [exact W2|constructor]]. apply ok_elem; [reflexivity|good|]. constructor; [exact W1|]. destruct (is_nil s); [constructor; [apply ok_word; reflexivity|constructor]|].
      constructor; [apply ok_leaf; reflexivity|]. constructor; [apply ok_word; [reflexivity|exact D]|constructor].
    + destruct (is_nil s); [constructor; [exact W2|constructor]|]. constructor; [|constructor]. apply ok_elem; [reflexivity|apply attrs_nil|]. constructor; [exact W1|]. constructor; [apply ok_word; [reflexivity|exact D]|constructor].
  - rewrite node_elem, map_app. unfold read_para. cbv zeta. rewrite elem_is. eqbs. cbn [kids_of]. rewrite A1. cbn [bind]. rewrite !A3 by reflexivity.
    assert (Td : forall k j a b r, String.eqb j k = false -> kid_text k (Elem (lit j) a b :: r) = kid_text k r) by (intros; unfold kid_text; rewrite kid_miss by assumption; reflexivity).
    unfold rest, said_para. destruct (tb_link t).
    + cbn [map]. rewrite node_elem, E2. kids. cbn [attrs_of kids_of]. ats. rewrite str_eqb_refl. rewrite map_cons, E1. rewrite Td by reflexivity. destruct s as [|c s']; cbn [is_nil map].
      * rewrite (data_hit "a:t") by reflexivity. cbn [bind]. kids. cbn [bind]. rewrite R1. reflexivity.
      * rewrite node_empty, Td by reflexivity. rewrite (data_hit "a:t") by exact D. cbn [bind]. kids. cbn [bind]. rewrite R1. reflexivity.
    + destruct s as [|c s']; cbn [is_nil map].
      * rewrite E2. kids. cbn [kid find bind]. rewrite R2. reflexivity.
      * rewrite node_elem. kids. cbn [kids_of]. rewrite !map_cons, E1. rewrite Td by reflexivity. rewrite (data_hit "a:t") by exact D. cbn [bind]. kids. cbn [bind]. rewrite R1. reflexivity.
Qed.
Lemma paras_read t l : font_fits (tb_font t) -> Forall doc_text l -> Forall wx_ok (map (para_xml num_text t) l) /\
  read_all read_para (filter (is_elem "a:p") (map node_of (map (para_xml num_text t) l))) = Some (map (said_para t) l).
Proof.
  intros F. induction l as [|s l IH]; intros D; [split; [constructor|reflexivity]|]. destruct (IH (Forall_inv_tail D)) as [I1 I2]. destruct (para_reads t s F (Forall_inv D)) as [P1 P2].
  cbn [map]. split; [constructor; assumption|]. cbn [filter]. assert (E : is_elem "a:p" (node_of (para_xml num_text t s)) = true) by reflexivity. rewrite E. cbn [read_all]. rewrite P2. cbn [bind]. rewrite I2. reflexivity.
Qed.
End Numbers.
