(** Colours, fills and lines in DrawingML read back. *)
From Verif Require Import Base F64 Xml_Model Xml_Spec Xml_Proofs Xml_Read Xml_Read_Proofs Xml_Tree Fmt_Model Rich_Model Rich_Proofs SheetXml_Spec SheetXml_Proofs SheetXml_Proofs3 Doc_Spec Props_Doc Tag_Proofs Part_Proofs
  CF_Spec CF_Model CF_Build CF_Read Ref_Proofs Note_Spec Note_Proofs Note_Proofs2 Note_Proofs4 Note_Proofs5 Dml_Model Dml_Spec.
From Verif Require Color_Spec.

Definition nz (n : N) : option N := if 0 <? n then Some n else None.
Lemma val_node tag n : node_of (val_xml tag n) = Elem (lit tag) [(lit "val", dec n)] []. Proof. reflexivity. Qed.
Lemma val_one k n r : val_of k (Elem (lit k) [(lit "val", dec n)] [] :: r) = Some (Some n).
Proof. unfold val_of. rewrite kid_one, String.eqb_refl. cbn [attrs_of]. rewrite attr_cons. eqbs. cbn [bind]. rewrite number_of_dec. reflexivity. Qed.
Lemma val_skip k j n r : String.eqb j k = false -> val_of k (Elem (lit j) [(lit "val", dec n)] [] :: r) = val_of k r.
Proof. intros E. unfold val_of. rewrite kid_one, E. reflexivity. Qed.
Lemma val_none k : val_of k [] = Some None. Proof. reflexivity. Qed.
Lemma attr_val v l : attr "val" ((lit "val", v) :: l) = Some v. Proof. reflexivity. Qed.
Lemma elem_is j k a l : is_elem k (Elem (lit j) a l) = String.eqb j k. Proof. apply str_eqb_lit. Qed.

Lemma scheme_reads s th m o t : t <= 100 -> theme_of s = Some th ->
  forall p, lighter (nz m) (nz o) = Some p -> read_color (node_of (scheme_xml s m o t)) = Some (DTheme th p, (100 - t) * 1000).
Proof.
  intros Ht Hs p Hp. unfold scheme_xml, read_color.
  assert (E : exists k, node_of (if (0 <? m) || (0 <? o) || (0 <? t) then
      WElem (lit "a:schemeClr") [(lit "val", s)] (when (0 <? m) [val_xml "a:lumMod" m] ++ when (0 <? o) [val_xml "a:lumOff" o] ++ when (0 <? t) [alpha_xml t])
      else WEmpty (lit "a:schemeClr") [(lit "val", s)]) = Elem (lit "a:schemeClr") [(lit "val", s)] k /\
      val_of "a:alpha" k = Some (if 0 <? t then Some ((100 - t) * 1000) else None) /\ val_of "a:shade" k = Some None /\ val_of "a:lumMod" k = Some (nz m) /\ val_of "a:lumOff" k = Some (nz o)).
  { unfold nz, alpha_xml. destruct (0 <? m), (0 <? o), (0 <? t); cbn [orb when app]; eexists; (split; [reflexivity|]);
      cbn [map]; rewrite ?val_node; repeat first [rewrite val_one | rewrite val_skip by reflexivity | rewrite val_none]; repeat split. }
  destruct E as (k & -> & A1 & A2 & A3 & A4). rewrite !elem_is. cbn [attrs_of kids_of]. eqbs. rewrite attr_val. cbn [bind]. rewrite Hs. cbn [bind].
  unfold opacity. rewrite A1. cbn [bind]. rewrite A2. cbn [bind]. rewrite A3. cbn [bind]. rewrite A4. cbn [bind]. rewrite Hp. cbn [bind].
  destruct (N.ltb_spec 0 t); [reflexivity|]. replace t with 0 by lia. reflexivity.
Qed.
Lemma hex_attr c : attr_ok (rgb_hex_value c).
Proof.
  pose proof (hex_chars c) as H. unfold attr_ok. rewrite forallb_forall in *. intros x Hx. specialize (H x Hx). unfold is_ascii_digit, is_ascii_upper in H. unfold attr_char, xml_char. lia.
Qed.
Lemma scheme_table t s : t <= 9 -> s <= 5 -> exists n m o, chart_scheme t s = Some (n, m, o) /\ theme_of n = Some t /\ lighter (nz m) (nz o) = Some (Color_Spec.shade_percent t s) /\ attr_ok n.
Proof.
  intros T S. assert (It : In t [0;1;2;3;4;5;6;7;8;9]) by (cbn [In]; lia). assert (Is : In s [0;1;2;3;4;5]) by (cbn [In]; lia). cbn [In] in It, Is. clear T S.
  repeat (destruct It as [<-|It]; [repeat (destruct Is as [<-|Is]; [do 3 eexists; split; [reflexivity|]; split; [reflexivity|]; split; reflexivity|]); destruct Is|]). destruct It.
Qed.
Lemma ok_val_x tag n : good_name (lit tag) = true -> wx_ok (val_xml tag n).
Proof. intros G. split; [exact G|]. good. Qed.
Lemma ok_if {P : wx -> Prop} (b : bool) l : Forall P l -> Forall P (when b l).
Proof. intros H. destruct b; [exact H|constructor]. Qed.

(** One element, which reads as the colour. *)
Lemma color_reads c t : Color_Spec.real_color c = true -> t <= 100 ->
  exists x, color_xml c t = [x] /\ wx_ok x /\ read_color (node_of x) = Some (seen_color c, seen_opacity c t).
Proof.
  intros R Ht.
  assert (P : (forall a b, c <> CTheme a b) -> c <> CAutomatic ->
    exists x, [if 0 <? t then WElem (lit "a:srgbClr") [(lit "val", rgb_hex_value c)] [alpha_xml t] else WEmpty (lit "a:srgbClr") [(lit "val", rgb_hex_value c)]] = [x] /\ wx_ok x /\
      read_color (node_of x) = Some (DRgb (rgb c), (100 - t) * 1000)).
  { intros Hth Hau. eexists. split; [reflexivity|]. pose proof (hex_attr c) as A.
    assert (C : rgb_of (lit "FF" ++ rgb_hex_value c) = Some (rgb c)).
    { destruct c as [n|a b| | |n].
      - apply (color_rgb (CRGB n)). split; [exact I|]. change ((n <=? 16777215) = true) in R. lia.
      - exfalso. apply (Hth a b eq_refl).
      - reflexivity.
      - congruence.
      - apply (color_rgb (CNamed n)). change ((n <? 16) = true) in R. split; [unfold plain_color; lia|exact I]. }
    split.
    - destruct (0 <? t); [apply ok_elem; [reflexivity|good|constructor; [apply ok_val_x; reflexivity|constructor]]|split; [reflexivity|good]].
    - assert (E : exists k, node_of (if 0 <? t then WElem (lit "a:srgbClr") [(lit "val", rgb_hex_value c)] [alpha_xml t] else WEmpty (lit "a:srgbClr") [(lit "val", rgb_hex_value c)])
          = Elem (lit "a:srgbClr") [(lit "val", rgb_hex_value c)] k /\ opacity k = Some ((100 - t) * 1000)).
      { unfold alpha_xml. destruct (N.ltb_spec 0 t).
        - eexists. split; [reflexivity|]. cbn [map]. rewrite val_node. unfold opacity. rewrite val_one. reflexivity.
        - eexists. split; [reflexivity|]. replace t with 0 by lia. reflexivity. }
      destruct E as (k & -> & O). unfold read_color. rewrite elem_is. eqbs. cbn [attrs_of kids_of]. rewrite attr_val. cbn [bind]. rewrite C. cbn [bind]. rewrite O. reflexivity. }
  destruct c as [n|a b| | |n]; cbn [color_xml seen_color seen_opacity].
  - apply P; congruence.
  - cbn in R. apply andb_prop in R as [R1 R2]. destruct (scheme_table a b ltac:(lia) ltac:(lia)) as (s & m & o & -> & E1 & E2 & E3).
    eexists. split; [reflexivity|]. split; [|apply scheme_reads; assumption]. unfold scheme_xml.
    destruct ((0 <? m) || (0 <? o) || (0 <? t)); [|split; [reflexivity|good]]. apply ok_elem; [reflexivity|good|].
    repeat (apply Forall_app; split); apply ok_if; (constructor; [apply ok_val_x; reflexivity|constructor]).
  - apply P; congruence.
  - eexists. split; [reflexivity|]. split; [split; [reflexivity|good]|reflexivity].
  - apply P; congruence.
Qed.
Lemma color_in_reads tag c t : Color_Spec.real_color c = true -> t <= 100 ->
  color_in (node_of (WElem (lit tag) [] (color_xml c t))) = Some (seen_color c, seen_opacity c t) /\ Forall wx_ok (color_xml c t).
Proof. intros R Ht. destruct (color_reads c t R Ht) as (x & -> & W & E). split; [exact E|constructor; [exact W|constructor]]. Qed.

(** ** Calls *)
Ltac setter := intros s o; destruct o; cbn; rewrite ?in_range_eq; repeat match goal with |- context [color_valid ?c] => destruct (color_valid c) | |- context [if ?b then _ else _] => destruct b end; reflexivity.
Lemma made_solid l : make_solid l = {| so_color := solid_color l; so_transparency := solid_transparency l |}.
Proof.
  unfold make_solid, solid_color, solid_transparency. match goal with |- ?a = _ => transitivity {| so_color := so_color a; so_transparency := so_transparency a |} end; [destruct (fold_left _ _ _); reflexivity|].
  f_equal; [apply (last_fold so_color)|apply (last_fold so_transparency)]; setter.
Qed.
Lemma made_patt l : make_patt l = {| pf_back := patt_back l; pf_fore := patt_fore l; pf_pattern := patt_pattern l |}.
Proof.
  unfold make_patt, patt_back, patt_fore, patt_pattern. match goal with |- ?a = _ => transitivity {| pf_back := pf_back a; pf_fore := pf_fore a; pf_pattern := pf_pattern a |} end; [destruct (fold_left _ _ _); reflexivity|].
  f_equal; [apply (last_fold pf_back)|apply (last_fold pf_fore)|apply (last_fold pf_pattern)]; setter.
Qed.
Lemma stop_same s : good_stop s = stop_valid s.
Proof. unfold good_stop, stop_valid. rewrite in_range_eq. destruct (color_valid (fst s)); reflexivity. Qed.
Lemma made_grad l : make_grad l = {| gr_type := grad_type l; gr_stops := grad_stops l; gr_angle := grad_angle l |}.
Proof.
  unfold make_grad, grad_type, grad_stops, grad_angle. match goal with |- ?a = _ => transitivity {| gr_type := gr_type a; gr_stops := gr_stops a; gr_angle := gr_angle a |} end; [destruct (fold_left _ _ _); reflexivity|].
  f_equal; [apply (last_fold gr_type)|apply (last_fold gr_stops)|apply (last_fold gr_angle)]; intros s o; destruct o; cbn -[N.leb N.ltb]; try reflexivity;
    rewrite ?(filter_ext _ _ stop_same); repeat match goal with |- context [if ?b then _ else _] => destruct b end; reflexivity.
Qed.
Lemma made_line w l : make_line w l = {| ln_color := wanted_color l; ln_width := wanted_width w l; ln_transparency := wanted_transparency l; ln_dash := wanted_dash l; ln_hidden := wanted_hidden l |}.
Proof.
  unfold make_line, wanted_color, wanted_width, wanted_transparency, wanted_dash, wanted_hidden.
  match goal with |- ?a = _ => transitivity {| ln_color := ln_color a; ln_width := ln_width a; ln_transparency := ln_transparency a; ln_dash := ln_dash a; ln_hidden := ln_hidden a |} end; [destruct (fold_left _ _ _); reflexivity|].
  f_equal; [apply (last_fold ln_color)|apply (last_fold ln_width)|apply (last_fold ln_transparency)|apply (last_fold ln_dash)|apply (last_fold ln_hidden)];
    intros s o; destruct o; cbn -[N.leb fle]; rewrite ?in_range_eq; repeat match goal with |- context [if ?b then _ else _] => destruct b end; reflexivity.
Qed.
Lemma last_existsb {O} (f : O -> bool) l : existsb f l = last_of (fun o => if f o then Some true else None) false l.
Proof.
  unfold last_of. assert (H : forall l, fold_left (fun a o => match (if f o then Some true else None) with Some v => v | None => a end) l true = true).
  { induction l0 as [|o l0 IH]; [reflexivity|]. cbn. destruct (f o); exact IH. }
  induction l as [|o l IH]; [reflexivity|]. cbn [existsb fold_left]. destruct (f o); [symmetry; apply H|exact IH].
Qed.
Lemma made_format w l : let f := make_format w l in
  df_no_fill f = no_fill l /\ df_no_line f = no_line l /\ df_line f = option_map (make_line w) (the_line l) /\ df_solid f = option_map make_solid (the_solid l) /\
  df_patt f = option_map make_patt (the_pattern l) /\ df_grad f = option_map make_grad (the_gradient l).
Proof.
  cbv zeta. unfold make_format, no_fill, no_line. rewrite !last_existsb.
  assert (M : forall {A B} (f : dformat -> option B) (g : A -> B) (h : format_op -> option (option A)),
    (forall s o, f (format_step w s o) = match h o with Some v => option_map g v | None => f s end) -> f format_new = None ->
    f (fold_left (format_step w) l format_new) = option_map g (last_of h None l)).
  { intros A B f g h H H0. rewrite (last_fold f (fun o => option_map (option_map g) (h o))) by (intros s o; rewrite H; destruct (h o); reflexivity). rewrite H0.
    unfold last_of. change (@None B) with (option_map g None). generalize (@None A). clear H H0. induction l as [|o l' IH]; intros a; [reflexivity|]. cbn [fold_left]. rewrite <- IH. f_equal. destruct (h o); reflexivity. }
  split; [rewrite (last_fold df_no_fill (fun o => if match o with FoNoFill => true | _ => false end then Some true else None)); [reflexivity|setter]|].
  split; [rewrite (last_fold df_no_line (fun o => if match o with FoNoLine => true | _ => false end then Some true else None)); [reflexivity|setter]|].
  split; [|split; [|split]]; apply M; try reflexivity; intros s o; destruct o; reflexivity.
Qed.

(** ** Fills *)
Lemma is_fill_named k a l : is_fill (Elem (lit k) a l) = existsb (fun j => String.eqb k j) fill_names.
Proof. unfold is_fill. induction fill_names as [|j r IH]; [reflexivity|]. cbn [existsb]. rewrite IH, elem_is. reflexivity. Qed.
Definition reads_as (x : wx) (f : fill) : Prop := wx_ok x /\ read_fill (node_of x) = Some f /\ is_fill (node_of x) = true.
Lemma solid_reads c t : Color_Spec.real_color c = true -> t <= 100 -> reads_as (solid_xml c t) (Solid (seen_color c) (seen_opacity c t)).
Proof.
  intros R Ht. destruct (color_in_reads "a:solidFill" c t R Ht) as [E W]. split; [apply ok_elem; [reflexivity|good|exact W]|]. split; [|reflexivity].
  unfold read_fill, solid_xml. cbn [node_of]. rewrite !elem_is. eqbs. cbn [node_of] in E. rewrite E. reflexivity.
Qed.
Lemma pattern_attr n : n < 48 -> attr_ok (pattern_name n).
Proof.
  intros H. unfold pattern_name. assert (F : Forall (fun s => attr_ok (lit s)) pattern_names) by (repeat constructor).
  assert (I : In (nth (N.to_nat n) pattern_names EmptyString) pattern_names) by (apply nth_In; change (length pattern_names) with (N.to_nat 48); lia).
  rewrite Forall_forall in F. exact (F _ I).
Qed.
Lemma kid_single_c k tag c t r : Color_Spec.real_color c = true -> t <= 100 -> kid k r = None ->
  (if String.eqb tag k then color_at k (node_of (WElem (lit tag) [] (color_xml c t)) :: r) = Some (Some (seen_color c))
   else kid k (node_of (WElem (lit tag) [] (color_xml c t)) :: r) = kid k r).
Proof.
  intros R Ht N0. pose proof (proj1 (color_in_reads tag c t R Ht)) as E. destruct (String.eqb tag k) eqn:Q.
  - unfold color_at. cbn [node_of] in *. rewrite kid_one, Q. rewrite E. reflexivity.
  - cbn [node_of]. rewrite kid_one, Q. reflexivity.
Qed.
Lemma patt_reads p : Color_Spec.real_color (pf_fore p) = true -> Color_Spec.real_color (pf_back p) = true -> pf_pattern p < 48 ->
  reads_as (patt_xml p) (Pattern (word_at patterns (pf_pattern p)) (opt_color (pf_fore p)) (back_color (pf_fore p) (pf_back p))).
Proof.
  intros Rf Rb Rp. pose proof (pattern_attr _ Rp) as A. assert (Z0 : 0 <= 100) by discriminate.
  assert (Wf := proj2 (color_in_reads "x" _ 0 Rf Z0)). assert (Wb := proj2 (color_in_reads "x" _ 0 Rb Z0)). assert (Ww := proj2 (color_in_reads "x" (CNamed 14) 0 eq_refl Z0)).
  split; [|split; [|reflexivity]].
  - unfold patt_xml. apply ok_elem; [reflexivity|good|]. apply Forall_app. split; [apply ok_if; constructor; [apply ok_elem; [reflexivity|good|exact Wf]|constructor]|].
    destruct (negb (is_default (pf_back p))); [|apply ok_if]; (constructor; [apply ok_elem; [reflexivity|good|assumption]|constructor]).
  - unfold read_fill, patt_xml. cbn [node_of]. rewrite !elem_is. eqbs. cbn [attrs_of kids_of]. rewrite attr_cons. eqbs. cbn [bind]. rewrite map_app.
    match goal with |- context [color_at "a:fgClr" ?l] => set (kids := l) end.
    assert (F : color_at "a:fgClr" kids = Some (opt_color (pf_fore p)) /\ color_at "a:bgClr" kids = Some (back_color (pf_fore p) (pf_back p))).
    { unfold kids. clear kids.
      set (fg := WElem (lit "a:fgClr") [] (color_xml (pf_fore p) 0)). set (bg := WElem (lit "a:bgClr") [] (color_xml (pf_back p) 0)). set (wh := WElem (lit "a:bgClr") [] (color_xml (CNamed 14) 0)).
      assert (K1 : forall r, color_at "a:fgClr" (node_of fg :: r) = Some (Some (seen_color (pf_fore p)))).
      { intros r. unfold color_at. unfold fg at 1. cbn [node_of]. rewrite kid_one. eqbs. pose proof (proj1 (color_in_reads "a:fgClr" _ 0 Rf Z0)) as E. cbn [node_of] in E. rewrite E. reflexivity. }
      assert (K2 : forall r, color_at "a:bgClr" (node_of fg :: r) = color_at "a:bgClr" r) by (intros r; unfold color_at, fg; cbn [node_of]; rewrite kid_one; reflexivity).
      assert (K3 : forall r, color_at "a:bgClr" (node_of bg :: r) = Some (Some (seen_color (pf_back p)))).
      { intros r. unfold color_at. unfold bg at 1. cbn [node_of]. rewrite kid_one. eqbs. pose proof (proj1 (color_in_reads "a:bgClr" _ 0 Rb Z0)) as E. cbn [node_of] in E. rewrite E. reflexivity. }
      assert (K4 : color_at "a:fgClr" [node_of bg] = Some None /\ color_at "a:fgClr" [node_of wh] = Some None /\ color_at "a:bgClr" [node_of wh] = Some (Some (DRgb 16777215))) by (repeat split; reflexivity).
      destruct K4 as (K4 & K5 & K6). unfold is_default. clearbody fg bg wh. 
      destruct (pf_fore p), (pf_back p); cbn [negb when app map opt_color back_color] in *; rewrite ?K1, ?K2, ?K3, ?K4, ?K5, ?K6; split; reflexivity. }
    destruct F as [-> ->]. reflexivity.
Qed.
Lemma stop_reads s : Color_Spec.real_color (fst s) = true -> wx_ok (stop_xml s) /\ read_stop (node_of (stop_xml s)) = Some (seen_color (fst s), snd s).
Proof.
  intros R. destruct (color_in_reads "a:gs" (fst s) 0 R ltac:(discriminate)) as [E W]. split; [apply ok_elem; [reflexivity|good|exact W]|].
  unfold read_stop, stop_xml. cbn [node_of]. rewrite elem_is. eqbs. cbn [attrs_of]. rewrite attr_cons. eqbs. cbn [bind]. rewrite number_of_dec. cbn [bind]. unfold color_in in *. cbn [node_of kids_of] in *. rewrite E. cbn [bind fst].
  rewrite (N.mul_comm 1000), N.mod_mul, N.div_mul by discriminate. reflexivity.
Qed.
Lemma stops_read l : Forall (fun s => Color_Spec.real_color (fst s) = true) l ->
  Forall wx_ok (map stop_xml l) /\ read_all read_stop (map node_of (map stop_xml l)) = Some (map (fun s => (seen_color (fst s), snd s)) l).
Proof.
  induction l as [|s l IH]; intros F; [split; [constructor|reflexivity]|]. destruct (IH (Forall_inv_tail F)) as [I1 I2]. destruct (stop_reads s (Forall_inv F)) as [S1 S2].
  cbn [map]. split; [constructor; assumption|]. cbn [read_all]. rewrite S2. cbn [bind]. rewrite I2. reflexivity.
Qed.
Lemma grad_reads g : gr_type g < 4 -> Forall (fun s => Color_Spec.real_color (fst s) = true) (gr_stops g) ->
  reads_as (grad_xml g) (Gradient (match gr_type g with 0 => Linear (gr_angle g) | 1 => Radial | 2 => Rectangular | _ => FromPath end) (map (fun s => (seen_color (fst s), snd s)) (gr_stops g))).
Proof.
  intros T F. destruct (stops_read _ F) as [W E]. split; [|split; [|reflexivity]].
  - unfold grad_xml. apply ok_elem; [reflexivity|destruct (negb (gr_type g =? 0)); [good|apply attrs_nil]|]. constructor; [apply ok_elem; [reflexivity|good|exact W]|].
    unfold path_xml. destruct (gr_type g =? 0); [constructor; [split; [reflexivity|good]|constructor]|].
    constructor; [|constructor; [split; [reflexivity|destruct ((gr_type g =? 1) || (gr_type g =? 2)); [good|apply attrs_nil]]|constructor]].
    apply ok_elem; [reflexivity| |constructor; [split; [reflexivity|destruct (gr_type g =? 3); good]|constructor]].
    destruct (gr_type g =? 1); [good|]. destruct (gr_type g =? 2); [good|]. destruct (gr_type g =? 3); [good|apply attrs_nil].
  - unfold read_fill, grad_xml. cbn [node_of]. rewrite !elem_is. eqbs. cbn [kids_of]. cbn [map node_of]. rewrite kid_one. eqbs. cbn [bind kids_of]. rewrite E. cbn [bind]. unfold read_kind. rewrite !kid_one. eqbs.
    destruct (gr_type g) as [|[ | [] |]] eqn:Q; cbn [N.eqb Pos.eqb]; try lia.
    + cbn [map angle_xml node_of]. rewrite kid_one. eqbs. cbn [attrs_of]. rewrite attr_cons. eqbs. cbn [bind]. rewrite number_of_dec. cbn [bind].
      rewrite (N.mul_comm 60000), N.mod_mul, N.div_mul by discriminate. reflexivity.
    + destruct p; try lia. reflexivity.
    + reflexivity.
    + reflexivity.
Qed.
Lemma real_kept c : known_color c -> forall d, in_range c = Some d -> Color_Spec.real_color d = true.
Proof. intros K d E. rewrite in_range_eq in E. destruct (color_valid c) eqn:V; [|discriminate]. injection E as <-. destruct c; try exact V; try reflexivity. cbn in *. lia. Qed.

(** What a format says about the fill is written as one element, or not at all. *)
Theorem fill_reads w l : Forall format_known l ->
  match fill_xml (make_format w l), wanted_fill l with
  | Some x, Some f => reads_as x f
  | None, None => True
  | _, _ => False
  end.
Proof.
  intros F. destruct (made_format w l) as (E1 & _ & _ & E2 & E3 & E4). unfold fill_xml, wanted_fill. rewrite E1, E2, E3, E4. destruct (no_fill l); [split; [split; [reflexivity|apply attrs_nil]|split; reflexivity]|].
  destruct (the_solid l) as [s|] eqn:Es; cbn [option_map].
  { assert (K : Forall (fun o => match o with SoColor c => known_color c | _ => True end) s).
    { assert (G : match the_solid l with Some s => Forall (fun o => match o with SoColor c => known_color c | _ => True end) s | None => True end).
      { apply (last_all (fun x => match x with Some s => Forall (fun o => match o with SoColor c => known_color c | _ => True end) s | None => True end) format_known); [|exact I|exact F].
        intros o v H Ev. destruct o; try discriminate. injection Ev as <-. exact H. }
      rewrite Es in G. exact G. }
    rewrite made_solid. cbn [so_color so_transparency]. apply solid_reads.
    - apply (last_all (fun c => Color_Spec.real_color c = true) (fun o => match o with SoColor c => known_color c | _ => True end)); [|reflexivity|exact K]. intros o v H Ev. destruct o; try discriminate. exact (real_kept _ H _ Ev).
    - apply (last_all (fun n => n <= 100) (fun _ : solid_op => True)); [|discriminate|apply Forall_forall; auto]. intros o v _ Ev. destruct o; try discriminate. destruct (N.leb_spec n 100); [|discriminate]. injection Ev as <-. assumption. }
  destruct (the_pattern l) as [p|] eqn:Ep; cbn [option_map].
  { set (Q := fun o => match o with PfPattern n => n < 48 | PfBack c | PfFore c => known_color c end). assert (K : Forall Q p).
    { assert (G : match the_pattern l with Some s => Forall Q s | None => True end).
      { apply (last_all (fun x => match x with Some s => Forall Q s | None => True end) format_known); [|exact I|exact F]. intros o v H Ev. destruct o; try discriminate. injection Ev as <-. exact H. }
      rewrite Ep in G. exact G. }
    rewrite made_patt. apply (patt_reads {| pf_back := patt_back p; pf_fore := patt_fore p; pf_pattern := patt_pattern p |}); cbn [pf_fore pf_back pf_pattern].
    - apply (last_all (fun c => Color_Spec.real_color c = true) Q); [|reflexivity|exact K]. intros o v H Ev. destruct o; try discriminate. exact (real_kept _ H _ Ev).
    - apply (last_all (fun c => Color_Spec.real_color c = true) Q); [|reflexivity|exact K]. intros o v H Ev. destruct o; try discriminate. exact (real_kept _ H _ Ev).
    - apply (last_all (fun c => c < 48) Q); [|reflexivity|exact K]. intros o v H Ev. destruct o; try discriminate. injection Ev as <-. exact H. }
  destruct (the_gradient l) as [g|] eqn:Eg; cbn [option_map]; [|exact I].
  set (Q := fun o => match o with GrType n => n < 4 | GrStops s => Forall (fun s : Color * N => known_color (fst s)) s | _ => True end). assert (K : Forall Q g).
  { assert (G : match the_gradient l with Some s => Forall Q s | None => True end).
    { apply (last_all (fun x => match x with Some s => Forall Q s | None => True end) format_known); [|exact I|exact F]. intros o v H Ev. destruct o; try discriminate. injection Ev as <-. exact H. }
    rewrite Eg in G. exact G. }
  rewrite made_grad. apply (grad_reads {| gr_type := grad_type g; gr_stops := grad_stops g; gr_angle := grad_angle g |}); cbn [gr_type gr_stops].
  - apply (last_all (fun c => c < 4) Q); [|reflexivity|exact K]. intros o v H Ev. destruct o; try discriminate. injection Ev as <-. exact H.
  - apply (last_all (Forall (fun s => Color_Spec.real_color (fst s) = true)) Q); [|constructor|exact K]. intros o v H Ev. destruct o; try discriminate. cbv zeta in Ev. destruct (_ && _); [|discriminate]. injection Ev as <-.
    apply Forall_forall. intros s Hs. apply filter_In in Hs as [Hs G]. cbn in H. rewrite Forall_forall in H. specialize (H s Hs). unfold good_stop in G. destruct (in_range (fst s)) eqn:R; [|discriminate].
    pose proof R as R'. rewrite in_range_eq in R'. destruct (color_valid (fst s)); [|discriminate]. injection R' as <-. exact (real_kept _ H _ R).
Qed.
