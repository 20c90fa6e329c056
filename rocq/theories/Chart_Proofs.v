(** Charts: elements made of parts, and the shapes, texts, layouts, ranges and titles read back. *)
From Verif Require Import Base F64 Xml_Model Xml_Spec Xml_Proofs Xml_Read Xml_Read_Proofs Xml_Tree Fmt_Model Rich_Model Rich_Proofs SheetXml_Spec SheetXml_Proofs SheetXml_Proofs3 Doc_Model Doc_Spec Props_Doc Tag_Proofs Part_Proofs
  CF_Spec CF_Model CF_Build CF_Read Ref_Model Ref_Proofs Ref_Spec Quote_Proofs Note_Spec Note_Proofs Note_Proofs2 Note_Proofs4 Note_Proofs5 Cache_Model Spark_Model Spark_Spec Dml_Model Dml_Spec Dml_Proofs Draw_Model Draw_Proofs Draw_Proofs3 Chart_Model Chart_Spec.
From Verif Require Color_Spec Props_Spark Draw_Proofs2.

(** ** Parts *)
Fixpoint part (k : string) (tags : list string) (ls : list (list wx)) : list wx :=
  match tags, ls with j :: t, l :: r => (if String.eqb j k then l else []) ++ part k t r | _, _ => [] end.
Lemma filter_tagged k j l : tagged j l -> filter (is_elem k) (map node_of l) = map node_of (if String.eqb j k then l else []).
Proof.
  intros H. induction H as [|x l E T IH]; [destruct (String.eqb j k); reflexivity|]. cbn [map filter]. rewrite is_elem_tag, E, str_eqb_lit, IH. destruct (String.eqb j k); reflexivity.
Qed.
Lemma parts_filter k tags ls : Forall2 tagged tags ls -> filter (is_elem k) (map node_of (concat ls)) = map node_of (part k tags ls).
Proof.
  induction 1 as [|j l t r H F IH]; [reflexivity|]. cbn [concat part]. rewrite !map_app, filter_app, IH, (filter_tagged k j l H). reflexivity.
Qed.
Lemma parts_maybe {A} k (f : node -> option A) tags ls : Forall2 tagged tags ls ->
  maybe k f (map node_of (concat ls)) = match part k tags ls with [] => Some None | [x] => bind (f (node_of x)) (fun a => Some (Some a)) | _ => None end.
Proof. intros H. unfold maybe. rewrite (parts_filter k _ _ H). destruct (part k tags ls) as [|x [|y l]]; reflexivity. Qed.
Lemma elem_kids tag ls : kids_of (node_of (elem tag ls)) = map node_of (concat ls). Proof. reflexivity. Qed.
Lemma elem_attrs tag ls : attrs_of (node_of (elem tag ls)) = []. Proof. reflexivity. Qed.
Lemma elem_ok tag ls : good_name (lit tag) = true -> Forall (Forall wx_ok) ls -> wx_ok (elem tag ls).
Proof. intros G F. apply ok_elem; [exact G|apply attrs_nil|]. apply Forall_concat. exact F. Qed.
Lemma tagged_nil j : tagged j []. Proof. constructor. Qed.
Lemma tagged_one j x : tag_of x = lit j -> tagged j [x]. Proof. intros E. constructor; [exact E|constructor]. Qed.
Lemma tagged_when j b l : tagged j l -> tagged j (when b l). Proof. intros H. destruct b; [exact H|constructor]. Qed.
Lemma tagged_opt {A} j (o : option A) f : (forall a, tag_of (f a) = lit j) -> tagged j (opt_xml o f). Proof. intros H. destruct o; [apply tagged_one, H|constructor]. Qed.
Lemma tagged_app j a b : tagged j a -> tagged j b -> tagged j (a ++ b). Proof. intros. apply Forall_app. split; assumption. Qed.
Lemma tagged_map {A} j (f : A -> wx) l : (forall a, tag_of (f a) = lit j) -> tagged j (map f l). Proof. intros H. apply Forall_forall. intros x Hx. apply in_map_iff in Hx as (a & <- & _). apply H. Qed.
Lemma tagged_sp f : tagged "c:spPr" (sp_pr f). Proof. apply tagged_when, tagged_one. reflexivity. Qed.

(** ** Small elements *)
Lemma value_word tag s : value_of (node_of (word_xml tag s)) = Some s. Proof. reflexivity. Qed.
Lemma value_num tag n : number_val (node_of (num_xml tag n)) = Some n. Proof. unfold number_val. cbn [node_of num_xml word_xml]. unfold value_of. cbn [attrs_of]. rewrite attr_val. cbn [bind]. apply number_of_dec. Qed.
Lemma value_flag tag : flag_val (node_of (flag_xml tag)) = Some true. Proof. reflexivity. Qed.
Lemma word_ok tag s : good_name (lit tag) = true -> attr_ok s -> wx_ok (word_xml tag s).
Proof. intros G A. split; [exact G|]. good. Qed.
Lemma num_ok tag n : good_name (lit tag) = true -> wx_ok (num_xml tag n).
Proof. intros G. apply word_ok; [exact G|apply attr_dec]. Qed.
Lemma flag_ok tag : good_name (lit tag) = true -> wx_ok (flag_xml tag).
Proof. intros G. apply word_ok; [exact G|reflexivity]. Qed.
Lemma bit_reads b : bit_of (bit b) = Some b. Proof. destruct b; reflexivity. Qed.
Lemma bit_ok b : attr_ok (bit b). Proof. destruct b; reflexivity. Qed.
Lemma flag_parts k b tags ls : Forall2 tagged tags ls -> part k tags ls = when b [flag_xml k] -> flag_at k (map node_of (concat ls)) = Some b.
Proof. intros H E. unfold flag_at. rewrite (parts_maybe k _ _ _ H), E. destruct b; reflexivity. Qed.

(** ** Shapes *)
Lemma has_formatting_calls l : has_formatting (chart_format l) = negb (no_calls l).
Proof.
  destruct (made_format None l) as (E1 & E2 & E3 & E4 & E5 & E6). unfold has_formatting, chart_format. rewrite E1, E2, E3, E4, E5, E6. clear.
  assert (M : forall A (o : option A) B (g : A -> B), some (option_map g o) = some o) by (intros A [a|]; reflexivity). rewrite !M.
  induction l as [|o l IH] using rev_ind; [reflexivity|]. replace (no_calls (l ++ [o])) with false by (destruct l; reflexivity).
  unfold the_line, the_solid, the_pattern, the_gradient, no_fill, no_line. rewrite !last_snoc, !existsb_app. cbn [existsb]. destruct o; cbn [some negb orb]; rewrite ?orb_true_r; reflexivity.
Qed.
Lemma line_known_color l : Forall line_known l -> Color_Spec.real_color (wanted_color l) = true /\ wanted_transparency l <= 100 /\ wanted_dash l < 8.
Proof.
  intros K. split; [|split].
  - apply (last_all (fun c => Color_Spec.real_color c = true) line_known); [|reflexivity|exact K]. intros o v H E. destruct o; try discriminate. exact (real_kept _ H _ E).
  - apply (last_all (fun n => n <= 100) line_known); [|lia|exact K]. intros o v H E. destruct o; try discriminate. match type of E with (if ?a <=? 100 then _ else _) = _ => destruct (N.leb_spec a 100); [|discriminate] end. congruence.
  - apply (last_all (fun n => n < 8) line_known); [|lia|exact K]. intros o v H E. destruct o; try discriminate. injection E as <-. exact H.
Qed.
Lemma default_is c : is_default c = match c with CDefault => true | _ => false end. Proof. destruct c; reflexivity. Qed.
Lemma chart_ln_reads l : Forall line_known l -> wx_ok (chart_ln (make_line None l)) /\ read_line (node_of (chart_ln (make_line None l))) = Some (asked_line l).
Proof.
  intros K. destruct (line_known_color l K) as (R & T & D). rewrite made_line. unfold chart_ln. cbn [ln_color ln_width ln_transparency ln_dash ln_hidden].
  set (attrs := match wanted_width None l with Some w => _ | None => _ end).
  assert (G : attrs_good attrs) by (unfold attrs; destruct (wanted_width None l); [good|apply attrs_nil]).
  assert (W : match attr "w" attrs with Some w => bind (number_of w) (fun w => Some (Some w)) | None => Some None end = Some (option_map line_emus (wanted_width None l))).
  { unfold attrs. destruct (wanted_width None l); [|reflexivity]. rewrite attr_hit, number_of_dec. reflexivity. }
  destruct (dash_word _ D) as [E A]. destruct (solid_reads (wanted_color l) (wanted_transparency l) R T) as (Ws & Rs & Fs).
  set (kids := if wanted_hidden l then _ else _).
  assert (X : exists x, (if negb (is_default (wanted_color l)) || negb (wanted_dash l =? 0) || wanted_hidden l then WElem (lit "a:ln") attrs kids else WEmpty (lit "a:ln") attrs) = x /\
    node_of x = Elem (lit "a:ln") attrs (map node_of kids) /\ wx_ok x).
  { eexists. split; [reflexivity|]. unfold kids, dash_xml. destruct (negb (is_default (wanted_color l)) || negb (wanted_dash l =? 0) || wanted_hidden l) eqn:Q.
    - split; [reflexivity|]. apply ok_elem; [reflexivity|exact G|]. destruct (wanted_hidden l); [constructor; [apply ok_leaf; reflexivity|constructor]|].
      apply Forall_app. split; apply ok_if; (constructor; [|constructor]); [exact Ws|]. split; [reflexivity|good].
    - apply orb_false_iff in Q as [Q Q3]. apply orb_false_iff in Q as [Q1 Q2]. rewrite Q1, Q2, Q3. split; [reflexivity|]. split; [reflexivity|exact G]. }
  destruct X as (x & -> & Ex & Wx). split; [exact Wx|]. rewrite Ex. unfold read_line. cbn [attrs_of kids_of]. rewrite W. cbn [bind]. unfold asked_line, kids. rewrite default_is. destruct (wanted_hidden l); [reflexivity|].
  assert (Dm : forall r, fill_of (map node_of (dash_xml (wanted_dash l)) ++ r) = fill_of r).
  { intros r. unfold fill_of, dash_xml. destruct (negb (wanted_dash l =? 0)); [|reflexivity]. cbn [when map app filter]. rewrite node_empty, is_fill_named. reflexivity. }
  assert (Dd : match kid "a:prstDash" (map node_of (dash_xml (wanted_dash l))) with Some d => attr "val" (attrs_of d) | None => Some (lit "solid") end = Some (word_at dashes (wanted_dash l))).
  { unfold dash_xml. destruct (N.eqb_spec (wanted_dash l) 0) as [->|Nz]; [reflexivity|]. cbn [negb when map]. rewrite node_empty. kids. cbn [attrs_of]. ats. rewrite E. reflexivity. }
  assert (Fc : forall c, c = wanted_color l -> is_default c = false -> fill_of (map node_of (when true [solid_xml c (wanted_transparency l)] ++ dash_xml (wanted_dash l))) = Some (Some (Solid (seen_color c) (seen_opacity c (wanted_transparency l)))) /\
    kid "a:prstDash" (map node_of (when true [solid_xml c (wanted_transparency l)] ++ dash_xml (wanted_dash l))) = kid "a:prstDash" (map node_of (dash_xml (wanted_dash l)))).
  { intros c -> _. cbn [when app map]. split.
    - unfold fill_of. cbn [filter]. rewrite Fs. specialize (Dm []). rewrite app_nil_r in Dm. unfold fill_of in Dm. cbn [filter] in Dm. destruct (filter is_fill (map node_of (dash_xml (wanted_dash l)))) as [|y [|z t]].
      + rewrite Rs. reflexivity.
      + destruct (read_fill y); discriminate Dm.
      + discriminate Dm.
    - unfold solid_xml. rewrite node_elem. rewrite kid_miss by reflexivity. reflexivity. }
  destruct (wanted_color l) as [n|a b| | |n] eqn:Ec; cbn [negb when app].
  3:{ specialize (Dm []). rewrite app_nil_r in Dm. rewrite Dm. cbn [fill_of filter bind]. rewrite Dd. reflexivity. }
  all: destruct (Fc _ eq_refl eq_refl) as [F1 F2]; cbn [when app] in F1, F2; rewrite F1; cbn [bind]; rewrite F2, Dd; reflexivity.
Qed.
Lemma ln_none_reads : wx_ok ln_none /\ read_line (node_of ln_none) = Some {| li_width := None; li_fill := Some NoFill; li_dash := lit "solid" |}.
Proof. split; [|reflexivity]. apply ok_elem; [reflexivity|apply attrs_nil|]. constructor; [apply ok_leaf; reflexivity|constructor]. Qed.
Lemma is_ln_fill x : is_fill x = true -> is_elem "a:ln" x = false.
Proof. intros F. destruct (is_elem "a:ln" x) eqn:Q; [|reflexivity]. exfalso. destruct x as [nm a l|]; [|discriminate Q]. cbn [is_elem] in Q. apply str_eqb_eq in Q. subst nm. rewrite is_fill_named in F. discriminate F. Qed.
Lemma sp_reads l : Forall format_known l -> Forall wx_ok (sp_pr (chart_format l)) /\
  match sp_pr (chart_format l) with [] => no_shape = asked_shape l | [x] => tag_of x = lit "c:spPr" /\ read_sp (node_of x) = Some (asked_shape l) | _ => False end.
Proof.
  intros K. unfold sp_pr. rewrite has_formatting_calls. destruct l as [|o l']; [split; [constructor|reflexivity]|]. cbn [no_calls negb when]. set (l := o :: l') in *. unfold chart_format.
  pose proof (fill_reads None l K) as R. destruct (made_format None l) as (_ & E2 & E3 & _). rewrite E2, E3.
  assert (Ln : exists y, (if no_line l then [ln_none] else opt_xml (option_map (make_line None) (the_line l)) chart_ln) = y /\ Forall wx_ok y /\ snd (asked_shape l) = snd (asked_shape l) /\ tagged "a:ln" y /\
    match y with [] => snd (asked_shape l) = None | [z] => bind (read_line (node_of z)) (fun a => Some (Some a)) = Some (snd (asked_shape l)) | _ => False end).
  { eexists. split; [reflexivity|]. unfold asked_shape. cbn [snd]. destruct (no_line l).
    { destruct ln_none_reads as [W E]. split; [constructor; [exact W|constructor]|]. split; [reflexivity|]. split; [apply tagged_one; reflexivity|rewrite E; reflexivity]. }
    destruct (the_line l) as [q|] eqn:Q; [|repeat split; constructor]. cbn [option_map opt_xml].
    assert (Kq : Forall line_known q).
    { assert (P : match the_line l with Some q => Forall line_known q | None => True end) by (apply (last_all (fun x => match x with Some q => Forall line_known q | None => True end) format_known); [|exact I|exact K];
        intros p v H E; destruct p; try discriminate; injection E as <-; exact H). rewrite Q in P. exact P. }
    destruct (chart_ln_reads q Kq) as [W E]. split; [constructor; [exact W|constructor]|]. split; [reflexivity|]. split; [|rewrite E; reflexivity].
    apply tagged_one. unfold chart_ln. destruct (_ || _); reflexivity. }
  destruct Ln as (y & -> & Wy & _ & Ty & Ry).
  assert (Fx : exists x, match fill_xml (make_format None l) with Some x => [x] | None => [] end = x /\ Forall wx_ok x /\ Forall (fun n => is_fill (node_of n) = true) x /\
    match x with [] => wanted_fill l = None | [z] => bind (read_fill (node_of z)) (fun f => Some (Some f)) = Some (wanted_fill l) | _ => False end).
  { eexists. split; [reflexivity|]. destruct (fill_xml (make_format None l)) as [x|], (wanted_fill l) as [f|]; try (exact (False_ind _ R)); [|repeat constructor].
    destruct R as (W & E & F). split; [constructor; [exact W|constructor]|]. split; [constructor; [exact F|constructor]|rewrite E; reflexivity]. }
  destruct Fx as (x & -> & Wx & Ix & Rx). split.
  - constructor; [|constructor]. apply elem_ok; [reflexivity|]. constructor; [exact Wx|]. constructor; [exact Wy|constructor].
  - split; [reflexivity|]. unfold read_sp. rewrite elem_kids. cbn [concat]. rewrite app_nil_r, map_app.
    assert (F1 : filter is_fill (map node_of x ++ map node_of y) = map node_of x).
    { rewrite filter_app. replace (filter is_fill (map node_of y)) with (@nil node).
      - rewrite app_nil_r. clear Rx Wx. induction Ix as [|z x H I IH]; [reflexivity|]. cbn [map filter]. rewrite H, IH. reflexivity.
      - clear Ry Wy. induction Ty as [|z y H T IH]; [reflexivity|]. cbn [map filter]. replace (is_fill (node_of z)) with false; [exact IH|].
        destruct z; cbn [tag_of] in H; subst; cbn [node_of]; rewrite is_fill_named; reflexivity. }
    unfold fill_of. rewrite F1. unfold maybe.
    assert (F2 : filter (is_elem "a:ln") (map node_of x ++ map node_of y) = map node_of y).
    { rewrite filter_app. rewrite (filter_tagged "a:ln" "a:ln" y Ty). change (String.eqb "a:ln" "a:ln") with true. replace (filter (is_elem "a:ln") (map node_of x)) with (@nil node); [reflexivity|].
      clear Rx Wx F1. induction Ix as [|z x H I IH]; [reflexivity|]. cbn [map filter]. rewrite (is_ln_fill _ H). exact IH. }
    rewrite F2. unfold asked_shape in *. cbn [snd] in Ry. destruct x as [|z [|z' x]]; [| |destruct Rx]; cbn [map].
    + rewrite Rx. cbn [bind]. destruct y as [|w [|w' y]]; [| |destruct Ry]; cbn [map]; [rewrite Ry; reflexivity|]. rewrite Ry. reflexivity.
    + rewrite Rx. cbn [bind]. destruct y as [|w [|w' y]]; [| |destruct Ry]; cbn [map]; [rewrite Ry; reflexivity|]. rewrite Ry. reflexivity.
Qed.
Lemma shape_parts l tags ls : Forall2 tagged tags ls -> Forall format_known l -> part "c:spPr" tags ls = sp_pr (chart_format l) -> shape_in (map node_of (concat ls)) = Some (asked_shape l).
Proof.
  intros H K E. unfold shape_in. rewrite (parts_maybe _ _ _ _ H), E. destruct (sp_reads l K) as [_ R]. destruct (sp_pr (chart_format l)) as [|x [|y r]]; [cbn [bind]; rewrite R; reflexivity| |destruct R].
  destruct R as [_ R]. rewrite R. reflexivity.
Qed.
