(** Content types: the text of the part, one content type for every part (C91). *)
From Verif Require Import Base Xml_Model Xml_Spec Xml_Proofs Xml_Read Xml_Read_Proofs Xml_Tree Tag_Proofs Rich_Model Rich_Proofs SheetXml_Spec Doc_Spec Part_Proofs
  Book_Model Book_Proofs Book_Proofs2 Pkg_Model Pkg_Spec Url_Model Pkg_Names Pkg_Proofs Pkg_Proofs2 Pkg_Proofs3 Pkg_Proofs4 Pkg_Proofs5 Pkg_Proofs6 Pkg_Proofs7
  Pkg_Proofs8 Pkg_Proofs9 Pkg_Proofs10 Pkg_Proofs11 Embed_Model Embed_Proofs Embed_Proofs2 Types_Model Types_Spec.

(** ** The names are those of the package model *)
Lemma map_when {A B} (f : A -> B) c l : map f (when c l) = when c (map f l).
Proof. destruct c; reflexivity. Qed.
Lemma typed_names b o l : content_types b o l = CTypes (map fst (typed_defaults o l)) (map fst (typed_overrides o l)).
Proof.
  unfold content_types, typed_defaults, typed_overrides. f_equal; rewrite !map_app, !map_when, ?map_map; reflexivity.
Qed.

(** ** The text of the part *)
Definition types_tree (o : popts) (l : list prep) : wx :=
  WElem (lit "Types") [(lit "xmlns", lit "http://schemas.openxmlformats.org/package/2006/content-types")]
    (map write_default (typed_defaults o l) ++ map write_override (typed_overrides o l)).
Definition types_node o l : node := node_of (types_tree o l).

Definition ctype (o : popts) (p : pname) : str :=
  match p with
  | NTypes => []
  | NRoot | NWbR | NWsR _ | NCsR _ | NVmlR _ | NVbaR | NDrR _ | NRichR => lit "application/vnd.openxmlformats-package.relationships+xml"
  | NTheme => office_type "theme+xml" | NStyles => sheetml "styles+xml"
  | NWb => if o_xlsm o then lit "application/vnd.ms-excel.sheet.macroEnabled.main+xml" else sheetml "sheet.main+xml"
  | NWs _ => sheetml "worksheet+xml" | NCs _ => sheetml "chartsheet+xml"
  | NSst => sheetml "sharedStrings+xml" | NCore => lit "application/vnd.openxmlformats-package.core-properties+xml"
  | NApp => office_type "extended-properties+xml" | NCustom => office_type "custom-properties+xml"
  | NDr _ => office_type "drawing+xml" | NVml _ => office_type "vmlDrawing" | NCom _ => sheetml "comments+xml"
  | NMedia _ e => image_type e | NChart _ => office_type "drawingml.chart+xml" | NTable _ => sheetml "table+xml"
  | NVba => lit "application/vnd.ms-office.vbaProject" | NSig => lit "application/vnd.ms-office.vbaProjectSignature"
  | NMeta => sheetml "sheetMetadata+xml" | NRv => lit "application/vnd.ms-excel.rdrichvalue+xml"
  | NRvT => lit "application/vnd.ms-excel.rdrichvaluetypes+xml" | NRvS => lit "application/vnd.ms-excel.rdrichvaluestructure+xml"
  | NRvRel => lit "application/vnd.ms-excel.richvaluerel+xml" | NBag => lit "application/vnd.ms-excel.featurepropertybag+xml"
  end.
(** The parts declared by an Override, in order. *)
Definition overridden (o : popts) (l : list prep) : list pname :=
  [NApp; NCore; NStyles; NTheme; NWb] ++ when (o_sig o) [NSig]
  ++ map NWs (up_to (count_if (fun p => negb (u_chartsheet (p_u p))) l))
  ++ map NCs (up_to (count_if (fun p => u_chartsheet (p_u p)) l))
  ++ map NDr (up_to (count_if (fun p => negb (is_nil (d_infos (p_d p)))) l))
  ++ map NChart (up_to (sum_len (fun p => u_charts (p_u p)) l))
  ++ map NTable (up_to (sum_len (fun p => u_tables (p_u p)) l))
  ++ map NCom (up_to (count_if (fun p => negb (is_nil (u_notes (p_u p)))) l))
  ++ when (o_sst o) [NSst] ++ when (o_metadata o) [NMeta] ++ when (o_embedded o) [NRvT; NRv; NRvS; NRvRel]
  ++ when (o_bags o) [NBag] ++ when (o_custom o) [NCustom].
Lemma overrides_eq o l : typed_overrides o l = map (fun p => (slash p, ctype o p)) (overridden o l).
Proof. unfold typed_overrides, overridden. rewrite !map_app, !map_when, !map_map. reflexivity. Qed.

Lemma forallb_app_in {A} (f : A -> bool) a b : forallb f a = true -> forallb f b = true -> forallb f (a ++ b) = true.
Proof. intros. rewrite forallb_app. apply andb_true_iff. auto. Qed.
Lemma numbered_ok pre n suf : attr_ok (lit pre) -> attr_ok (lit suf) -> attr_ok (numbered pre n suf).
Proof. intros A B. unfold attr_ok, numbered in *. apply forallb_app_in; [exact A|]. apply forallb_app_in; [|exact B]. apply dec_attr. Qed.
Lemma slash_ok o l p : In p (overridden o l) -> attr_ok (slash p) /\ attr_ok (ctype o p).
Proof.
  intros H. split.
  - unfold attr_ok, slash. apply forallb_app_in; [reflexivity|]. change (attr_ok (render p)). destruct p; try reflexivity;
      cbn [render]; try (apply numbered_ok; reflexivity).
    unfold overridden in H. exfalso. rewrite !in_app_iff, !in_when, !in_map_iff in H. cbn [In] in H.
    decompose [or and ex] H; try discriminate; try assumption.
  - destruct p; try reflexivity; cbn [ctype]; [destruct (o_xlsm o); reflexivity|]. destruct e; reflexivity.
Qed.
Lemma defaults_ok o l : Forall (fun e => attr_ok (fst e) /\ attr_ok (snd e)) (typed_defaults o l).
Proof.
  unfold typed_defaults. apply Forall_forall. intros [x y] H. rewrite !in_app_iff, !in_when in H. cbn [In fst snd] in *.
  decompose [or and] H; try contradiction; match goal with H : (_, _) = (_, _) |- _ => injection H as <- <- end; split; reflexivity.
Qed.
Lemma types_read o l : read_document (types_text o l) = Some (types_node o l).
Proof.
  apply document_reads. apply ok_elem; [reflexivity|good|]. apply Forall_app. split; apply Forall_forall; intros t Ht; apply in_map_iff in Ht as (e & <- & He).
  - pose proof (defaults_ok o l) as F. rewrite Forall_forall in F. destruct (F _ He) as [A B]. apply ok_empty; [reflexivity|]. good.
  - rewrite overrides_eq in He. apply in_map_iff in He as (p & <- & Hp). destruct (slash_ok _ _ _ Hp) as [A B]. apply ok_empty; [reflexivity|]. cbn [fst snd]. good.
Qed.

(** ** Looking up *)
Lemma kids_types o l : kids_of (types_node o l) = map (fun e => node_of (write_default e)) (typed_defaults o l) ++ map (fun e => node_of (write_override e)) (typed_overrides o l).
Proof. unfold types_node, types_tree. cbn [node_of kids_of]. rewrite map_app, !map_map. reflexivity. Qed.
Lemma find_app {A} (f : A -> bool) a b : find f (a ++ b) = match find f a with Some x => Some x | None => find f b end.
Proof. induction a as [|x a IH]; cbn [app find]; [reflexivity|]. destruct (f x); auto. Qed.
Lemma find_map_none {A B} (f : B -> bool) (g : A -> B) l : (forall x, f (g x) = false) -> find f (map g l) = None.
Proof. intros H. induction l as [|x l IH]; [reflexivity|]. cbn [map find]. rewrite H. exact IH. Qed.
Lemma find_entry (h : str * str -> node) (el key : string) :
  (forall e v, declares el key v (h e) = str_eqb (fst e) v) -> forall l v,
  find (declares el key v) (map h l) = option_map (fun t => h (v, t)) (option_map snd (find (fun e => str_eqb (fst e) v) l)).
Proof.
  intros H l v. induction l as [|[k t] l IH]; [reflexivity|]. cbn [map find]. rewrite H. cbn [fst].
  destruct (str_eqb_spec k v) as [->|Hn]; [reflexivity|exact IH].
Qed.
Definition entry (l : list (str * str)) (v : str) : option str := option_map snd (find (fun e => str_eqb (fst e) v) l).
Lemma content_type_eq o l part :
  content_type (types_node o l) part =
    match entry (typed_overrides o l) (lit "/" ++ part) with
    | Some t => Some t
    | None => entry (typed_defaults o l) (extension part)
    end.
Proof.
  unfold content_type. rewrite kids_types, !find_app.
  rewrite (find_map_none (declares "Override" "PartName" _) (fun e => node_of (write_default e))) by (intros x; reflexivity).
  rewrite (find_map_none (declares "Default" "Extension" _) (fun e => node_of (write_override e))) by (intros x; reflexivity).
  rewrite (find_entry (fun e => node_of (write_override e)) "Override" "PartName"); [|intros e v; reflexivity].
  rewrite (find_entry (fun e => node_of (write_default e)) "Default" "Extension"); [|intros e v; reflexivity].
  unfold entry. destruct (find (fun e => str_eqb (fst e) _) (typed_overrides o l)) as [e|]; cbn [option_map]; [reflexivity|].
  destruct (find (fun e => str_eqb (fst e) _) (typed_defaults o l)) as [e|]; reflexivity.
Qed.
Lemma entry_in l v : (exists t, In (v, t) l) -> exists t, entry l v = Some t /\ In (v, t) l.
Proof.
  intros [t H]. unfold entry. destruct (find _ l) as [[k t']|] eqn:E.
  - apply find_some in E as [E1 E2]. cbn [fst] in E2. apply str_eqb_eq in E2. subst k. exists t'. auto.
  - exfalso. pose proof (find_none _ _ E _ H) as F. cbn [fst] in F. rewrite str_eqb_refl in F. discriminate.
Qed.
Lemma entry_some l v t : entry l v = Some t -> In (v, t) l.
Proof. unfold entry. destruct (find _ l) as [[k t']|] eqn:E; [|discriminate]. apply find_some in E as [E1 E2]. cbn [fst snd option_map] in *. apply str_eqb_eq in E2. subst k. intros [= <-]. exact E1. Qed.
Lemma slash_eq p q : slash p = slash q -> p = q.
Proof. intros H. apply app_inv_head in H. apply render_inj, H. Qed.
Lemma entry_override o l p t : entry (typed_overrides o l) (lit "/" ++ render p) = Some t -> t = ctype o p.
Proof.
  intros H. apply entry_some in H. rewrite overrides_eq in H. apply in_map_iff in H as (q & E & _).
  assert (E1 : slash q = slash p) by (apply (f_equal fst) in E; exact E). apply slash_eq in E1. subst q. apply (f_equal snd) in E. symmetry. exact E.
Qed.
Lemma by_override o l p : In (lit "/" ++ render p) (map fst (typed_overrides o l)) -> content_type (types_node o l) (render p) = Some (ctype o p).
Proof.
  intros H. rewrite content_type_eq. apply in_map_iff in H as ([k t] & E & Hin). cbn [fst] in E. subst k.
  destruct (entry_in (typed_overrides o l) (lit "/" ++ render p)) as (t' & E & _); [exists t; exact Hin|]. rewrite E. f_equal. eapply entry_override, E.
Qed.
Lemma default_type o l p t : In (extension (render p), t) (typed_defaults o l) -> extension (render p) <> lit "xml" -> p <> NSig -> t = ctype o p.
Proof.
  intros H Hx Hs.
  assert (Q : forall e, extension (render p) = e -> In (e, t) (typed_defaults o l)) by (intros e <-; exact H).
  assert (T : forall e, extension (render p) = lit e ->
     t = if str_eqb (lit e) (lit "rels") then lit "application/vnd.openxmlformats-package.relationships+xml" else
         if str_eqb (lit e) (lit "xml") then lit "application/xml" else if str_eqb (lit e) (lit "vml") then office_type "vmlDrawing" else
         if str_eqb (lit e) (lit "bin") then lit "application/vnd.ms-office.vbaProject" else lit "image/" ++ lit e).
  { intros e E. specialize (Q _ E). unfold typed_defaults in Q. rewrite !in_app_iff, !in_when in Q. cbn [In] in Q.
    decompose [or and] Q; try contradiction;
      match goal with H : (?a, ?b) = (lit e, t) |- _ => assert (X1 : lit e = a) by congruence; assert (X2 : t = b) by congruence; rewrite X1, X2; reflexivity end. }
  destruct p; try (exfalso; apply Hx; reflexivity); try contradiction; cbn [ctype].
  all: try (rewrite (T "rels"%string); [reflexivity|reflexivity]).
  all: try (exfalso; apply Hx; cbn [render]; apply (extension_num _ _ ".xml" "xml"); reflexivity).
  all: try (rewrite (T "rels"%string); [reflexivity|cbn [render]; first [apply (extension_num2 _ _ ".xml.rels" (lit ".xml") "rels"); reflexivity|apply (extension_num2 _ _ ".vml.rels" (lit ".vml") "rels"); reflexivity]]).
  - rewrite (T "vml"%string); [reflexivity|]. cbn [render]. apply (extension_num _ _ ".vml" "vml"); reflexivity.
  - destruct e; cbn [ext_name image_type];
      [rewrite (T "png"%string)|rewrite (T "jpeg"%string)|rewrite (T "gif"%string)|rewrite (T "bmp"%string)]; try reflexivity; cbn [render]; rewrite extension_media; reflexivity.
  - rewrite (T "bin"%string); reflexivity.
Qed.
Lemma by_typed o l p : In (lit "/" ++ render p) (map fst (typed_overrides o l)) \/ (extension (render p) <> lit "xml" /\ In (extension (render p)) (map fst (typed_defaults o l)) /\ p <> NSig) ->
  content_type (types_node o l) (render p) = Some (ctype o p).
Proof.
  intros [H|(H1 & H2 & H3)]; [apply by_override, H|]. rewrite content_type_eq. destruct (entry (typed_overrides o l) (lit "/" ++ render p)) as [t|] eqn:E.
  - f_equal. eapply entry_override, E.
  - apply in_map_iff in H2 as ([k t] & E2 & Hin). cbn [fst] in E2. subst k. destruct (entry_in (typed_defaults o l) (extension (render p))) as (t' & E' & Hin'); [exists t; exact Hin|]. rewrite E'. f_equal.
    eapply default_type; eassumption.
Qed.

(** ** Declared once *)
Lemma nodup_app {A} (a b : list A) : NoDup a -> NoDup b -> (forall x, In x a -> In x b -> False) -> NoDup (a ++ b).
Proof.
  intros Ha Hb H. induction Ha as [|x a Hx Ha IH]; [exact Hb|]. cbn [app]. constructor.
  - rewrite in_app_iff. intros [C|C]; [contradiction|]. apply (H x); [left; reflexivity|exact C].
  - apply IH. intros y Hy. apply H. right. exact Hy.
Qed.
Lemma nodup_when {A} c (l : list A) : NoDup l -> NoDup (when c l).
Proof. destruct c; [auto|constructor]. Qed.
Lemma nodup_up_to n : NoDup (up_to n).
Proof.
  unfold up_to. generalize 1. induction (N.to_nat n) as [|k IH]; intros s; cbn [seq_from]; constructor; [|apply IH].
  intros H. apply seq_from_In in H. lia.
Qed.
Lemma nodup_map {A B} (f : A -> B) l : (forall x y, f x = f y -> x = y) -> NoDup l -> NoDup (map f l).
Proof. intros H N0. induction N0 as [|x l Hx N0 IH]; cbn [map]; constructor; [|exact IH]. intros C. apply in_map_iff in C as (y & E & Hy). apply H in E. subst y. contradiction. Qed.
Lemma nodup_overridden o l : NoDup (overridden o l).
Proof.
  unfold overridden.
  repeat (apply nodup_app; [| |intros x H1 H2; rewrite ?in_app_iff, ?in_when, ?in_map_iff in H1; rewrite ?in_app_iff, ?in_when, ?in_map_iff in H2; cbn [In] in H1, H2; decompose [or and ex] H1; decompose [or and ex] H2; subst; first [contradiction|congruence]]).
  all: try (apply nodup_map; [intros x y E; injection E; auto|apply nodup_up_to]).
  all: try apply nodup_when.
  all: repeat (constructor; [intros C; cbn [In] in C; decompose [or] C; try discriminate; contradiction|]); constructor.
Qed.
Lemma keys_app el key a b : flat_map (fun n => if is_elem el n then match attr key (attrs_of n) with Some x => [x] | None => [] end else []) (a ++ b) =
  flat_map (fun n => if is_elem el n then match attr key (attrs_of n) with Some x => [x] | None => [] end else []) a ++
  flat_map (fun n => if is_elem el n then match attr key (attrs_of n) with Some x => [x] | None => [] end else []) b.
Proof. apply flat_map_app. Qed.
Lemma types_once o l : declared_once (types_node o l).
Proof.
  unfold declared_once, keys_declared. rewrite kids_types, !keys_app, !flat_map_concat_map, !map_map, <- !flat_map_concat_map.
  assert (Z1 : forall es : list (str * str), flat_map (fun x : str * str => if is_elem "Override" (node_of (write_default x)) then match attr "PartName" (attrs_of (node_of (write_default x))) with Some y => [y] | None => [] end else []) es = [])
    by (intros es; induction es; [reflexivity|assumption]).
  assert (Z2 : forall es : list (str * str), flat_map (fun x : str * str => if is_elem "Default" (node_of (write_override x)) then match attr "Extension" (attrs_of (node_of (write_override x))) with Some y => [y] | None => [] end else []) es = [])
    by (intros es; induction es; [reflexivity|assumption]).
  assert (Z3 : forall es : list (str * str), flat_map (fun x : str * str => if is_elem "Override" (node_of (write_override x)) then match attr "PartName" (attrs_of (node_of (write_override x))) with Some y => [y] | None => [] end else []) es = map fst es)
    by (intros es; induction es as [|e es IH]; [reflexivity|cbn [map]; rewrite <- IH; reflexivity]).
  assert (Z4 : forall es : list (str * str), flat_map (fun x : str * str => if is_elem "Default" (node_of (write_default x)) then match attr "Extension" (attrs_of (node_of (write_default x))) with Some y => [y] | None => [] end else []) es = map fst es)
    by (intros es; induction es as [|e es IH]; [reflexivity|cbn [map]; rewrite <- IH; reflexivity]).
  rewrite Z1, Z2, Z3, Z4, app_nil_r. cbn [app]. split.
  - rewrite overrides_eq, map_map. apply nodup_map; [intros x y; apply slash_eq|apply nodup_overridden].
  - unfold typed_defaults. destruct (o_vml o), (uses_ext Png l), (uses_ext Jpg l), (uses_ext Gif l), (uses_ext Bmp l), (o_xlsm o); cbn [when app map fst];
      repeat (constructor; [intros C; cbn [In] in C; decompose [or] C; try discriminate; contradiction|]); constructor.
Qed.
