(** C89: images embedded in cells; C90: dynamic array formulas. *)
From Verif Require Import Base SMap F64 Fmt_Model Xml_Model Xml_Spec Xml_Proofs Xml_Read Xml_Read_Proofs Xml_Tree
  Sst_Model Sst_Proofs Ref_Model Ref_Spec Ref_Proofs Cells_Model Cells_Spec Cells_Proofs Cells_Proofs2 Cells_Inv Cells_Save Cells_Hist Props_Cells
  Pkg_Model Pkg_Spec Pkg_Names Pkg_Proofs Rich_Model Rich_Proofs SheetXml_Model SheetXml_Spec SheetXml_Proofs SheetXml_Proofs2 SheetXml_Proofs3 SheetXml_Proofs5
  SheetXml_Proofs6 SheetXml_Proofs7 Props_SheetXml SheetXml_General Doc_Spec Embed_Model Embed_Spec Embed_Proofs Embed_Proofs2 Embed_Proofs3 Embed_Hist Embed_Hist2 Embed_Sheet.
From Coq Require Import Permutation.

(** A new worksheet of a workbook in standard mode. *)
Definition new_sheet : esheet := esheet_new ws_standard.
(** The calls made on each worksheet of a workbook, and the states they lead to. *)
Definition book_run (hists : list (list eop)) (sheets : list esheet) : Prop := Forall2 (fun h s => erun new_sheet h = Some s) hists sheets.
(** The images embedded by successful calls, sheet after sheet. *)
Definition book_images (hists : list (list eop)) : list image := flat_map (embeds new_sheet) hists.

(** ** C89: no call panics and every image of a cell has a number when the file is saved *)
Theorem C89_calls_never_panic h : exists s, erun new_sheet h = Some s.
Proof. destruct (erun_ok h new_sheet [] J_start) as (s & E & _). eauto. Qed.

Lemma book_J hists sheets : book_run hists sheets -> Forall2 (fun h s => J s (embeds new_sheet h)) hists sheets.
Proof.
  intros B. induction B as [|h s hs ss E B IH]; constructor; [|assumption]. destruct (erun_ok h new_sheet [] J_start) as (s' & E' & H & _).
  assert (s' = s) by congruence. subst. exact H.
Qed.
Lemma F2_nth {A B} (R : A -> B -> Prop) l l' : Forall2 R l l' -> forall n a, nth_error l n = Some a -> exists b, nth_error l' n = Some b /\ R a b.
Proof. induction 1; intros [|n] a E; cbn in *; try discriminate; [assert (x = a) by congruence; subst; eauto|eauto]. Qed.
Lemma F2_nth_r {A B} (R : A -> B -> Prop) l l' : Forall2 R l l' -> forall n b, nth_error l' n = Some b -> exists a, nth_error l n = Some a /\ R a b.
Proof. induction 1; intros [|n] a E; cbn in *; try discriminate; [assert (y = a) by congruence; subst; eauto|eauto]. Qed.

(** The image cells of the rows written for a sheet. *)
Theorem C89_numbers_exist hists sheets all ks n s ids t g :
  book_run hists sheets -> prepare_images sheets = (all, ks) -> nth_error sheets n = Some s -> nth_error ks n = Some ids ->
  existsb (row_panics ids) (sheet_rows (e_ws s) t g) = false.
Proof.
  intros B P Es Ei. pose proof (book_J _ _ B) as BJ. destruct (F2_nth_r _ _ _ BJ n s Es) as (h & _ & H).
  destruct (images_numbered _ _ _ P) as [Q _]. destruct (F2_nth _ _ _ Q n s Es) as (ids' & Ei' & F). assert (ids' = ids) by congruence. subst ids'.
  assert (L : length ids = length (e_images s)) by (clear - F; induction F; cbn [length]; congruence).
  apply Bool.not_true_is_false. intros X. apply existsb_exists in X as (o & Ho & X). unfold row_panics in X. destruct (o_cells o) as [cs|] eqn:Ec; [|discriminate].
  apply existsb_exists in X as ([[c k] xf] & Hc & X). unfold image_missing in X. cbn [fst snd] in X. destruct k as [|i| | | | | | | |]; try discriminate.
  assert (Hin : In (VImage i, xf) (shown (sheet_rows (e_ws s) t g) (o_row o) c)).
  { unfold shown. apply in_flat_map. exists o. split; [assumption|]. unfold row_at. rewrite N.eqb_refl, Ec. apply in_flat_map. exists (c, CError i, xf). split; [assumption|].
    unfold cell_at. rewrite N.eqb_refl. left. reflexivity. }
  pose proof (sheet_shown (e_ws s) t g (o_row o) c (j_std _ _ H)) as S. destruct (table_get (o_row o) c (data (e_ws s))) as [[k x]|] eqn:G; [|rewrite S in Hin; destruct Hin].
  cbv zeta in S. rewrite S in Hin. destruct (_ && _); [|destruct Hin].
  assert (Ek : k = CError i).
  { destruct k; cbn [contents] in Hin; try (destruct Hin as [Hin|[]]; congruence). destruct (0 <? _); [|destruct Hin]. destruct Hin as [Hin|[]]; congruence. }
  subst k. pose proof (j_img _ _ H _ _ _ _ G) as Lt. destruct (nth_error ids (N.to_nat i)) eqn:Nt; [discriminate|]. apply nth_error_None in Nt. lia.
Qed.

(** ** C89: from the cell to the file *)
Lemma texts_start : texts_ok ws_standard.
Proof.
  split; (split; [|intros [[r E] _]; discriminate E]) || (split; [split|]).
  - intros c Hc; cbn in Hc; repeat destruct Hc as [<-|Hc]; try destruct Hc; cbn; repeat split; discriminate.
  - intros c Hc; cbn in Hc; repeat destruct Hc as [<-|Hc]; try destruct Hc; cbn; repeat split; discriminate.
  - intros c Hc; cbn in Hc; repeat destruct Hc as [<-|Hc]; try destruct Hc; cbn; repeat split; discriminate.
  - intros c Hc; cbn in Hc; repeat destruct Hc as [<-|Hc]; try destruct Hc; cbn; repeat split; discriminate.
  - split; [|reflexivity]. intros c Hc; cbn in Hc. destruct Hc as [<-|[]]. lia.
  - intros (sg & w & E & S & I). destruct S as [->|[->| ->]]; try discriminate E. cbn in E. subst w. cbn in I.
    repeat destruct I as [I|I]; try discriminate I. destruct I.
Qed.

Section Saved.
  Variables (num_text : f64 -> str) (read_num : str -> option f64) (m : ovf) (x14 : bool) (g : N -> N).
  Hypothesis display : number_display num_text read_num.
  (** The workbook: the calls on each sheet, and what saving makes of the images. *)
  Variables (hists : list (list eop)) (sheets : list esheet) (all : list image) (ks : list (list N)) (rels : list (str * rel)).
  Hypothesis run : book_run hists sheets.
  Hypothesis numbers : prepare_images sheets = (all, ks).
  Hypothesis relations : rich_value_rels m all = Some rels.
  Hypothesis few : N.of_nat (length all) < 65535.
  Hypothesis alts : Forall (fun x => doc_text (i_alt x)) (book_images hists).
  Let o := embed_options sheets all.

  (** The texts of the five parts, read. *)
  Definition parts_say (p : image_parts) : Prop :=
    read_document (metadata_part o) = Some (ip_metadata p) /\ read_document (rich_value_part all) = Some (ip_values p) /\
    read_document (rich_value_structure_part o) = Some (ip_structures p) /\ read_document (rich_value_rel_part o) = Some (ip_rels p) /\
    read_document (relationships_part rels) = Some (ip_relationships p).
  (** The bytes of a file named by a relationship of xl/richData/richValueRel.xml. *)
  Definition file_bytes (target : str) (bytes : list N) : Prop :=
    In (resolve (lit "xl/richData/richValueRel.xml") target, bytes) (media_files all) /\ NoDup (map fst (media_files all)).

  Lemma all_from : incl all (book_images hists).
  Proof.
    destruct (images_numbered _ _ _ numbers) as [_ F]. intros x Hx.
    assert (Hf : find (same (i_hash x)) all <> None).
    { intros Q. pose proof (find_none _ _ Q x Hx) as Z. unfold same in Z. rewrite str_eqb_refl in Z. discriminate. }
    clear Hf F. revert Hx. pose proof (book_J _ _ run) as BJ.
    assert (I : incl (flat_map e_images sheets) (book_images hists)).
    { unfold book_images. clear - BJ. induction BJ as [|h s hs ss H BJ IH]; [intros ? []|]. cbn [flat_map]. apply incl_app; [apply incl_appl, H|apply incl_appr, IH]. }
    intros Hx. apply I. clear - numbers Hx. unfold prepare_images in numbers.
    assert (Gi : forall l ids acc ids' acc' ks', number_images ids acc l = (ids', acc', ks') -> incl acc' (acc ++ l)).
    { induction l as [|y l IH]; intros ids acc ids' acc' ks' E; cbn [number_images] in E.
      - assert (acc' = acc) by congruence. subst. rewrite app_nil_r. apply incl_refl.
      - destruct (am_get (i_hash y) ids).
        + destruct (number_images ids acc l) as [[i1 a1] k1] eqn:E1. assert (acc' = a1) by congruence. subst. apply IH in E1. intros z Hz. apply E1, in_app_iff in Hz. apply in_app_iff. cbn. tauto.
        + cbv zeta in E. destruct (number_images _ (acc ++ [y]) l) as [[i1 a1] k1] eqn:E1. assert (acc' = a1) by congruence. subst. apply IH in E1. rewrite <- app_assoc in E1. exact E1. }
    assert (G : forall l ids acc al ks', number_sheets ids acc l = (al, ks') -> incl al (acc ++ flat_map e_images l)).
    { induction l as [|y l IH]; intros ids acc al ks' E; cbn [number_sheets] in E.
      - assert (al = acc) by congruence. subst. cbn. rewrite app_nil_r. apply incl_refl.
      - destruct (number_images ids acc (e_images y)) as [[i1 a1] k1] eqn:E1. destruct (number_sheets i1 a1 l) as [a2 r2] eqn:E2. assert (al = a2) by congruence. subst.
        apply Gi in E1. apply IH in E2. cbn [flat_map]. rewrite app_assoc. intros z Hz. apply E2, in_app_iff in Hz as [Hz|Hz]; apply in_app_iff; [left; apply E1, Hz|right; assumption]. }
    apply (G _ _ _ _ _ numbers) in Hx. exact Hx.
  Qed.
  Lemma all_alts : Forall (fun x => doc_text (i_alt x)) all.
  Proof. apply Forall_forall. intros x Hx. rewrite Forall_forall in alts. apply alts, all_from, Hx. Qed.
  Lemma first_same h : find (same h) all = find (same h) (book_images hists).
  Proof.
    destruct (images_numbered _ _ _ numbers) as [_ F]. rewrite F. pose proof (book_J _ _ run) as BJ. unfold book_images. clear - BJ.
    induction BJ as [|a s hs ss H BJ IH]; [reflexivity|]. cbn [flat_map]. rewrite !find_app, (j_find _ _ H), IH. reflexivity.
  Qed.
  Lemma media_unique l : forall n, NoDup (map fst (flat_map (fun e => match snd e with CBytes b => [(fst e, b)] | _ => [] end) (write_embedded n l))).
  Proof.
    induction l as [|i l IH]; intros n; cbn [write_embedded flat_map fst snd app map]; [constructor|]. constructor; [|apply IH].
    assert (G : forall l k x, In x (map fst (flat_map (fun e => match snd e with CBytes b => [(fst e, b)] | _ => [] end) (write_embedded k l))) -> exists j e, k <= j /\ x = media_name "xl/media/" j e).
    { clear. induction l as [|i l IH]; intros k x; cbn [write_embedded flat_map fst snd app map]; [intros []|]. intros [<-|Hx]; [exists k, (im_ext i); split; [lia|reflexivity]|].
      destruct (IH _ _ Hx) as (j & e & L & E). exists j, e. split; [lia|assumption]. }
    intros Hx. destruct (G _ _ _ Hx) as (j & e & L & E). assert (X : NMedia n (im_ext i) = NMedia j e) by (apply render_inj; exact E). injection X as X _. lia.
  Qed.

  (** The options of the parts are those of the histories. *)
  Lemma described_option : has_descriptions o = existsb described (book_images hists).
  Proof.
    unfold o, embed_options, book_images. cbn [has_descriptions]. pose proof (book_J _ _ run) as BJ. clear - BJ.
    induction BJ as [|h s hs ss H BJ IH]; [reflexivity|]. cbn [existsb flat_map]. rewrite existsb_app, IH. f_equal. rewrite (j_desc _ _ H).
    destruct (e_images s) as [|x l] eqn:Ei; cbn [is_nil negb andb]; [|reflexivity].
    destruct (embeds new_sheet h) as [|y q] eqn:El; [reflexivity|]. exfalso. pose proof (j_find _ _ H (i_hash y)) as F. rewrite Ei in F. cbn [find] in F.
    unfold same in F. rewrite str_eqb_refl in F. discriminate.
  Qed.

  Section Cell.
    Variables (hb ha : list (list eop)) (pre post : list eop) (r c : N) (x : image) (f : option Format) (s1 s2 s : esheet).
    Hypothesis which : hists = hb ++ (pre ++ EImage r c x f :: post) :: ha.
    Hypothesis before_call : erun new_sheet pre = Some s1.
    Hypothesis call : estep s1 (EImage r c x f) = Some (s2, None).
    Hypothesis quiet : eundisturbed s2 post r c.
    Hypothesis readable : Forall eop_readable (pre ++ EImage r c x f :: post).
    Hypothesis state : nth_error sheets (length hb) = Some s.
    (** The other strings of the workbook. *)
    Variables (before after : list str) (entries : list (str * N)).
    Hypothesis before_ok : Forall string_ok before.
    Hypothesis after_ok : Forall string_ok after.
    Hypothesis table : Permutation entries (strings (table_after before after (e_ws s))).
    Let global := match nth_error ks (length hb) with Some l => l | None => [] end.

    Lemma run_s : erun new_sheet (pre ++ EImage r c x f :: post) = Some s.
    Proof.
      pose proof run as B. destruct (F2_nth_r _ _ _ B _ _ state) as (h & Hh & E). rewrite which in Hh.
      rewrite nth_error_app2, Nat.sub_diag in Hh by lia. cbn in Hh. congruence.
    Qed.
    Lemma cell_state : exists n y q, table_get r c (data (e_ws s)) = Some (CError n, q) /\ nth_error (e_images s) (N.to_nat n) = Some y /\ i_hash y = i_hash x /\
      covers (e_ws s) r c.
    Proof.
      destruct (erun_ok pre new_sheet [] J_start) as (s1' & E1 & H1 & _). assert (s1' = s1) by congruence. subst s1'.
      destruct (estep_ok s1 _ (EImage r c x f) H1) as (s2' & e & E2 & H2 & _ & _ & M2 & O). rewrite call in E2. assert (X : s2' = s2 /\ e = None) by (split; congruence). destruct X as [-> ->].
      pose proof run_s as E. rewrite erun_app, before_call in E. cbn [erun] in E. rewrite call in E.
      pose proof (eundisturbed_run post r c s2 _ s H2 E quiet) as U. destruct (erun_ok post s2 _ H2) as (s' & E' & H' & _ & (d & D) & M'). assert (s' = s) by congruence. subst s'.
      pose proof (image_place_ok s1 _ x H1) as PL. destruct (image_place s1 x) as [[ids images] id]. destruct O as (_ & O & Oi). specialize (Oi eq_refl).
      destruct PL as (_ & _ & _ & _ & _ & P6 & P7). destruct (image_std _ _ _ _ _ _ _ (j_std _ _ H1) O) as (_ & _ & _ & _ & C). destruct (C eq_refl) as [[q G] [Cv _]].
      rewrite G in U. cbn in U. destruct U as [xf U]. destruct (pos_find _ _ _ P6) as [Fd L].
      destruct (nth_error images (N.to_nat id)) as [y|] eqn:Ey; [|apply nth_error_None in Ey; lia]. exists id, y, xf. split; [assumption|].
      split; [rewrite D, Oi, nth_error_app1 by lia; assumption|]. split; [eapply pos_same; eassumption|eapply covers_meta; eassumption].
    Qed.

    (** The image embedded by a successful call and not changed afterwards is found from
        the saved cell: its bytes are those of the first image with the same hash. The
        description and the decorative mark are those of that first image. *)
    Theorem C89_first_image_reached : exists text part attrs items rows vm style p y pic,
      sheet_data_text num_text m (image_id global) (saved_ws before (e_ws s)) g x14 = Some text /\
      shared_strings_part (table_after before after (e_ws s)) entries = Some part /\ read_document part = Some (Elem (lit "sst") attrs items) /\
      read_sheet_data items text = Some rows /\ cells_at rows r c = [(FImage vm, style)] /\
      parts_say p /\ read_picture p vm = Some pic /\
      find (fun z => str_eqb (i_hash z) (i_hash x)) (book_images hists) = Some y /\
      file_bytes (pic_file pic) (im_data (i_img y)) /\
      pic_text pic = (match i_alt y with [] => None | t => Some t end) /\ pic_decorative pic = i_decorative y.
    Proof.
      destruct cell_state as (n & z & q & G & Ez & Hz & Cv). pose proof (book_J _ _ run) as BJ. destruct (F2_nth_r _ _ _ BJ _ _ state) as (h & Hh & H).
      assert (V : values_ok (e_ws s)).
      { eapply (erun_readable _ new_sheet [] s J_start readable texts_start); [intros ? ? ? ? Q; discriminate Q|exact run_s]. }
      clear which.
      destruct (sheet_reads_general num_text read_num m (image_id global) before after (e_ws s) g x14 entries display (j_std _ _ H) V (j_gsst _ _ H) (j_last _ _ H) before_ok after_ok table)
        as (text & part & attrs & items & rows & T1 & T2 & T3 & T4 & T5 & _).
      destruct (shown_one (e_ws s) (table_before before) g r c _ _ (j_std _ _ H) Cv G) as [st S]; [discriminate|]. specialize (T5 r c). rewrite S in T5.
      inversion T5 as [|? [fv st'] ? ? [V1 V2] F2]; subst. inversion F2; subst. cbn [fst snd contents] in *. inversion V1 as [| | | | | | | |n' Hn Hv]; subst.
      (* the number of the image *)
      destruct (images_numbered _ _ _ numbers) as [Q _]. destruct (F2_nth _ _ _ Q _ _ state) as (ids & Eids & Fi). destruct (F2_nth _ _ _ Fi _ _ Ez) as (k & Ek & (j & Pj & Ej)).
      assert (Ik : image_id global n = N.of_nat j + 1) by (unfold image_id, global; rewrite Eids, Ek, Ej; lia).
      rewrite Hz in Pj. destruct (pos_find _ _ _ Pj) as [Fj Lj]. destruct (nth_error all j) as [y|] eqn:Ey; [|apply nth_error_None in Ey; lia].
      rewrite <- (Nat2N.id j) in Ey.
      assert (Eo : has_embedded o = true).
      { unfold o, embed_options. cbn [has_embedded]. apply existsb_exists. exists s. split; [eapply nth_error_In; exact state|]. destruct (e_images s); [destruct (N.to_nat n); discriminate Ez|reflexivity]. }
      assert (En : num_embedded o = N.of_nat (length all)) by (unfold o, embed_options; cbn [num_embedded]; apply N.mod_small; lia).
      pose proof (picture_read o m all rels all_alts relations (or_intror few) Eo En (N.of_nat j) y Ey) as RP.
      pose proof (file_there all (N.of_nat j) y Ey) as FT.
      eexists text, part, attrs, items, rows, _, _, (the_parts o all rels), y, _. split; [exact T1|]. split; [exact T2|]. split; [exact T3|]. split; [exact T4|].
      split; [symmetry; eassumption|]. split.
      { split; [apply metadata_reads|]. split; [apply values_read, all_alts|]. split; [apply structures_read|]. split; [apply rels_read|].
        eapply es_reads; [exact relations|right; exact few]. }
      rewrite Ik. split; [exact RP|]. split; [pose proof (first_same (i_hash x)) as FS; rewrite Fj in FS; symmetry; exact FS|]. cbn [pic_file pic_text pic_decorative]. split; [|split; [|reflexivity]].
      - split; [|apply media_unique]. rewrite res_media; [exact FT|]. exists (lit "richData"), (lit "richValueRel.xml"). reflexivity.
      - destruct (i_alt y) as [|a l] eqn:Ea; cbn [is_nil negb]; [rewrite andb_false_r; reflexivity|]. rewrite andb_true_r, described_option.
        replace (existsb described (book_images hists)) with true; [reflexivity|]. symmetry. apply existsb_exists. exists y.
        split; [apply all_from; eapply nth_error_In; exact Ey|]. unfold described. rewrite Ea. reflexivity.
    Qed.

    (** When images with equal hashes are the same image (bytes, description and mark),
        the file found from the cell is the image that was embedded. *)
    Theorem C89_image_reached_partial :
      (forall y, In y (book_images hists) -> i_hash y = i_hash x -> i_img y = i_img x /\ i_alt y = i_alt x /\ i_decorative y = i_decorative x) ->
      exists text part attrs items rows vm style p pic,
        sheet_data_text num_text m (image_id global) (saved_ws before (e_ws s)) g x14 = Some text /\
        shared_strings_part (table_after before after (e_ws s)) entries = Some part /\ read_document part = Some (Elem (lit "sst") attrs items) /\
        read_sheet_data items text = Some rows /\ cells_at rows r c = [(FImage vm, style)] /\
        parts_say p /\ read_picture p vm = Some pic /\
        file_bytes (pic_file pic) (im_data (i_img x)) /\
        pic_text pic = (match i_alt x with [] => None | t => Some t end) /\ pic_decorative pic = i_decorative x.
    Proof.
      intros U. destruct C89_first_image_reached as (text & part & attrs & items & rows & vm & style & p & y & pic & A1 & A2 & A3 & A4 & A5 & A6 & A7 & A8 & A9 & A10 & A11).
      apply find_some in A8 as [In_y Hy]. apply str_eqb_eq in Hy. destruct (U y In_y Hy) as (U1 & U2 & U3). rewrite U1 in A9. rewrite U2 in A10. rewrite U3 in A11.
      exists text, part, attrs, items, rows, vm, style, p, pic. auto 12.
    Qed.
  End Cell.

  (** Every rich value has a value for each key of its structure exactly when no image
      was described or every distinct image was. *)
  Theorem C89_values_fit p : parts_say p ->
    (values_fit p <-> (forall y, In y (book_images hists) -> i_alt y = []) \/ (forall y, In y all -> i_alt y <> [])).
  Proof.
    intros (P1 & P2 & P3 & P4 & P5).
    assert (Ep : p = the_parts o all rels).
    { rewrite metadata_reads in P1. rewrite (values_read _ all_alts) in P2. rewrite structures_read in P3. rewrite rels_read in P4.
      rewrite (es_reads m all rels relations (or_intror few)) in P5. destruct p as [a b c d e]; cbn [ip_metadata ip_values ip_structures ip_rels ip_relationships] in *. unfold the_parts. f_equal; congruence. }
    subst p. rewrite (fits o all rels all_alts), described_option. split.
    - intros F. destruct (existsb described (book_images hists)) eqn:E.
      + right. intros y Hy. rewrite Forall_forall in F. specialize (F y Hy). destruct (i_alt y); [discriminate|discriminate].
      + left. intros y Hy. destruct (i_alt y) eqn:Ea; [reflexivity|]. exfalso. assert (X : existsb described (book_images hists) = true).
        { apply existsb_exists. exists y. split; [assumption|]. unfold described. rewrite Ea. reflexivity. } congruence.
    - intros [F|F]; apply Forall_forall; intros y Hy.
      + rewrite (F y (all_from y Hy)). cbn [is_nil negb]. apply Bool.not_true_is_false. intros X. apply existsb_exists in X as (z & Hz & X). unfold described in X. rewrite (F z Hz) in X. discriminate.
      + pose proof (F y Hy) as Ny. destruct (i_alt y) eqn:Ea; [congruence|]. cbn [is_nil negb]. apply existsb_exists. exists y. split; [apply all_from, Hy|]. unfold described. rewrite Ea. reflexivity.
  Qed.
End Saved.

(** ** C90: dynamic array formulas *)
Section Dynamic.
  Variables (num_text : f64 -> str) (read_num : str -> option f64) (m : ovf) (x14 : bool) (g : N -> N).
  Hypothesis display : number_display num_text read_num.
  Variables (hists : list (list eop)) (sheets : list esheet) (all : list image) (ks : list (list N)).
  Hypothesis run : book_run hists sheets.
  Variables (n : nat) (h : list eop) (s : esheet).
  Hypothesis which : nth_error hists n = Some h.
  Hypothesis state : nth_error sheets n = Some s.
  Hypothesis readable : Forall eop_readable h.
  Variables (before after : list str) (entries : list (str * N)).
  Hypothesis before_ok : Forall string_ok before.
  Hypothesis after_ok : Forall string_ok after.
  Hypothesis table : Permutation entries (strings (table_after before after (e_ws s))).
  Let o := embed_options sheets all.

  (** What is read from the sheet, the strings and the metadata. *)
  Definition sheet_reads (global : list N) (rows : list frow) (md : node) : Prop :=
    exists text part attrs items,
      sheet_data_text num_text m (image_id global) (saved_ws before (e_ws s)) g x14 = Some text /\
      shared_strings_part (table_after before after (e_ws s)) entries = Some part /\ read_document part = Some (Elem (lit "sst") attrs items) /\
      read_sheet_data items text = Some rows /\ read_document (metadata_part o) = Some md.

  Lemma dyn_run : erun new_sheet h = Some s.
  Proof. pose proof run as B. destruct (F2_nth _ _ _ B _ _ which) as (s' & E & R). congruence. Qed.
  Lemma dyn_J : J s (embeds new_sheet h).
  Proof. destruct (erun_ok h new_sheet [] J_start) as (s' & E & H & _). rewrite dyn_run in E. assert (s' = s) by congruence. subst. exact H. Qed.
  Lemma dyn_rows global : exists rows, sheet_reads global rows (metadata_node o) /\
    forall r c, metas_at rows r c = metas (sheet_rows (e_ws s) (table_before before) g) r c.
  Proof.
    assert (V : values_ok (e_ws s)).
    { eapply (erun_readable _ new_sheet [] s J_start readable texts_start); [intros ? ? ? ? Q; discriminate Q|exact dyn_run]. }
    pose proof dyn_J as H.
    destruct (sheet_reads_general num_text read_num m (image_id global) before after (e_ws s) g x14 entries display (j_std _ _ H) V (j_gsst _ _ H) (j_last _ _ H) before_ok after_ok table)
      as (text & part & attrs & items & rows & T1 & T2 & T3 & T4 & _ & T6).
    exists rows. split; [|exact T6]. exists text, part, attrs, items. split; [exact T1|]. split; [exact T2|]. split; [exact T3|]. split; [exact T4|]. apply metadata_reads.
  Qed.
  Lemma reads_det global rows rows' md md' : sheet_reads global rows md -> sheet_reads global rows' md' -> rows = rows' /\ md = md'.
  Proof. intros (t & p & a & i & A1 & A2 & A3 & A4 & A5) (t' & p' & a' & i' & B1 & B2 & B3 & B4 & B5). split; congruence. Qed.

  (** Every metadata record a cell refers to is that of a dynamic array. *)
  Theorem C90_marks_denote global rows md r c k : sheet_reads global rows md -> In (Some k) (metas_at rows r c) -> is_dynamic_array md k = true.
  Proof.
    intros R Hin. destruct (dyn_rows global) as (rows' & R' & M). destruct (reads_det _ _ _ _ _ R R') as [-> ->]. rewrite M in Hin.
    pose proof dyn_J as H. destruct (meta_of_cell _ _ _ _ _ _ (j_std _ _ H) Hin) as (q & y & G & E). rewrite dynamic_node.
    assert (D : dynamic_cell q = true /\ k = 1) by (destruct q as [| | | | | | | | |t v [|] rg]; cbn in E; try discriminate; split; [reflexivity|congruence]).
    destruct D as [D ->]. rewrite N.eqb_refl, andb_true_r. unfold o, embed_options. cbn [has_dynamic]. apply existsb_exists. exists s.
    split; [eapply nth_error_In; exact state|]. eapply (j_dyn _ _ H); eassumption.
  Qed.

  (** The cell of a formula written as dynamic is marked, every other written cell is not. *)
  Section Cell.
    Variables (pre post : list eop) (c0 : op) (r c : N) (v : value) (s1 s2 : esheet).
    Hypothesis parts : h = pre ++ ECell c0 :: post.
    Hypothesis before_call : erun new_sheet pre = Some s1.
    Hypothesis call : estep s1 (ECell c0) = Some (s2, None).
    Hypothesis written : writes (e_ws s1) c0 r c = Some v.
    Hypothesis nonblank : v <> VBlank.
    Hypothesis quiet : eundisturbed s2 post r c.
    Theorem C90_dynamic_marked global rows md : sheet_reads global rows md ->
      metas_at rows r c = [if makes_dynamic c0 && formula_cell c0 r c then Some 1 else None].
    Proof.
      intros R. destruct (dyn_rows global) as (rows' & R' & M). destruct (reads_det _ _ _ _ _ R R') as [-> ->]. rewrite M.
      destruct (erun_ok pre new_sheet [] J_start) as (s1' & E1 & H1 & _). assert (s1' = s1) by congruence. subst s1'.
      destruct (estep_ok s1 _ (ECell c0) H1) as (s2' & e & E2 & H2 & _ & _ & M2 & O). rewrite call in E2. assert (X : s2' = s2 /\ e = None) by (split; congruence). destruct X as [-> ->].
      pose proof dyn_run as E. rewrite parts, erun_app, before_call in E. cbn [erun] in E. rewrite call in E.
      pose proof (eundisturbed_run post r c s2 _ s H2 E quiet) as U. destruct (erun_ok post s2 _ H2) as (s' & E' & H' & _ & _ & M'). assert (s' = s) by congruence. subst s'.
      destruct O as [O1 O2]. destruct (step (e_ws s1) c0) as [w e] eqn:Es. cbn [fst snd] in *. subst w. assert (e = None) by (apply O2; reflexivity). subst e.
      destruct (std_step _ _ _ _ (j_std _ _ H1) Es) as [_ F]. destruct (sf_write _ _ _ _ F eq_refl r c v written) as (k & x & G & Hk). destruct (sf_cov _ _ _ _ F eq_refl r c v written) as [Cv _].
      pose proof (step_flag _ _ _ _ _ (j_std _ _ H1) Es _ _ _ written G) as Fl. rewrite G in U. cbn in U. destruct U as [xf U].
      rewrite (metas_one (e_ws s) (table_before before) g r c k xf (j_std _ _ H') (covers_meta _ _ _ _ M' Cv) U) by congruence.
      rewrite <- Fl. destruct k as [| | | | | | | | |t q [|] rg]; reflexivity.
    Qed.
  End Cell.
End Dynamic.

(** ** Refutations *)
Definition pic1 : image := {| i_img := {| im_hash := lit "1"; im_ext := Png; im_data := [1; 2; 3] |}; i_alt := lit "first"; i_decorative := false; i_linked := false |}.
Definition pic2 : image := {| i_img := i_img pic1; i_alt := lit "second"; i_decorative := true; i_linked := false |}.
Definition pic3 : image := {| i_img := {| im_hash := lit "3"; im_ext := Jpg; im_data := [9] |}; i_alt := []; i_decorative := false; i_linked := false |}.
(** FINDING: a second embedding of the same bytes with another description or mark:
    the file has only the first description and mark. *)
Definition twice : list eop := [EImage 0 0 pic1 None; EImage 5 2 pic2 None].
Theorem C89_second_description_refuted : exists s all ks rels p vm pic,
  erun new_sheet twice = Some s /\ prepare_images [s] = (all, ks) /\ rich_value_rels Debug all = Some rels /\
  parts_say [s] all rels p /\ ks = [[vm]] /\ shown (sheet_rows (e_ws s) sst_new (fun i => i)) 5 2 = [(VImage 0, 0)] /\
  read_picture p vm = Some pic /\ pic_text pic = Some (lit "first") /\ pic_decorative pic = false.
Proof.
  assert (E : exists s, erun new_sheet twice = Some s) by (eexists; vm_compute; reflexivity). destruct E as [s E].
  exists s, [pic1], [[1]], [(lit "rId1", doc_rel (lit "image") (lit "../media/image1.png") [])],
    {| ip_metadata := metadata_node (embed_options [s] [pic1]); ip_values := values_node [pic1]; ip_structures := structures_node (embed_options [s] [pic1]);
       ip_rels := rels_node (embed_options [s] [pic1]); ip_relationships := relationships_node [(lit "rId1", doc_rel (lit "image") (lit "../media/image1.png") [])] |}, 1,
    {| pic_file := lit "../media/image1.png"; pic_text := Some (lit "first"); pic_decorative := false |}.
  vm_compute in E. injection E as <-. split; [vm_compute; reflexivity|]. split; [vm_compute; reflexivity|]. split; [vm_compute; reflexivity|].
  split; [repeat split; vm_compute; reflexivity|]. split; [reflexivity|]. split; [vm_compute; reflexivity|]. split; [vm_compute; reflexivity|]. split; reflexivity.
Qed.
(** FINDING: when only some images are described the rich values of the others have
    fewer values than their structure has keys. *)
Definition mixed : list eop := [EImage 0 0 pic1 None; EImage 1 0 pic3 None].
Theorem C89_values_fit_refuted : exists s all ks rels p,
  erun new_sheet mixed = Some s /\ prepare_images [s] = (all, ks) /\ rich_value_rels Debug all = Some rels /\ parts_say [s] all rels p /\ ~ values_fit p.
Proof.
  assert (E : exists s, erun new_sheet mixed = Some s) by (eexists; vm_compute; reflexivity). destruct E as [s E].
  set (es := [(lit "rId1", doc_rel (lit "image") (lit "../media/image1.png") []); (lit "rId2", doc_rel (lit "image") (lit "../media/image2.jpeg") [])]).
  exists s, [pic1; pic3], [[1; 2]], es, (the_parts (embed_options [s] [pic1; pic3]) [pic1; pic3] es).
  assert (P : prepare_images [s] = ([pic1; pic3], [[1; 2]])) by (vm_compute in E; injection E as <-; vm_compute; reflexivity).
  assert (R : rich_value_rels Debug [pic1; pic3] = Some es) by (vm_compute; reflexivity).
  assert (A : Forall (fun x => doc_text (i_alt x)) [pic1; pic3]) by (repeat constructor; cbn; lia || discriminate).
  split; [exact E|]. split; [exact P|]. split; [exact R|]. split.
  - split; [apply metadata_reads|]. split; [apply values_read, A|]. split; [apply structures_read|]. split; [apply rels_read|]. eapply es_reads; [exact R|left; reflexivity].
  - intros F. apply fits in F; [|exact A]. rewrite Forall_forall in F. pose proof (F pic1 (or_introl eq_refl)) as F1. pose proof (F pic3 (or_intror (or_introl eq_refl))) as F3.
    rewrite F1 in F3. discriminate F3.
Qed.
(** FINDING: in constant memory mode the program stops when a row after that of an
    embedded image is written (src/worksheet.rs:18806: the numbers of the images are
    only known when the workbook is saved). *)
Theorem C89_constant_memory_refuted : exists row col x o1,
  erun (esheet_new (ws_new true false true [format_default] sst_new)) [EImage row col x None] <> None /\
  erun (esheet_new (ws_new true false true [format_default] sst_new)) [EImage row col x None; ECell o1] = None.
Proof.
  exists 0, 0, pic3, (WriteBool 1 0 true None). split; [vm_compute; discriminate|vm_compute; reflexivity].
Qed.

(** ** Cases *)
Example C89_witness : exists s1 s2, erun new_sheet [EImage 0 0 pic1 None] = Some s1 /\ estep s1 (EImage 2 1 pic3 None) = Some (s2, None) /\
  eundisturbed s2 [ECell (WriteBool 7 7 true None)] 2 1 /\ Forall eop_readable ([EImage 0 0 pic1 None] ++ EImage 2 1 pic3 None :: [ECell (WriteBool 7 7 true None)]) /\
  Forall (fun x => doc_text (i_alt x)) (book_images [[EImage 0 0 pic1 None] ++ EImage 2 1 pic3 None :: [ECell (WriteBool 7 7 true None)]]) /\
  map i_hash (book_images [[EImage 0 0 pic1 None] ++ EImage 2 1 pic3 None :: [ECell (WriteBool 7 7 true None)]]) = [lit "1"; lit "3"].
Proof.
  eexists _, _. split; [vm_compute; reflexivity|]. split; [vm_compute; reflexivity|]. split; [vm_compute; auto|].
  split; [repeat constructor; exact I|]. split; [|vm_compute; reflexivity].
  match goal with |- Forall _ ?l => replace l with [pic1; pic3] by (vm_compute; reflexivity) end. repeat constructor; cbn; lia || discriminate.
Qed.
Example C90_witness : exists s1 s2,
  let fm := {| f_text := lit "_xlfn._xlws.SORT(A1:A3)"; f_result := []; f_dynamic := true |} in
  erun new_sheet [] = Some s1 /\ estep s1 (ECell (WriteFormula 0 1 fm None (lit "B1"))) = Some (s2, None) /\
  writes (e_ws s1) (WriteFormula 0 1 fm None (lit "B1")) 0 1 = Some (VArray (f_text fm) (lit "0") (lit "B1")) /\
  makes_dynamic (WriteFormula 0 1 fm None (lit "B1")) = true /\ formula_cell (WriteFormula 0 1 fm None (lit "B1")) 0 1 = true.
Proof. eexists _, _. cbv zeta. split; [vm_compute; reflexivity|]. split; [vm_compute; reflexivity|]. repeat split; vm_compute; reflexivity. Qed.
Print Assumptions C89_image_reached_partial.
Print Assumptions C90_dynamic_marked.
