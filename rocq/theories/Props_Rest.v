(** The rest of the worksheet part read back: the used range (C16), page breaks (C23),
    the references to other parts (C31) and the announced outline levels (C39). *)
From Verif Require Import Base Book_Model F64 Ref_Model Ref_Spec Xml_Model Xml_Spec Xml_Proofs Xml_Read Xml_Read_Proofs Xml_Tree Rich_Model Rich_Proofs
  Cells_Model SheetXml_Spec SheetXml_Proofs SheetXml_Proofs3 Doc_Spec Url_Model Doc_Model Props_Doc View_Model View_Spec Setup_Spec Part_Model Tag_Proofs Part_Proofs
  Props_Part View_Hist Part_Groups StrMap DV_Model DV_Spec DV_Proofs Props_DV Pkg_Model.

(** ** Reading *)
(** 18.3.1.73, .14, .3: the manual breaks; the counts must be right. *)
Definition read_break (max : N) (n : node) : option N :=
  let l := attrs_of n in
  if is_elem "brk" n && flag_of "man" l then
    bind (bind (attr "max" l) number_of) (fun x => if x =? max then bind (attr "id" l) number_of else None)
  else None.
Definition read_breaks (k : string) (max : N) (root : node) : option (list N) :=
  match kid k (kids_of root) with
  | None => Some []
  | Some n => bind (bind (attr "count" (attrs_of n)) number_of) (fun c => bind (bind (attr "manualBreakCount" (attrs_of n)) number_of) (fun d =>
              bind (read_all (read_break max) (kids_of n)) (fun l => if (c =? N.of_nat (length l)) && (d =? c) then Some l else None)))
  end.
(** 18.3.1.35 *)
Definition read_dimension (root : node) : option (N * N * (N * N)) := bind (bind (kid "dimension" (kids_of root)) (fun n => attr "ref" (attrs_of n))) range_of.
(** 18.3.1.81: outline levels, none if not said *)
Definition read_levels (root : node) : option (N * N) :=
  bind (kid "sheetFormatPr" (kids_of root)) (fun n =>
  bind (num_default "outlineLevelRow" 0 (attrs_of n)) (fun r => bind (num_default "outlineLevelCol" 0 (attrs_of n)) (fun c => Some (r, c)))).
(** The identifiers by which the sheet refers to other parts (18.3.1.36, .54, .55,
    .67, .94, .95) *)
Definition read_ref (k : string) (root : node) : option (option str) :=
  match kid k (kids_of root) with None => Some None | Some n => bind (attr "r:id" (attrs_of n)) (fun t => Some (Some t)) end.
Definition read_tables (root : node) : option (list str) :=
  match kid "tableParts" (kids_of root) with
  | None => Some []
  | Some n => bind (read_all (fun t => if is_elem "tablePart" t then attr "r:id" (attrs_of t) else None) (kids_of n)) (fun l =>
              bind (bind (attr "count" (attrs_of n)) number_of) (fun c => if c =? N.of_nat (length l) then Some l else None))
  end.

Section Rest.
  Variable num_text : f64 -> str.
  Variable m : ovf.
  Hypothesis plain_numbers : forall x, forallb simple (num_text x) = true.

  Lemma breaks_read k max max_n l root : number_of (lit max) = Some max_n -> kids_named k (kids_of root) = map node_of (breaks_xml k max l) -> read_breaks k max_n root = Some l.
  Proof.
    intros Hm K. unfold read_breaks. rewrite kid_is, K. destruct l as [|b l]; [reflexivity|]. set (L := b :: l). change (breaks_xml k max L) with [WElem (lit k) [(lit "count", dec (N.of_nat (length L))); (lit "manualBreakCount", dec (N.of_nat (length L)))] (map (fun n => WEmpty (lit "brk") [(lit "id", dec n); (lit "max", lit max); (lit "man", lit "1")]) L)].
    clearbody L. clear b l K. cbn [map]. cbn [node_of attrs_of kids_of].
    assert (R : read_all (read_break max_n) (map (fun n => Elem (lit "brk") [(lit "id", dec n); (lit "max", lit max); (lit "man", lit "1")] []) L) = Some L).
    { clear - Hm. induction L as [|x L IH]; [reflexivity|]. cbn [map read_all]. rewrite IH. unfold read_break. cbn [attrs_of is_elem]. rewrite str_eqb_refl. unfold flag_of. rewrite !attr_cons. cbn [String.eqb Ascii.eqb Bool.eqb bind andb].
      change (str_eqb (lit "1") (lit "1")) with true. cbn [andb]. rewrite Hm. cbn [bind]. rewrite N.eqb_refl, number_of_dec. reflexivity. }
    rewrite (map_map _ node_of L). cbn [node_of].
    rewrite !attr_cons. cbn [String.eqb Ascii.eqb Bool.eqb bind]. rewrite !number_of_dec. cbn [bind]. rewrite R. cbn [bind]. rewrite !N.eqb_refl. reflexivity.
  Qed.

  (** The children of the root that the rest is read from *)
  Lemma worksheet_rest i : sections_ok i -> both_extensions i = false -> exists text root d,
    worksheet_text num_text m i = Some text /\ read_document text = Some root /\ dimension_xml m (n_dims i) = Some d /\
    kid "dimension" (kids_of root) = Some (node_of d) /\ kid "sheetFormatPr" (kids_of root) = Some (node_of (format_pr_xml num_text i)) /\
    kids_named "rowBreaks" (kids_of root) = map node_of (breaks_xml "rowBreaks" "16383" (n_row_breaks i)) /\
    kids_named "colBreaks" (kids_of root) = map node_of (breaks_xml "colBreaks" "1048575" (n_col_breaks i)) /\
    Forall (fun k => kids_named k (kids_of root) = kids_named k (map node_of (rels_xml i))) ["drawing"; "legacyDrawing"; "legacyDrawingHF"; "picture"; "tableParts"]%string.
  Proof.
    intros S B. destruct (worksheet_groups num_text m plain_numbers i S B) as (text & root & d & v & data & ra & rb & rc & rd & rt & E & R & Ed & _ & _ & Er & _ & K & F & Nd). exists text, root, d.
    split; [exact E|]. split; [exact R|]. split; [exact Ed|]. assert (Kd : kids_named "dimension" (kids_of root) = [node_of d]) by (rewrite K, (group_kids _ "dimension" F Nd); reflexivity).
    assert (Kf : kids_named "sheetFormatPr" (kids_of root) = [node_of (format_pr_xml num_text i)]) by (rewrite K, (group_kids _ "sheetFormatPr" F Nd); reflexivity).
    rewrite !kid_is, Kd, Kf. split; [reflexivity|]. split; [reflexivity|]. rewrite K, !(fun k => group_kids _ k F Nd). split; [reflexivity|]. split; [reflexivity|].
    set (gs := [("drawing", map node_of ra); ("legacyDrawing", map node_of rb); ("legacyDrawingHF", map node_of rc); ("picture", map node_of rd); ("tableParts", map node_of rt)]%string).
    assert (Fs : Forall named gs) by (unfold groups in F; repeat match goal with H : Forall named (_ :: _) |- _ => inversion H; subst; clear H end; unfold gs; repeat (constructor; [assumption|]); constructor).
    assert (Ns : NoDup (map fst gs)) by (unfold gs; cbn [map fst]; repeat (constructor; [intros Hin; repeat (destruct Hin as [Hin|Hin]; [discriminate Hin|]); destruct Hin|]); constructor).
    assert (Eg : map node_of (rels_xml i) = flat_map snd gs) by (rewrite Er; unfold gs; cbn [flat_map snd]; rewrite !map_app, app_nil_r; reflexivity).
    rewrite Eg. repeat (constructor; [rewrite (group_kids _ _ F Nd), (group_kids gs _ Fs Ns); reflexivity|]). constructor.
  Qed.

  (** C16: the reference is the used range (except for the one it does not tell from an
      empty sheet: see C16_refuted_full_first_row). *)
  Theorem C16_dimension_written i fr fc lr lc : sections_ok i -> both_extensions i = false -> n_dims i = (fr, fc, lr, lc) ->
    on_grid fr fc = true -> on_grid lr lc = true -> (fr, fc, lr, lc) <> (0, 0, 0, 16383) ->
    exists text root, worksheet_text num_text m i = Some text /\ read_document text = Some root /\ read_dimension root = Some (fr, fc, (lr, lc)).
  Proof.
    intros S B D A1 A2 Ne. destruct (worksheet_rest i S B) as (text & root & d & E & R & Ed & Kd & _). exists text, root. split; [exact E|]. split; [exact R|]. unfold read_dimension. rewrite Kd. cbn [bind].
    apply on_grid_lt in A1 as [? ?]. apply on_grid_lt in A2 as [? ?]. destruct (range_text m fr fc lr lc) as (t & Et & _ & _ & Rt); try assumption. rewrite D in Ed. unfold dimension_xml in Ed.
    destruct ((fr =? 0) && (fc =? 0) && (lr =? 0) && (lc =? COL_MAX - 1)) eqn:Q; [exfalso; apply Ne; unfold COL_MAX in Q; repeat (apply andb_prop in Q as [Q ?]); repeat match goal with H : (_ =? _) = true |- _ => apply N.eqb_eq in H end; subst; reflexivity|].
    assert (Q2 : negb (fr =? ROW_MAX) || negb (fc =? COL_MAX) || negb (lr =? 0) || negb (lc =? 0) = true) by (destruct (N.eqb_spec fr ROW_MAX); [lia|reflexivity]). rewrite Q2, Et in Ed. cbv beta iota delta [obind] in Ed. injection Ed as <-.
    cbn [node_of attrs_of]. rewrite attr_cons. cbn [String.eqb Ascii.eqb Bool.eqb bind]. exact Rt.
  Qed.
  Theorem C16_dimension_empty_written i : sections_ok i -> both_extensions i = false -> n_dims i = (ROW_MAX, COL_MAX, 0, 0) ->
    exists text root, worksheet_text num_text m i = Some text /\ read_document text = Some root /\ read_dimension root = Some (0, 0, (0, 0)).
  Proof.
    intros S B D. destruct (worksheet_rest i S B) as (text & root & d & E & R & Ed & Kd & _). exists text, root. split; [exact E|]. split; [exact R|]. unfold read_dimension. rewrite Kd. rewrite D in Ed. injection Ed as <-. reflexivity.
  Qed.

  (** C23: the sheet has the stored breaks, rows and columns apart. *)
  Theorem C23_breaks_written i : sections_ok i -> both_extensions i = false ->
    exists text root, worksheet_text num_text m i = Some text /\ read_document text = Some root /\
      read_breaks "rowBreaks" 16383 root = Some (n_row_breaks i) /\ read_breaks "colBreaks" 1048575 root = Some (n_col_breaks i).
  Proof.
    intros S B. destruct (worksheet_rest i S B) as (text & root & d & E & R & _ & _ & _ & Kr & Kc & _). exists text, root. split; [exact E|]. split; [exact R|].
    split; [exact (breaks_read _ "16383" _ _ root eq_refl Kr)|exact (breaks_read _ "1048575" _ _ root eq_refl Kc)].
  Qed.

  (** C39: the announced levels. *)
  Theorem C39_levels_written i : sections_ok i -> both_extensions i = false ->
    exists text root, worksheet_text num_text m i = Some text /\ read_document text = Some root /\ read_levels root = Some (n_row_level i, n_col_level i).
  Proof.
    intros S B. destruct (worksheet_rest i S B) as (text & root & d & E & R & _ & _ & Kf & _). exists text, root. split; [exact E|]. split; [exact R|]. unfold read_levels. rewrite Kf. cbn [bind]. unfold format_pr_xml. cbn [node_of attrs_of].
    unfold num_default, yes. rewrite !attr_app, !attr_when, !attr_cons. cbn [String.eqb Ascii.eqb Bool.eqb]. unfold attr. cbn [find].
    destruct (negb _), (n_hide_rows i), (N.ltb_spec 0 (n_row_level i)), (N.ltb_spec 0 (n_col_level i)); cbn [bind]; rewrite ?number_of_dec; cbn [bind]; try (destruct (use_x14 i)); cbn [bind]; do 2 f_equal; lia.
  Qed.

  (** C31: the identifiers in the text are those the package model gives the sheet,
      which C31_worksheet_references shows to lead to the right parts. *)
  Lemma kid_named k l : kid k l = match kids_named k l with n :: _ => Some n | [] => None end. Proof. apply kid_is. Qed.
  Definition refs_of (p : prep) (i : sheet_in) : Prop :=
    n_rel_count i = snd (write_links 1 (u_links (p_u p))) - 1 /\ n_drawing i = negb (is_nil (d_infos (p_d p))) /\ n_vml i = has_vml (p_u p) /\ n_hf_images i = negb (is_nil (u_hf (p_u p))) /\
    n_background i = is_some (u_bg (p_u p)) /\ n_tables i = length (u_tables (p_u p)).
  Lemma tables_read n : forall id, read_all (fun t => if is_elem "tablePart" t then attr "r:id" (attrs_of t) else None) (map node_of (table_part_xml n id)) = Some (map rid (seq_from (id + 1) n)) /\ length (table_part_xml n id) = n.
  Proof.
    induction n as [|n IH]; intros id; [split; reflexivity|]. cbn [table_part_xml map read_all seq_from length]. destruct (IH (id + 1)) as [IH1 IH2]. rewrite IH2. split; [|reflexivity]. rewrite IH1. unfold rel_xml. cbn [node_of is_elem attrs_of].
    rewrite str_eqb_refl, attr_cons. cbn [String.eqb Ascii.eqb Bool.eqb bind]. reflexivity.
  Qed.
  Lemma length_seq n : forall id, length (seq_from id n) = n. Proof. induction n as [|n IH]; intros id; [reflexivity|]. cbn [seq_from length]. rewrite IH. reflexivity. Qed.
  Theorem C31_references_written i p : sections_ok i -> both_extensions i = false -> refs_of p i -> let d := fst (write_sheet_doc p) in
    exists text root, worksheet_text num_text m i = Some text /\ read_document text = Some root /\
      read_ref "drawing" root = Some (sd_drawing d) /\ read_ref "legacyDrawing" root = Some (sd_legacy d) /\ read_ref "legacyDrawingHF" root = Some (sd_legacy_hf d) /\
      read_ref "picture" root = Some (sd_picture d) /\ read_tables root = Some (sd_tables d).
  Proof.
    intros S B Q d0. destruct (worksheet_rest i S B) as (text & root & d & E & R & _ & _ & _ & _ & _ & F). exists text, root. split; [exact E|]. split; [exact R|].
    repeat match goal with H : Forall _ (_ :: _) |- _ => inversion_clear H as [|? ? ?HH ?HF] end. destruct Q as (Q1 & Q2 & Q3 & Q4 & Q5 & Q6).
    unfold read_ref, read_tables. rewrite !kid_named. repeat match goal with H : kids_named _ (kids_of root) = _ |- _ => rewrite H; clear H end. subst d0. unfold write_sheet_doc, rels_xml.
    rewrite Q1, Q2, Q3, Q4, Q5, Q6. clear. destruct (write_links 1 (u_links (p_u p))) as [[links lrels] n1]. cbn [snd].
    destruct (negb (is_nil (d_infos (p_d p)))), (has_vml (p_u p)), (negb (is_nil (u_hf (p_u p)))), (is_some (u_bg (p_u p))); cbn [rel_opt bump fst snd sd_drawing sd_legacy sd_legacy_hf sd_picture sd_tables];
      (destruct (length (u_tables (p_u p))) as [|t]; [repeat split; reflexivity|]);
      (repeat split; [..|unfold table_parts_xml; cbn [app map];
         match goal with |- context [table_part_xml (Datatypes.S t) ?id] => destruct (tables_read (Datatypes.S t) id) as [T L]; set (ps := table_part_xml (Datatypes.S t) id) in *; clearbody ps end;
         unfold rel_xml; cbn [map node_of]; unfold kids_named; cbn [filter is_elem]; rewrite ?str_eqb_lit; cbn [String.eqb Ascii.eqb Bool.eqb kids_of attrs_of]; rewrite T; cbn [bind]; rewrite attr_cons; cbn [String.eqb Ascii.eqb Bool.eqb bind];
         rewrite number_of_dec; cbn [bind]; rewrite map_length, length_seq, N.eqb_refl; reflexivity]).
  Qed.
End Rest.

(** The demonstration sheet meets the hypotheses, with page breaks, an outline level,
    a drawing, notes and two tables. *)
Example rest_met : sections_ok (demo_sheet demo_setup false) /\ both_extensions (demo_sheet demo_setup false) = false /\
  n_dims (demo_sheet demo_setup false) = (0, 0, 9, 3) /\ n_row_breaks (demo_sheet demo_setup false) = [3; 7] /\ n_row_level (demo_sheet demo_setup false) = 1.
Proof. split; [apply demo_sections, demo_setup_ok|]. repeat split; reflexivity. Qed.
Print Assumptions C31_references_written.
Print Assumptions C39_levels_written.
