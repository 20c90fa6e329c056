(** The texts of the two parts for the sheet reached by any history whose contents can
    be read (the argument of C51 for an arbitrary state, with the metadata records). *)
From Verif Require Import Base SMap F64 Fmt_Model Xml_Model Xml_Spec Xml_Proofs Xml_Read Xml_Read_Proofs Xml_Tree
  Sst_Model Sst_Proofs Ref_Model Ref_Spec Ref_Proofs Cells_Model Cells_Spec Cells_Proofs Cells_Proofs2 Cells_Inv Cells_Save Cells_Hist Props_Cells
  Rich_Model Rich_Proofs SheetXml_Model SheetXml_Spec SheetXml_Proofs SheetXml_Proofs2 SheetXml_Proofs3 SheetXml_Proofs4 SheetXml_Proofs5 SheetXml_Proofs6 SheetXml_Proofs7 Props_SheetXml.
From Coq Require Import Permutation.

Section Saved.
  Variable num_text : f64 -> str.
  Variable read_num : str -> option f64.
  Variable m : ovf.
  Variable image_id : N -> N.
  Variables before after : list str.
  Variable sheet : ws.
  Variable g : N -> N.
  Variable x14 : bool.
  Variable entries : list (str * N).

  Definition saved_ws : ws := fst (update_string_table_ids sheet (table_before before)).
  Definition table_after : sst := fst (sst_run (snd (update_string_table_ids sheet (table_before before))) after).

  Theorem sheet_reads_all :
    number_display num_text read_num -> std sheet -> values_ok sheet -> global_sst sheet = false -> last_row sheet < Cells_Model.ROW_MAX ->
    Forall string_ok before -> Forall string_ok after -> Permutation entries (strings table_after) ->
    exists text part attrs items rows,
      sheet_data_text num_text m image_id saved_ws g x14 = Some text /\
      shared_strings_part table_after entries = Some part /\
      read_document part = Some (Elem (lit "sst") attrs items) /\
      read_sheet_data items text = Some rows /\
      (forall r c, Forall2 (fun v f => value_read read_num image_id (fst v) (fst f) /\ snd f = snd v)
                 (shown (sheet_rows sheet (table_before before) g) r c) (cells_at rows r c)) /\
      (forall r c, metas_at rows r c = metas (sheet_rows sheet (table_before before) g) r c) /\
      map fr_row rows = map o_row (sheet_rows sheet (table_before before) g) /\
      (forall f, In f rows -> row_says num_text sheet g (get (fr_row f) (changed_rows sheet)) f).
  Proof.
    intros [NS NR] H V Hgs Hlast B A P.
    assert (I0 : Inv sst_new []) by (split; [reflexivity|reflexivity|constructor]).
    destruct (sst_run sst_new before) as [t0 is0] eqn:E0. destruct (sst_run_inv before sst_new [] t0 is0 I0 E0) as (l0 & I1 & _ & _ & _ & L0).
    assert (Et0 : table_before before = t0) by (unfold table_before; rewrite E0; reflexivity).
    destruct (update_string_table_ids sheet t0) as [w' t1] eqn:E1.
    destruct (saved_ids sheet t0 l0 w' t1 H Hgs V I1 E1) as (d & I2 & Sd & Ids).
    destruct (sst_run t1 after) as [t2 is2] eqn:E2. destruct (sst_run_inv after t1 (l0 ++ d) t2 is2 I2 E2) as (l & I3 & (d2 & ->) & _ & _ & L2).
    assert (Ew : saved_ws = w') by (unfold saved_ws; rewrite Et0, E1; reflexivity).
    assert (Ef : table_after = t2) by (unfold table_after; rewrite Et0, E1; cbn [snd]; rewrite E2; reflexivity).
    rewrite Ef in *. rewrite Ew. clear Ew Ef.
    assert (Ok : Forall string_ok ((l0 ++ d) ++ d2)).
    { apply Forall_forall. intros s Hs. apply L2 in Hs as [Hs|Hs]; [|rewrite Forall_forall in A; auto].
      apply in_app_iff in Hs as [Hs|Hs]; [|rewrite Forall_forall in Sd; auto]. apply L0 in Hs as [[]|Hs]. rewrite Forall_forall in B. auto. }
    pose proof (written_order_inv t2 _ entries I3 P) as WO. rewrite <- WO in Ok.
    destruct (sst_part_writes t2 entries Ok) as (part & attrs & items & S1 & S2 & S3 & S4 & S5). rewrite WO in S5.
    pose proof (emitted_good sheet w' t0 t1 _ items g H V E1 (fun r c k x Hk => id_in_app _ d2 k (Ids r c k x Hk)) S5 Hlast) as GR.
    destruct (sheet_writes num_text read_num m image_id NS NR items w' g x14 GR) as (text & rows & T1 & T2 & T3 & T4).
    assert (Er : write_data_table w' g = sheet_rows sheet t0 g) by (unfold sheet_rows, saved; rewrite E1; reflexivity).
    exists text, part, attrs, items, rows. split; [assumption|]. split; [assumption|]. split; [assumption|].
    split; [assumption|]. split; [|split; [|split]].
    - intros r c. rewrite Et0, <- Er. eapply rows_show. eassumption.
    - intros r c. rewrite Et0, <- Er. symmetry. eapply rows_metas. eassumption.
    - rewrite Et0, <- Er. clear - T4. induction T4 as [|o f os fs (R1 & _) T4 IH]; [reflexivity|]. cbn [map]. rewrite R1, IH. reflexivity.
    - assert (Eo : changed_rows w' = changed_rows sheet /\ default_row_height w' = default_row_height sheet).
      { destruct (saved_frame sheet t0) as [dd Ed]. unfold saved in Ed. rewrite E1 in Ed. cbn [fst] in Ed. rewrite Ed. split; reflexivity. }
      assert (Fo : Forall (fun o => o_opts o = get (o_row o) (changed_rows w')) (write_data_table w' g)).
      { apply Forall_forall. intros o Ho. unfold write_data_table in Ho. apply in_flat_map in Ho as (row & _ & Ho). unfold emit_row in Ho.
        destruct (get row (data w')); [destruct Ho as [<-|[]]; reflexivity|].
        destruct (get row (changed_rows w')) eqn:Eg; [destruct Ho as [<-|[]]; cbn; congruence|].
        destruct (mem row (notes w')); [destruct Ho as [<-|[]]; cbn; congruence|destruct Ho]. }
      clear - T4 Fo Eo. induction T4 as [|o f os fs (R1 & R2 & _) T4 IH]; [intros f []|]. inversion Fo; subst. intros f' [<-|Hf]; [|apply IH; assumption].
      rewrite R1. destruct Eo as [Eo1 Eo2]. rewrite <- Eo1, <- H1. unfold row_says, custom in *. rewrite Eo2 in R2. exact R2.
  Qed.
  Theorem sheet_reads_general :
    number_display num_text read_num -> std sheet -> values_ok sheet -> global_sst sheet = false -> last_row sheet < Cells_Model.ROW_MAX ->
    Forall string_ok before -> Forall string_ok after -> Permutation entries (strings table_after) ->
    exists text part attrs items rows,
      sheet_data_text num_text m image_id saved_ws g x14 = Some text /\
      shared_strings_part table_after entries = Some part /\
      read_document part = Some (Elem (lit "sst") attrs items) /\
      read_sheet_data items text = Some rows /\
      (forall r c, Forall2 (fun v f => value_read read_num image_id (fst v) (fst f) /\ snd f = snd v)
                 (shown (sheet_rows sheet (table_before before) g) r c) (cells_at rows r c)) /\
      (forall r c, metas_at rows r c = metas (sheet_rows sheet (table_before before) g) r c).
  Proof.
    intros H1 H2 H3 H4 H5 H6 H7 H8. destruct (sheet_reads_all H1 H2 H3 H4 H5 H6 H7 H8) as (text & part & attrs & items & rows & A & B & C & D & E & F & _).
    exists text, part, attrs, items, rows. repeat (split; [assumption|]). exact F.
  Qed.
End Saved.
