(** C51: a saved worksheet read back cell by cell; C43: types of formula results. *)
From Verif Require Import Base SMap F64 Fmt_Model Xml_Model Xml_Spec Xml_Proofs Xml_Read Xml_Read_Proofs Xml_Tree
  Sst_Model Sst_Proofs Ref_Model Ref_Spec Ref_Proofs Cells_Model Cells_Spec Cells_Proofs Cells_Proofs2 Cells_Inv Cells_Save Cells_Hist Props_Cells
  Rich_Model Rich_Proofs SheetXml_Model SheetXml_Spec SheetXml_Proofs SheetXml_Proofs2 SheetXml_Proofs3 SheetXml_Proofs4 SheetXml_Proofs5 SheetXml_Proofs6 SheetXml_Proofs7.
From Coq Require Import Permutation Cantor.

(** The printing of numbers ([Display for f64], not modelled): plain ASCII
    characters, and printing then parsing a finite number gives it back. *)
Definition number_display (num_text : f64 -> str) (read_num : str -> option f64) : Prop :=
  (forall x, forallb simple (num_text x) = true) /\ (forall x, is_finite x = true -> read_num (num_text x) = Some x).

(** Everything in the files of one sheet of a workbook: [before] and [after] are
    the strings of the sheets saved before and after it, [ops] the calls made on
    it, [entries] the string table in whatever order it is walked. *)
Section Saved.
  Variable num_text : f64 -> str.
  Variable read_num : str -> option f64.
  Variable m : ovf.
  Variable image_id : N -> N.
  Variables before after : list str.
  Variable ops : list op.
  Variable g : N -> N.
  Variable x14 : bool.
  Variable entries : list (str * N).

  Definition table_before : sst := fst (sst_run sst_new before).
  Definition sheet : ws := run ws_standard ops.
  Definition saved_sheet : ws := fst (update_string_table_ids sheet table_before).
  Definition final_table : sst := fst (sst_run (snd (update_string_table_ids sheet table_before)) after).

  (** What is read back from the texts of the two parts. *)
  Record read_back (rows : list frow) (items : list node) : Prop := {
    (** every cell: the cells the writer was asked for, with value and style, and no others *)
    rb_cells : forall r c, Forall2 (fun v f => value_read read_num image_id (fst v) (fst f) /\ snd f = snd v)
                 (shown (sheet_rows sheet table_before g) r c) (cells_at rows r c);
    (** rows in increasing order, each at most once *)
    rb_rows : map fr_row rows = map o_row (sheet_rows sheet table_before g);
    (** the options of each row *)
    rb_opts : forall f, In f rows -> row_says num_text sheet g (get (fr_row f) (changed_rows sheet)) f }.

  Theorem C51_sheet_reads_back :
    number_display num_text read_num -> Forall op_readable ops -> Forall string_ok before -> Forall string_ok after ->
    Permutation entries (strings final_table) ->
    exists text part attrs items rows,
      sheet_data_text num_text m image_id saved_sheet g x14 = Some text /\
      shared_strings_part final_table entries = Some part /\
      read_document part = Some (Elem (lit "sst") attrs items) /\
      attr "uniqueCount" attrs = Some (dec (N.of_nat (length items))) /\
      (exists node, read_xml text = Some [node]) /\
      read_sheet_data items text = Some rows /\
      read_back rows items.
  Proof.
    intros [NS NR] R B A P. destruct (std_run ops ws_standard std_start) as [H M]. fold sheet in H, M.
    destruct (run_readable ops ws_standard std_start) as [_ V]; [| |assumption|].
    { split; (split; [|intros [[r E] _]; discriminate E]) || (split; [split|]).
      - intros c Hc; cbn in Hc; repeat destruct Hc as [<-|Hc]; try destruct Hc; cbn; repeat split; discriminate.
      - intros c Hc; cbn in Hc; repeat destruct Hc as [<-|Hc]; try destruct Hc; cbn; repeat split; discriminate.
      - intros c Hc; cbn in Hc; repeat destruct Hc as [<-|Hc]; try destruct Hc; cbn; repeat split; discriminate.
      - intros c Hc; cbn in Hc; repeat destruct Hc as [<-|Hc]; try destruct Hc; cbn; repeat split; discriminate.
      - split; [|reflexivity]. intros c Hc; cbn in Hc. destruct Hc as [<-|[]]. lia.
      - intros (sg & w & E & S & I). destruct S as [->|[->| ->]]; try discriminate E. cbn in E. subst w. cbn in I.
        repeat destruct I as [I|I]; try discriminate I. destruct I. }
    { intros r c k x. discriminate. }
    fold sheet in V.
    assert (I0 : Inv sst_new []) by (split; [reflexivity|reflexivity|constructor]).
    destruct (sst_run sst_new before) as [t0 is0] eqn:E0. destruct (sst_run_inv before sst_new [] t0 is0 I0 E0) as (l0 & I1 & _ & _ & _ & L0).
    assert (Et0 : table_before = t0) by (unfold table_before; rewrite E0; reflexivity).
    destruct (update_string_table_ids sheet t0) as [w' t1] eqn:E1.
    assert (Hgs : global_sst sheet = false) by (rewrite (m_gsst _ _ M); reflexivity).
    destruct (saved_ids sheet t0 l0 w' t1 H Hgs V I1 E1) as (d & I2 & Sd & Ids).
    destruct (sst_run t1 after) as [t2 is2] eqn:E2. destruct (sst_run_inv after t1 (l0 ++ d) t2 is2 I2 E2) as (l & I3 & (d2 & ->) & _ & _ & L2).
    assert (Ew : saved_sheet = w') by (unfold saved_sheet; rewrite Et0, E1; reflexivity).
    assert (Ef : final_table = t2) by (unfold final_table; rewrite Et0, E1; cbn [snd]; rewrite E2; reflexivity).
    rewrite Ef in *. rewrite Ew. clear Ew Ef.
    assert (Ok : Forall string_ok ((l0 ++ d) ++ d2)).
    { apply Forall_forall. intros s Hs. apply L2 in Hs as [Hs|Hs]; [|rewrite Forall_forall in A; auto].
      apply in_app_iff in Hs as [Hs|Hs]; [|rewrite Forall_forall in Sd; auto]. apply L0 in Hs as [[]|Hs]. rewrite Forall_forall in B. auto. }
    pose proof (written_order_inv t2 _ entries I3 P) as WO. rewrite <- WO in Ok.
    destruct (sst_part_writes t2 entries Ok) as (part & attrs & items & S1 & S2 & S3 & S4 & S5). rewrite WO in S5.
    assert (Hlast : last_row sheet < ROW_MAX) by (apply (m_lr_max _ _ M); reflexivity).
    pose proof (emitted_good sheet w' t0 t1 _ items g H V E1 (fun r c k x Hk => id_in_app _ d2 k (Ids r c k x Hk)) S5 Hlast) as GR.
    destruct (sheet_writes num_text read_num m image_id NS NR items w' g x14 GR) as (text & rows & T1 & T2 & T3 & T4).
    assert (Er : write_data_table w' g = sheet_rows sheet t0 g) by (unfold sheet_rows, saved; rewrite E1; reflexivity).
    exists text, part, attrs, items, rows. split; [assumption|]. split; [assumption|]. split; [assumption|].
    split. { rewrite S4, (inv_unique _ _ I3). do 3 f_equal. clear - S5. induction S5; cbn; congruence. }
    split. { destruct T2 as [node T2]. exists node. apply reads_doc. assumption. }
    split; [assumption|]. split.
    - intros r c. rewrite Et0, <- Er. eapply rows_show. eassumption.
    - rewrite Et0, <- Er. clear - T4. induction T4 as [|o f os fs (R1 & _) T4 IH]; [reflexivity|]. cbn [map]. rewrite R1, IH. reflexivity.
    - assert (Eo : changed_rows w' = changed_rows sheet /\ default_row_height w' = default_row_height sheet).
      { destruct (saved_frame sheet t0) as [dd Ed]. unfold saved in Ed. rewrite E1 in Ed. cbn [fst] in Ed. rewrite Ed. split; reflexivity. }
      assert (Fo : Forall (fun o => o_opts o = get (o_row o) (changed_rows w')) (write_data_table w' g)).
      { apply Forall_forall. intros o Ho. unfold write_data_table in Ho. apply in_flat_map in Ho as (row & _ & Ho). unfold emit_row in Ho.
        destruct (get row (data w')); [destruct Ho as [<-|[]]; reflexivity|].
        destruct (get row (changed_rows w')) eqn:Eg; [destruct Ho as [<-|[]]; cbn; congruence|].
        destruct (mem row (notes w')); [destruct Ho as [<-|[]]; cbn; congruence|destruct Ho]. }
      clear - T4 Fo Eo. induction T4 as [|o f os fs (R1 & R2 & _) T4 IH]; [intros f []|]. inversion Fo; subst. intros f' [<-|Hf]; [|apply IH; assumption].
      rewrite R1. destruct Eo as [Eo1 Eo2]. rewrite <- Eo1, <- H1. unfold row_says, custom in *. rewrite Eo2 in R2. exact R2.
  Qed.
End Saved.
Print Assumptions C51_sheet_reads_back.

(** A value written by a successful call and not changed afterwards is the one
    (and only) cell read at its position in the saved file. *)
Theorem C51_last_write_reads_back num_text read_num m image_id before after pre o post w1 r c v g x14 entries :
  number_display num_text read_num -> Forall op_readable (pre ++ o :: post) -> Forall string_ok before -> Forall string_ok after ->
  Permutation entries (strings (final_table before after (pre ++ o :: post))) ->
  step (run ws_standard pre) o = (w1, None) -> writes (run ws_standard pre) o r c = Some v -> v <> VBlank ->
  undisturbed w1 post r c ->
  exists text part attrs items rows f style,
    sheet_data_text num_text m image_id (saved_sheet before (pre ++ o :: post)) g x14 = Some text /\
    shared_strings_part (final_table before after (pre ++ o :: post)) entries = Some part /\
    read_document part = Some (Elem (lit "sst") attrs items) /\
    read_sheet_data items text = Some rows /\
    cells_at rows r c = [(f, style)] /\ value_read read_num image_id v f.
Proof.
  intros ND R B A P E Hv Hb Hu.
  destruct (C51_sheet_reads_back num_text read_num m image_id before after _ g x14 entries ND R B A P)
    as (text & part & attrs & items & rows & T1 & T2 & T3 & _ & _ & T4 & [T5 _ _]).
  destruct (C15_last_write_wins pre o post w1 r c v (table_before before) g E Hv Hb Hu) as [style S].
  specialize (T5 r c). unfold sheet in T5. rewrite S in T5. inversion T5 as [|? [f st] ? ? [V1 V2] F2]; subst. inversion F2; subst. cbn [fst snd] in *.
  exists text, part, attrs, items, rows, f, st. repeat (split; [assumption|]). split; [congruence|assumption].
Qed.

(** ** C43 *)
(** The type a result is read as: a number exactly when it is the decimal notation
    of one, a boolean for TRUE and FALSE, an error for Excel's error values, and
    otherwise the text itself. *)
Theorem C43_result_read_back num_text read_num m image_id before after pre row col fm f rg post w1 g x14 entries :
  number_display num_text read_num -> Forall op_readable (pre ++ WriteFormula row col fm f rg :: post) ->
  Forall string_ok before -> Forall string_ok after ->
  Permutation entries (strings (final_table before after (pre ++ WriteFormula row col fm f rg :: post))) ->
  step (run ws_standard pre) (WriteFormula row col fm f rg) = (w1, None) ->
  f_dynamic fm = false -> f_result fm <> [] -> undisturbed w1 post row col ->
  exists text part attrs items rows style q,
    sheet_data_text num_text m image_id (saved_sheet before (pre ++ WriteFormula row col fm f rg :: post)) g x14 = Some text /\
    shared_strings_part (final_table before after (pre ++ WriteFormula row col fm f rg :: post)) entries = Some part /\
    read_document part = Some (Elem (lit "sst") attrs items) /\
    read_sheet_data items text = Some rows /\
    cells_at rows row col = [(FFormula (f_text fm) None q, style)] /\ result_read (f_result fm) q.
Proof.
  intros ND R B A P E D Rn Hu.
  assert (Hv : writes (run ws_standard pre) (WriteFormula row col fm f rg) row col = Some (VFormula (f_text fm) (f_result fm))).
  { cbn [writes]. unfold here. rewrite !N.eqb_refl, D. cbn [andb]. unfold Cells_Spec.result_text. destruct (f_result fm); [contradiction|reflexivity]. }
  destruct (C51_last_write_reads_back num_text read_num m image_id before after pre _ post w1 row col _ g x14 entries ND R B A P E Hv ltac:(discriminate) Hu)
    as (text & part & attrs & items & rows & fv & style & T1 & T2 & T3 & T4 & T5 & V).
  inversion V; subst. exists text, part, attrs, items, rows, style, q. auto 8.
Qed.
(** The reading is determined by the result text. *)
Lemma not_decimal_word s : In s (map lit ["TRUE"; "FALSE"; "#DIV/0!"; "#N/A"; "#NAME?"; "#NULL!"; "#NUM!"; "#REF!"; "#VALUE!"; "#GETTING_DATA"]%string) -> ~ decimal_number s.
Proof.
  intros H D. assert (P : parse_f64_ok s = true) by (apply parse_f64_ok_iff; left; exact D).
  cbn in H. repeat destruct H as [<-|H]; try discriminate P. destruct H.
Qed.
Theorem C43_reading_unique r q q' : result_read r q -> result_read r q' -> q = q'.
Proof.
  assert (T : ~ decimal_number (lit "TRUE")) by (apply not_decimal_word; cbn; auto).
  assert (Fa : ~ decimal_number (lit "FALSE")) by (apply not_decimal_word; cbn; auto).
  assert (Te : ~ error_value (lit "TRUE")) by (cbn; intros H; repeat destruct H as [H|H]; try discriminate H; destruct H).
  assert (Fe : ~ error_value (lit "FALSE")) by (cbn; intros H; repeat destruct H as [H|H]; try discriminate H; destruct H).
  assert (Er : forall s, error_value s -> ~ decimal_number s) by (intros s H; apply not_decimal_word; unfold error_value in H; cbn in *; tauto).
  intros A B. inversion A; subst; inversion B; subst; try reflexivity; try contradiction; try discriminate;
    match goal with H : error_value ?s, K : decimal_number ?s |- _ => destruct (Er s H K) | _ => idtac end; congruence.
Qed.
(** FINDING: the results "nan", "inf" and "infinity" (any case, with or without a
    sign) are written without a type, so they are read as numbers although they are
    not decimal numbers. *)
Theorem C43_refuted_special_words r : special_word r -> forall ref xf text, exists a b,
  write_formula_cell ref text xf r = lit "<c r=""" ++ ref ++ lit """" ++ style xf ++ lit "><f>" ++ a ++ lit "</f><v>" ++ b ++ lit "</v></c>" /\
  read_result None r = Some (RNumber r) /\ ~ decimal_number r.
Proof.
  intros S ref xf text. unfold write_formula_cell, result_type.
  assert (P : parse_f64_ok r = true) by (apply parse_f64_ok_iff; right; assumption). rewrite P. cbn [negb app].
  eexists _, _. split; [reflexivity|]. split; [reflexivity|].
  intros (sg & ip & fp & ex & E & Sg & Di & Fp & Ne & Ex). destruct S as (sg' & w & E' & Sg' & W). subst r.
  assert (Hd : exists c t, sg' ++ w = sg ++ c :: t /\ (48 <= c <= 57 \/ c = 46)).
  { destruct ip as [|c ip]; [|exists c, (ip ++ fp ++ ex); split; [rewrite E; reflexivity|left; apply Di; left; reflexivity]].
    destruct Fp as [->|(d & -> & _)]; [destruct Ne as [Ne|(c & d & Ne)]; [congruence|discriminate]|].
    exists 46, (d ++ ex). split; [rewrite E; reflexivity|auto]. }
  destruct Hd as (c & t & Ec & Hc).
  assert (Hw : exists c0 w0, w = c0 :: w0 /\ (97 <= ascii_lower c0)).
  { destruct w as [|c0 w0]; [cbn in W; repeat destruct W as [W|W]; try discriminate W; destruct W|]. exists c0, w0. split; [reflexivity|].
    cbn in W. destruct W as [W|[W|[W|[]]]]; injection W as W _; rewrite <- W; lia. }
  destruct Hw as (c0 & w0 & -> & Hl). unfold ascii_lower, is_ascii_upper in Hl.
  destruct Sg as [->|[->| ->]], Sg' as [->|[->| ->]]; cbn in Ec; injection Ec as Ec; try (subst; destruct ((65 <=? _) && _) eqn:K; lia);
    try (assert (c0 = c) by congruence; subst; destruct ((65 <=? _) && _) eqn:K; lia).
Qed.
(** FINDING: a literal "_xHHHH_" in a result is not protected: it is read as one
    other character. *)
Theorem C43_refuted_literal_escape : exists r q, result_type r = lit " t=""str""" /\ SheetXml_Model.result_text r = r /\
  read_result (Some (lit "str")) r = Some q /\ ~ result_read r q.
Proof.
  exists (lit "_x0041_"), (RText (lit "A")). split; [reflexivity|]. split; [reflexivity|]. split; [reflexivity|].
  intros H. inversion H.
Qed.

(** ** Cases *)
(** Some printing of numbers satisfies [number_display]. *)
Definition code (x : f64) : N :=
  N.of_nat (to_nat (match x with
    | S754_zero false => (0, 0) | S754_zero true => (0, 1)
    | S754_finite s m e => ((if s then 1 else 2), to_nat (Pos.to_nat m, to_nat (Z.to_nat e, Z.to_nat (- e))))
    | _ => (3, 0) end))%nat.
Definition decode (n : N) : option f64 :=
  match of_nat (N.to_nat n) with
  | (0, 0) => Some (S754_zero false) | (0, _) => Some (S754_zero true)
  | (S k, p) => let (m, e) := of_nat p in let (a, b) := of_nat e in
      Some (S754_finite (match k with O => true | _ => false end) (Pos.of_nat m) (Z.of_nat a - Z.of_nat b))
  end%nat.
Example C51_some_display : exists num_text read_num, number_display num_text read_num.
Proof.
  exists (fun x => dec (code x)), (fun s => match number_of s with Some n => decode n | None => None end). split.
  - intros x. apply dec_simple.
  - intros x F. rewrite number_of_dec. unfold code, decode. rewrite Nat2N.id, cancel_of_to. destruct x as [[|]|s| |s p e]; try discriminate F; try reflexivity.
    destruct s; rewrite !cancel_of_to; rewrite Pos2Nat.id; do 2 f_equal; lia.
Qed.
Definition demo_rich : str := lit "<r><t>a</t></r>".
Definition demo_ops : list op :=
  [WriteString 0 0 (lit "x & <y>") None; WriteString 2 1 (lit "_x0041_") None; WriteBool 2 2 true None;
   WriteRich 3 0 demo_rich (lit "a") None; SetRowHidden 3;
   WriteFormula 1 1 {| f_text := lit "A1&""<"""; f_result := lit "#N/A"; f_dynamic := false |} None [];
   WriteFormula 1 2 {| f_text := lit "1+1"; f_result := lit "-2.5e3"; f_dynamic := false |} None []].
Example C51_witness : exists text part items rows,
  let d := fun _ : f64 => lit "0" in
  sheet_data_text d Debug (fun n => n) (saved_sheet [lit "other"] demo_ops) (fun i => i) false = Some text /\
  shared_strings_part (final_table [lit "other"] [] demo_ops) (strings (final_table [lit "other"] [] demo_ops)) = Some part /\
  read_document part = Some (Elem (lit "sst") [(lit "xmlns", lit "http://schemas.openxmlformats.org/spreadsheetml/2006/main"); (lit "count", lit "4"); (lit "uniqueCount", lit "4")] items) /\
  read_sheet_data items text = Some rows /\
  cells_at rows 0 0 = [(FText (lit "x & <y>"), 0)] /\ cells_at rows 2 1 = [(FText (lit "_x0041_"), 0)] /\
  cells_at rows 2 2 = [(FBool true, 0)] /\ cells_at rows 1 1 = [(FFormula (lit "A1&""<""") None (RError (lit "#N/A")), 0)] /\
  cells_at rows 1 2 = [(FFormula (lit "1+1") None (RNumber (lit "-2.5e3")), 0)] /\ cells_at rows 4 4 = [] /\
  map fr_row rows = [0; 1; 2; 3] /\ map fr_hidden rows = [false; false; false; true].
Proof. do 4 eexists. cbv zeta. repeat (split; [vm_compute; reflexivity|]). vm_compute. reflexivity. Qed.
Example C51_witness_readable : Forall op_readable demo_ops.
Proof.
  assert (St : forall s, forallb (fun c => (32 <=? c) && (c <? 127)) s = true -> storable s).
  { intros s H c Hc. rewrite forallb_forall in H. specialize (H c Hc). unfold is_scalar. split; [lia|]. split; lia. }
  assert (Tx : forall s, forallb (fun c => (32 <=? c) && (c <? 127)) s = true -> looks_rich s = false -> text_ok s).
  { intros s H L. split; [auto|]. intros K. apply looks_iff in K. congruence. }
  assert (Pl : forall s, forallb (fun c => (32 <=? c) && (c <? 127)) s = true -> excel_decode s = s -> plain_text s).
  { intros s H L. split; [auto|]. split; [|assumption]. intros c Hc. rewrite forallb_forall in H. specialize (H c Hc). lia. }
  assert (Sp : forall s, word_ok (eat_sign s) = false -> ~ special_word s).
  { intros s H (sg & w & -> & S & W). assert (Hw : word_ok w = true).
    { unfold word_ok. cbn in W. destruct W as [W|[W|[W|[]]]]; rewrite <- W; reflexivity. }
    destruct S as [->|[->| ->]]; cbn in H; try congruence. destruct w as [|c w]; [discriminate Hw|]. cbn [app eat_sign] in H.
    destruct ((c =? 43) || (c =? 45)) eqn:K; [|congruence]. assert (Kc : c = 43 \/ c = 45) by lia. unfold word_ok in Hw.
    destruct Kc as [->| ->]; discriminate Hw. }
  unfold demo_ops. repeat (apply Forall_cons); try apply Forall_nil; cbn [op_readable f_text f_result]; try exact I.
  - apply Tx; reflexivity.
  - apply Tx; reflexivity.
  - exists [(format_default, lit "a")], (lit "a"). split; [reflexivity|]. constructor; [|constructor]. split; [|reflexivity]. split; [reflexivity|split; reflexivity].
  - split; [apply Pl; reflexivity|]. split; [intros _; split; [apply Pl; reflexivity|apply Sp; reflexivity]|]. intros c [].
  - split; [apply Pl; reflexivity|]. split; [intros _; split; [apply Pl; reflexivity|apply Sp; reflexivity]|]. intros c [].
Qed.
Print Assumptions C51_last_write_reads_back.
Print Assumptions C43_result_read_back.
