(** C56, C57, C58: the document property parts and xl/workbook.xml read back. *)
From Verif Require Import Base F64 Xml_Model Xml_Spec Xml_Proofs Xml_Read Xml_Read_Proofs Xml_Tree Ref_Spec Ref_Proofs Rich_Model Rich_Proofs
  SheetXml_Spec SheetXml_Proofs SheetXml_Proofs3 Date_Model Book_Model Book_Spec Book_Proofs Book_Proofs2 Props_Book Doc_Model Doc_Spec.

(** ** Generic *)
Lemma doc_text_data s : doc_text s -> data_text s = s /\ forallb writable s = true.
Proof.
  unfold doc_text. intros H. rewrite forallb_forall in H. split.
  - induction s as [|c s IH]; [reflexivity|]. unfold data_text. cbn [flat_map]. fold (data_text s).
    rewrite IH by (intros; apply H; right; assumption). specialize (H c (or_introl eq_refl)). unfold xml_char in H.
    assert (E : ((c <? 32) && negb (c =? 9) && negb (c =? 10)) = false) by lia. rewrite E. reflexivity.
  - apply forallb_forall. intros c Hc. specialize (H c Hc). apply andb_prop in H as [H _].
    unfold writable, is_scalar. unfold xml_char in H. lia.
Qed.
Lemma doc_simple s : forallb simple s = true -> doc_text s.
Proof.
  intros H. unfold doc_text. apply forallb_forall. intros c Hc. rewrite forallb_forall in H. specialize (H c Hc).
  unfold simple, is_ascii_upper, is_ascii_lower, is_ascii_digit in H. unfold xml_char. lia.
Qed.
Definition leaf (s : str) : list node := match s with [] => [] | _ => [Txt s] end.
Lemma node_data tag s attrs : doc_text s -> node_of (WData tag s attrs) = Elem tag attrs (leaf s).
Proof. intros H. cbn [node_of]. rewrite (proj1 (doc_text_data s H)). destruct s; reflexivity. Qed.
Lemma text_leaf tag attrs s : text_of (Elem tag attrs (leaf s)) = Some s.
Proof. destruct s; reflexivity. Qed.
Lemma ok_data tag s attrs : good_name tag = true -> attrs_good attrs -> doc_text s -> wx_ok (WData tag s attrs).
Proof. intros G A D. split; [assumption|]. split; [assumption|]. apply doc_text_data. assumption. Qed.
Lemma ok_data_only tag s : good_name (lit tag) = true -> doc_text s -> wx_ok (data_only tag s).
Proof. intros. apply ok_data; auto using attrs_nil. Qed.
Lemma ok_data_opt tag s : good_name (lit tag) = true -> doc_text s -> Forall wx_ok (data_opt tag s).
Proof. intros. apply when_forall. intros _. constructor; [apply ok_data_only; assumption|constructor]. Qed.
Lemma dec_doc n : doc_text (dec n). Proof. apply doc_simple, dec_simple. Qed.

(** ** Properties of a list of children *)
Definition lk (k : string) (l : list node) : option str := match kid k l with Some e => text_of e | None => Some [] end.
Lemma kid_app k a b : kid k (a ++ b) = match kid k a with Some e => Some e | None => kid k b end.
Proof. unfold kid. induction a as [|x a IH]; [reflexivity|]. cbn [app find]. destruct (is_elem k x); [reflexivity|exact IH]. Qed.
Lemma lk_opt_ne k tag s r : str_eqb (lit tag) (lit k) = false -> lk k (map node_of (data_opt tag s) ++ r) = lk k r.
Proof.
  intros H. unfold data_opt, when. destruct (nonempty s); [|reflexivity]. unfold lk, kid. cbn [map app node_of data_only find is_elem].
  rewrite H. reflexivity.
Qed.
Lemma lk_opt_eq k s r : doc_text s -> lk k (map node_of (data_opt k s) ++ r) = if nonempty s then Some s else lk k r.
Proof.
  intros H. unfold data_opt, when. destruct (nonempty s) eqn:E; [|reflexivity]. unfold lk, kid, data_only. cbn [map app].
  rewrite node_data by assumption. cbn [find is_elem]. rewrite str_eqb_refl. apply text_leaf.
Qed.
Lemma lk_cons_ne k n r : is_elem k n = false -> lk k (n :: r) = lk k r.
Proof. intros H. unfold lk, kid. cbn [find]. rewrite H. reflexivity. Qed.
Lemma lk_cons_eq k s attrs r : doc_text s -> lk k (node_of (WData (lit k) s attrs) :: r) = Some s.
Proof. intros H. unfold lk, kid. rewrite node_data by assumption. cbn [find is_elem]. rewrite str_eqb_refl. apply text_leaf. Qed.
Lemma nonempty_false s : nonempty s = false -> s = []. Proof. destruct s; [reflexivity|discriminate]. Qed.
Ltac lks :=
  repeat first [ rewrite lk_opt_ne by reflexivity
               | rewrite lk_opt_eq by assumption
               | rewrite lk_cons_eq by assumption
               | rewrite lk_cons_ne by reflexivity ].
Ltac lk_done :=
  match goal with |- (if nonempty ?s then _ else _) = _ => let E := fresh in destruct (nonempty s) eqn:E; [reflexivity|]; apply nonempty_false in E; rewrite ?E; reflexivity end.

(** ** core.xml *)
Record props_ok (p : docprops) : Prop := {
  po_author : doc_text (dp_author p); po_title : doc_text (dp_title p); po_comment : doc_text (dp_comment p);
  po_company : doc_text (dp_company p); po_manager : doc_text (dp_manager p); po_status : doc_text (dp_status p);
  po_subject : doc_text (dp_subject p); po_category : doc_text (dp_category p); po_keywords : doc_text (dp_keywords p);
  po_base : doc_text (dp_hyperlink_base p); po_created : doc_text (dp_created p) }.

Lemma attrs_lit (l : list (string * str)) : NoDup (map (fun p => lit (fst p)) l) ->
  (forall p, In p l -> good_name (lit (fst p)) = true /\ forallb attr_char (snd p) = true) ->
  attrs_good (map (fun p => (lit (fst p), snd p)) l).
Proof.
  intros N H. split; [rewrite map_map; exact N|]. intros p Hp. apply in_map_iff in Hp as (q & <- & Hq). exact (H q Hq).
Qed.
(** Decidable form for literal keys. *)
Fixpoint nodupb (l : list str) : bool := match l with [] => true | x :: r => negb (existsb (str_eqb x) r) && nodupb r end.
Lemma nodupb_ok l : nodupb l = true -> NoDup l.
Proof.
  induction l as [|x l IH]; [constructor|]. cbn [nodupb]. intros H. apply andb_prop in H as [H1 H2]. constructor; [|auto].
  intros Hi. apply negb_true_iff in H1. assert (existsb (str_eqb x) l = true); [|congruence].
  apply existsb_exists. exists x. split; [assumption|apply str_eqb_refl].
Qed.
Lemma attrs_check (l : list (str * str)) : nodupb (map fst l) = true ->
  Forall (fun p => good_name (fst p) = true /\ forallb attr_char (snd p) = true) l -> attrs_good l.
Proof. intros N F. split; [apply nodupb_ok; exact N|]. rewrite Forall_forall in F. exact F. Qed.

Lemma core_ok p : props_ok p -> wx_ok (core_xml p).
Proof.
  intros []. unfold core_xml. apply wx_ok_elem. split; [reflexivity|]. split.
  - apply attrs_check; [reflexivity|]. repeat (constructor; [split; reflexivity|]). constructor.
  - repeat (apply Forall_app; split); try (apply ok_data_opt; [reflexivity|assumption]).
    + constructor; [apply ok_data_only; [reflexivity|assumption]|constructor].
    + constructor; [apply ok_data_only; [reflexivity|assumption]|].
      constructor; [apply ok_data; [reflexivity| |assumption]|constructor; [apply ok_data; [reflexivity| |assumption]|constructor]];
      (apply attrs_one; reflexivity).
Qed.

(** The value last given by a setter, the initial one if none was called. *)
Definition last_given {A} (sel : doc_op -> option A) (d : A) (l : list doc_op) : A :=
  fold_left (fun a o => match sel o with Some x => x | None => a end) l d.
Definition op_texts (o : doc_op) : list str :=
  match o with
  | DTitle s | DSubject s | DManager s | DCompany s | DCategory s | DAuthor s | DKeywords s | DComment s | DStatus s | DBase s | DCreated s => [s]
  | DCustom n v => match v with CText s | CDate s => [s] | _ => [] end
  end.
Definition op_storable (o : doc_op) : Prop := Forall doc_text (op_texts o).

Definition sel_title o := match o with DTitle s => Some s | _ => None end.
Definition sel_subject o := match o with DSubject s => Some s | _ => None end.
Definition sel_manager o := match o with DManager s => Some s | _ => None end.
Definition sel_company o := match o with DCompany s => Some s | _ => None end.
Definition sel_category o := match o with DCategory s => Some s | _ => None end.
Definition sel_author o := match o with DAuthor s => Some s | _ => None end.
Definition sel_keywords o := match o with DKeywords s => Some s | _ => None end.
Definition sel_comment o := match o with DComment s => Some s | _ => None end.
Definition sel_status o := match o with DStatus s => Some s | _ => None end.
Definition sel_base o := match o with DBase s => Some s | _ => None end.
Definition sel_created o := match o with DCreated s => Some s | _ => None end.
Definition customs (l : list doc_op) : list (str * custom_value) :=
  flat_map (fun o => match o with DCustom n v => [(n, v)] | _ => [] end) l.

Lemma run_fields l : forall p, let q := fold_left doc_step l p in
  dp_title q = last_given sel_title (dp_title p) l /\ dp_subject q = last_given sel_subject (dp_subject p) l /\
  dp_manager q = last_given sel_manager (dp_manager p) l /\ dp_company q = last_given sel_company (dp_company p) l /\
  dp_category q = last_given sel_category (dp_category p) l /\ dp_author q = last_given sel_author (dp_author p) l /\
  dp_keywords q = last_given sel_keywords (dp_keywords p) l /\ dp_comment q = last_given sel_comment (dp_comment p) l /\
  dp_status q = last_given sel_status (dp_status p) l /\ dp_hyperlink_base q = last_given sel_base (dp_hyperlink_base p) l /\
  dp_created q = last_given sel_created (dp_created p) l /\
  map (fun c => (cu_name c, cu_value c)) (dp_custom q) = map (fun c => (cu_name c, cu_value c)) (dp_custom p) ++ customs l.
Proof.
  induction l as [|o l IH]; intros p; cbv zeta.
  - cbn. rewrite app_nil_r. tauto.
  - cbn [fold_left]. specialize (IH (doc_step p o)). cbv zeta in IH.
    destruct IH as (H1 & H2 & H3 & H4 & H5 & H6 & H7 & H8 & H9 & H10 & H11 & H12).
    rewrite H1, H2, H3, H4, H5, H6, H7, H8, H9, H10, H11, H12. unfold last_given, customs. cbn [fold_left flat_map].
    destruct p. destruct o; cbn -[fold_left]; rewrite ?map_app, ?app_nil_r; cbn [map]; rewrite <- ?app_assoc; cbn [app]; tauto.
Qed.
Lemma last_given_ok sel d l : doc_text d -> Forall op_storable l -> (forall o s, sel o = Some s -> In s (op_texts o)) -> doc_text (last_given sel d l).
Proof.
  unfold last_given. revert d. induction l as [|o l IH]; intros d D F H; [exact D|]. cbn [fold_left]. inversion F as [|? ? F1 F2]; subst.
  apply IH; [|assumption|assumption]. destruct (sel o) as [s|] eqn:E; [|assumption]. apply H in E. unfold op_storable in F1.
  rewrite Forall_forall in F1. apply F1. assumption.
Qed.
Lemma run_ok now l : doc_text now -> Forall op_storable l -> props_ok (doc_run now l).
Proof.
  intros D F. pose proof (run_fields l (docprops_new now)) as H. cbv zeta in H.
  destruct H as (H1 & H2 & H3 & H4 & H5 & H6 & H7 & H8 & H9 & H10 & H11 & _). unfold doc_run.
  constructor; rewrite ?H1, ?H2, ?H3, ?H4, ?H5, ?H6, ?H7, ?H8, ?H9, ?H10, ?H11; (apply last_given_ok; [first [assumption|reflexivity]|assumption|]);
  intros o s; destruct o; cbn; try discriminate; intros [= <-]; left; reflexivity.
Qed.

Lemma prop_lk k n l kids : prop k (Elem n l kids) = lk k kids. Proof. reflexivity. Qed.
Ltac props := rewrite ?prop_lk, ?map_app; cbn [map app]; unfold data_only; rewrite <- ?app_assoc; cbn [app].

Lemma core_props p : props_ok p -> exists t, read_document (document (core_xml p)) = Some t /\
  is_elem "cp:coreProperties" t = true /\
  prop "dc:title" t = Some (dp_title p) /\ prop "dc:subject" t = Some (dp_subject p) /\ prop "dc:creator" t = Some (dp_author p) /\
  prop "cp:keywords" t = Some (dp_keywords p) /\ prop "dc:description" t = Some (dp_comment p) /\
  prop "cp:lastModifiedBy" t = Some (dp_author p) /\ prop "dcterms:created" t = Some (dp_created p) /\
  prop "dcterms:modified" t = Some (dp_created p) /\ prop "cp:category" t = Some (dp_category p) /\ prop "cp:contentStatus" t = Some (dp_status p).
Proof.
  intros P. eexists. split; [apply document_reads, core_ok; exact P|]. destruct P. cbn [node_of core_xml]. split; [reflexivity|].
  props. rewrite <- (app_nil_r (map node_of (data_opt "cp:contentStatus" _))).
  repeat match goal with |- _ /\ _ => split end; lks; first [reflexivity|lk_done].
Qed.

(** Each property element occurs at most once. *)
Definition elem_name (n : node) : str := match n with Elem k _ _ => k | Txt _ => [] end.
Lemma core_once p t : props_ok p -> read_document (document (core_xml p)) = Some t -> NoDup (map elem_name (kids_of t)).
Proof.
  intros P H. rewrite document_reads in H by (apply core_ok; exact P). assert (t = node_of (core_xml p)) by congruence. subst t.
  cbn [node_of core_xml kids_of]. rewrite !map_app. cbn [map].
  unfold data_opt, when. apply nodupb_ok.
  destruct (nonempty (dp_title p)), (nonempty (dp_subject p)), (nonempty (dp_keywords p)), (nonempty (dp_comment p)), (nonempty (dp_category p)), (nonempty (dp_status p)); reflexivity.
Qed.

(** C57: the values last given to the setters come back from core.xml; a value
    never given reads as empty, the author is both creator and last modifier and
    the creation time (given, or the time of the call) both dates. *)
Theorem C57_core_properties now ops : doc_text now -> Forall op_storable ops ->
  exists t, read_document (document (core_xml (doc_run now ops))) = Some t /\
    NoDup (map elem_name (kids_of t)) /\
    prop "dc:title" t = Some (last_given sel_title [] ops) /\
    prop "dc:subject" t = Some (last_given sel_subject [] ops) /\
    prop "dc:creator" t = Some (last_given sel_author [] ops) /\
    prop "cp:keywords" t = Some (last_given sel_keywords [] ops) /\
    prop "dc:description" t = Some (last_given sel_comment [] ops) /\
    prop "cp:lastModifiedBy" t = Some (last_given sel_author [] ops) /\
    prop "dcterms:created" t = Some (last_given sel_created now ops) /\
    prop "dcterms:modified" t = Some (last_given sel_created now ops) /\
    prop "cp:category" t = Some (last_given sel_category [] ops) /\
    prop "cp:contentStatus" t = Some (last_given sel_status [] ops).
Proof.
  intros D F. pose proof (run_ok now ops D F) as P. destruct (core_props _ P) as (t & E & _ & K). exists t. split; [exact E|].
  split; [exact (core_once _ t P E)|]. pose proof (run_fields ops (docprops_new now)) as H. cbv zeta in H. fold (doc_run now ops) in H.
  destruct H as (H1 & H2 & H3 & H4 & H5 & H6 & H7 & H8 & H9 & H10 & H11 & _). cbn [docprops_new dp_title dp_subject dp_manager dp_company dp_category dp_author dp_keywords dp_comment dp_status dp_hyperlink_base dp_created] in *.
  rewrite H1, H2, H5, H6, H7, H8, H9, H11 in K. exact K.
Qed.

(** ** custom.xml *)
Definition custom_read (num_text : f64 -> str) (v : custom_value) : read_custom :=
  match v with CText s => RText s | CInt z => RInt z | CReal x => RReal (num_text x) | CBool b => RBool b | CDate s => RDate s end.
Definition name_storable (n : str) : Prop := forallb attr_char n = true.
Definition custom_storable (c : str * custom_value) : Prop :=
  name_storable (fst c) /\ match snd c with CText s | CDate s => doc_text s | _ => True end.
Lemma int_doc z : doc_text (int_text z).
Proof.
  unfold int_text. destruct (z <? 0)%Z; [|apply dec_doc]. apply doc_simple. cbn [forallb]. rewrite dec_simple. reflexivity.
Qed.
Lemma int_reads z : int_of (int_text z) = Some z.
Proof.
  unfold int_text. destruct (Z.ltb_spec z 0).
  - cbn [int_of]. rewrite number_of_dec. cbn [bind]. f_equal. lia.
  - assert (E : int_of (dec (Z.to_N z)) = bind (number_of (dec (Z.to_N z))) (fun n => Some (Z.of_N n))).
    { pose proof (dec_simple (Z.to_N z)) as S. pose proof (dec_spec (Z.to_N z)) as D. destruct D as (D1 & D2 & D3). destruct (dec (Z.to_N z)) as [|c r]; [congruence|].
      cbn [forallb] in D1. unfold is_ascii_digit in D1. unfold int_of. destruct (N.eq_dec c 45) as [->|Hc]; [cbn in D1; discriminate|].
      destruct c as [|q]; [reflexivity|]. do 6 (destruct q as [q|q|]; try reflexivity). exfalso. apply Hc. reflexivity. }
    rewrite E, number_of_dec. cbn [bind]. f_equal. lia.
Qed.
Section Custom.
  Variable num_text : f64 -> str.
  Hypothesis num_simple : forall x, forallb simple (num_text x) = true.
  Lemma custom_value_reads v : match v with CText s | CDate s => doc_text s | _ => True end ->
    wx_ok (custom_value_xml num_text v) /\ custom_value_of (node_of (custom_value_xml num_text v)) = Some (custom_read num_text v).
  Proof.
    intros H. destruct v as [s|z|x|b|s]; cbn [custom_value_xml]; unfold data_only.
    - split; [apply ok_data_only; [reflexivity|assumption]|]. rewrite node_data by assumption. unfold custom_value_of. rewrite text_leaf. reflexivity.
    - split; [apply ok_data_only; [reflexivity|apply int_doc]|]. rewrite node_data by apply int_doc. unfold custom_value_of. rewrite text_leaf. cbn [bind].
      change (bind (int_of (int_text z)) (fun z0 => Some (RInt z0)) = Some (RInt z)). rewrite int_reads. reflexivity.
    - assert (D : doc_text (num_text x)) by (apply doc_simple, num_simple).
      split; [apply ok_data_only; [reflexivity|assumption]|]. rewrite node_data by assumption. unfold custom_value_of. rewrite text_leaf. reflexivity.
    - split; [apply ok_data_only; [reflexivity|destruct b; reflexivity]|]. destruct b; reflexivity.
    - split; [apply ok_data_only; [reflexivity|assumption]|]. rewrite node_data by assumption. unfold custom_value_of. rewrite text_leaf. reflexivity.
  Qed.
  Fixpoint numbered (pid : N) (l : list (str * custom_value)) : list (N * str * read_custom) :=
    match l with [] => [] | (n, v) :: r => (pid, n, custom_read num_text v) :: numbered (pid + 1) r end.
  Lemma customs_read l : forall pid, Forall custom_storable (map (fun c => (cu_name c, cu_value c)) l) ->
    Forall wx_ok (custom_props_xml num_text pid l) /\
    read_all custom_of (map node_of (custom_props_xml num_text pid l)) = Some (numbered pid (map (fun c => (cu_name c, cu_value c)) l)).
  Proof.
    induction l as [|c l IH]; intros pid F; [split; [constructor|reflexivity]|]. cbn [map] in F. inversion F as [|? ? [F1 F2] F3]; subst.
    destruct (IH (pid + 1) F3) as [I1 I2]. cbn [fst snd] in F1, F2. destruct (custom_value_reads _ F2) as [V1 V2].
    cbn [custom_props_xml map numbered]. split.
    - constructor; [|exact I1]. apply wx_ok_elem. split; [reflexivity|]. split; [|constructor; [exact V1|constructor]].
      apply attrs_check; [reflexivity|]. constructor; [split; reflexivity|]. constructor; [split; [reflexivity|apply dec_attr]|].
      constructor; [split; [reflexivity|exact F1]|constructor].
    - cbn [read_all node_of map]. unfold custom_of at 1. change (str_eqb (lit "property") (lit "property")) with true. cbv iota.
      change (attr "pid" [(lit "fmtid", lit "{D5CDD505-2E9C-101B-9397-08002B2CF9AE}"); (lit "pid", dec pid); (lit "name", cu_name c)]) with (Some (dec pid)).
      change (attr "name" [(lit "fmtid", lit "{D5CDD505-2E9C-101B-9397-08002B2CF9AE}"); (lit "pid", dec pid); (lit "name", cu_name c)]) with (Some (cu_name c)).
      cbn [bind]. rewrite number_of_dec. cbn [bind]. rewrite V2. cbn [bind]. rewrite I2. reflexivity.
  Qed.
  (** C57: every custom property comes back, in order, numbered 2, 3, ..., with
      the type and value given. *)
  Theorem C57_custom_properties now ops : Forall custom_storable (customs ops) ->
    exists t, read_document (document (custom_xml num_text (doc_run now ops))) = Some t /\ is_elem "Properties" t = true /\
      read_all custom_of (kids_of t) = Some (numbered 2 (customs ops)).
  Proof.
    intros F. pose proof (run_fields ops (docprops_new now)) as H. cbv zeta in H. fold (doc_run now ops) in H.
    destruct H as (_ & _ & _ & _ & _ & _ & _ & _ & _ & _ & _ & H). cbn [docprops_new dp_custom map app] in H. rewrite <- H in *.
    destruct (customs_read _ 2 F) as [A B]. eexists. split.
    - apply document_reads. apply wx_ok_elem. split; [reflexivity|]. split; [|exact A].
      apply attrs_check; [reflexivity|]. repeat (constructor; [split; reflexivity|]). constructor.
    - split; [reflexivity|]. exact B.
  Qed.

  (** C57: a date and time with whole seconds is stored as YYYY-MM-DDThh:mm:ssZ. *)
  Lemma pad2_two n : n < 100 -> exists a b, pad2 (dec n) = [a; b] /\ two a b = Some n.
  Proof.
    intros H. assert (K : forallb (fun k => match pad2 (dec (N.of_nat k)) with [a; b] => match two a b with Some v => v =? N.of_nat k | None => false end | _ => false end) (seq 0 100) = true) by (vm_compute; reflexivity).
    rewrite forallb_forall in K. specialize (K (N.to_nat n)). rewrite N2Nat.id in K.
    assert (I : In (N.to_nat n) (seq 0 100)) by (apply in_seq; lia). specialize (K I).
    destruct (pad2 (dec n)) as [|a [|b [|]]]; try discriminate. exists a, b. split; [reflexivity|].
    destruct (two a b) as [v|]; [|discriminate]. apply N.eqb_eq in K. congruence.
  Qed.
  Lemma digits_ge s : forall a, a <= digits_value a s.
  Proof. induction s as [|c s IH]; intros a; cbn [digits_value]; [lia|]. specialize (IH (10 * a + (c - 48))). lia. Qed.
  Lemma dec_four n : 1000 <= n < 10000 -> exists a b c d, dec n = [a; b; c; d].
  Proof.
    intros H. destruct (dec_spec n) as (D1 & D2 & D3 & D4). specialize (D3 ltac:(lia)).
    destruct (dec n) as [|a [|b [|c [|d [|e r]]]]]; [congruence| | | | |].
    1-3: exfalso; cbn [digits_value forallb] in *; unfold is_ascii_digit in *; lia.
    - do 4 eexists. reflexivity.
    - exfalso. cbn [digits_value hd forallb] in *. unfold is_ascii_digit in D1.
      match type of D4 with digits_value ?x r = _ => pose proof (digits_ge r x) end. lia.
  Qed.
  Theorem C57_dates_stored_partial y mo d h mi s dt dt' :
    from_ymd y mo d = Some (Ok dt) -> and_hms dt h mi (f_of_N s) = Ok dt' -> h < 24 -> s < 60 -> num_text (f_of_N s) = dec s ->
    read_w3c (to_rfc3339 num_text dt') = Some (y, mo, d, (h, mi, s)).
  Proof.
    unfold from_ymd. destruct (validate_ymd y mo d) as [[u|]|] eqn:V; cbn [obind]; try discriminate. intros E. assert (dt = MkDT y mo d 0 0 fzero None DateOnly) by congruence. subst dt. clear E.
    unfold and_hms. destruct (validate_hms mi (f_of_N s)) eqn:W; [|discriminate]. intros E. injection E as <-. intros Hh Hs Hn.
    unfold to_rfc3339. cbn [year month day hour minute sec]. rewrite Hn.
    assert (B : 1000 <= y < 10000 /\ mo < 100 /\ d < 100).
    { clear - V. unfold validate_ymd in V. destruct (_ || _) eqn:Y in V; [discriminate|]. destruct (negb _) eqn:M in V; [discriminate|].
      destruct (nth_error _ _) as [ml|] eqn:X; [|discriminate]. destruct (_ || _) eqn:D in V; [discriminate|].
      apply nth_error_In in X. assert (ml <= 31). { unfold months in X. destruct (_ || _) in X; cbn [In] in X; lia. } lia. }
    assert (Hmi : mi < 100) by (unfold validate_hms in W; destruct (60 <? mi) eqn:X; [discriminate|]; lia).
    destruct B as (By & Bm & Bd). destruct (dec_four y By) as (y1 & y2 & y3 & y4 & Ey).
    destruct (pad2_two mo Bm) as (m1 & m2 & -> & Em). destruct (pad2_two d Bd) as (d1 & d2 & -> & Ed).
    destruct (pad2_two h ltac:(lia)) as (h1 & h2 & -> & Eh). destruct (pad2_two mi Hmi) as (i1 & i2 & -> & Ei).
    destruct (pad2_two s ltac:(lia)) as (s1 & s2 & -> & Es).
    pose proof (number_of_dec y) as Ny. rewrite Ey in *. cbn [app]. unfold read_w3c. rewrite Ny, Em, Ed, Eh, Ei, Es. reflexivity.
  Qed.
End Custom.

(** Finding: a date given as a serial number has no calendar fields, so a
    creation date or custom property made from it is stored as no date at all. *)
Theorem C57_serial_date_lost_refuted : exists x dt, from_serial_datetime x = Ok dt /\
  to_rfc3339 (fun _ => lit "0") dt = lit "0-00-00T00:00:00Z" /\ read_w3c (to_rfc3339 (fun _ => lit "0") dt) = None.
Proof. exists (f_of_N 45000). eexists. split; [vm_compute; reflexivity|]. split; vm_compute; reflexivity. Qed.

(** ** app.xml *)
Lemma read_all_map {A B C} (f : B -> option C) (g : A -> B) (h : A -> C) l :
  (forall x, In x l -> f (g x) = Some (h x)) -> read_all f (map g l) = Some (map h l).
Proof.
  induction l as [|x l IH]; intros H; [reflexivity|]. cbn [map read_all]. rewrite H by (left; reflexivity). cbn [bind].
  rewrite IH by (intros; apply H; right; assumption). reflexivity.
Qed.
Lemma pairs_length l : length (flat_map pair_xml l) = (length l * 2)%nat.
Proof. induction l as [|p l IH]; [reflexivity|]. cbn [flat_map pair_xml app length]. rewrite IH. reflexivity. Qed.
Lemma pairs_read l : Forall (fun p => doc_text (fst p)) l -> read_pairs (map node_of (flat_map pair_xml l)) = Some l.
Proof.
  induction l as [|[k n] l IH]; intros F; [reflexivity|]. inversion F as [|? ? F1 F2]; subst. cbn [fst] in F1.
  cbn [flat_map pair_xml app map]. unfold data_only. cbn [node_of map fst snd]. fold (node_of (WData (lit "vt:lpstr") k [])). fold (node_of (WData (lit "vt:i4") (dec n) [])).
  change (Elem (lit "vt:lpstr") [] match k with [] => [] | _ => [Txt (data_text k)] end) with (node_of (WData (lit "vt:lpstr") k [])).
  change (Elem (lit "vt:i4") [] match dec n with [] => [] | _ => [Txt (data_text (dec n))] end) with (node_of (WData (lit "vt:i4") (dec n) [])).
  rewrite !node_data by (assumption || apply dec_doc). cbn [read_pairs]. rewrite (IH F2).
  assert (V : forall tag s, variant tag (Elem (lit "vt:variant") [] [Elem (lit tag) [] (leaf s)]) = Some s).
  { intros tag s. unfold variant. change (is_elem "vt:variant" (Elem (lit "vt:variant") [] [Elem (lit tag) [] (leaf s)])) with true. cbv iota. cbn [kids_of].
    unfold read_leaf, is_elem. rewrite str_eqb_refl. apply text_leaf. }
  rewrite !V. cbn [bind]. rewrite number_of_dec. reflexivity.
Qed.
Lemma pairs_ok l : Forall (fun p => doc_text (fst p)) l -> Forall wx_ok (flat_map pair_xml l).
Proof.
  induction l as [|[k n] l IH]; intros F; [constructor|]. inversion F as [|? ? F1 F2]; subst. cbn [flat_map pair_xml app].
  constructor; [|constructor; [|apply IH; assumption]]; apply wx_ok_elem; (split; [reflexivity|]); (split; [apply attrs_nil|]);
  (constructor; [|constructor]); apply ok_data_only; try reflexivity; [exact F1|apply dec_doc].
Qed.
Lemma app_ok sec p pairs tit : props_ok p -> Forall (fun p => doc_text (fst p)) pairs -> Forall doc_text tit -> wx_ok (app_xml sec p pairs tit).
Proof.
  intros [] FP FT. unfold app_xml. apply wx_ok_elem. split; [reflexivity|]. split.
  - apply attrs_check; [reflexivity|]. repeat (constructor; [split; reflexivity|]). constructor.
  - assert (VA : forall n b, forallb attr_char (lit b) = true -> attrs_good [(lit "size", dec n); (lit "baseType", lit b)]).
    { intros n b Hb. apply attrs_check; [reflexivity|]. constructor; [split; [reflexivity|apply dec_attr]|]. constructor; [split; [reflexivity|exact Hb]|constructor]. }
    repeat (apply Forall_app; split); try (apply ok_data_opt; [reflexivity|assumption]).
    + constructor; [apply ok_data_only; reflexivity|]. constructor; [apply ok_data_only; [reflexivity|apply dec_doc]|].
      constructor; [apply ok_data_only; reflexivity|].
      constructor; [|constructor; [|constructor]]; apply wx_ok_elem; (split; [reflexivity|]); (split; [apply attrs_nil|]); (constructor; [|constructor]);
      apply wx_ok_elem; (split; [reflexivity|]); (split; [apply VA; reflexivity|]); [apply pairs_ok; assumption|].
      apply Forall_forall. intros x Hx. apply in_map_iff in Hx as (s & <- & Hs). apply ok_data_only; [reflexivity|]. rewrite Forall_forall in FT. auto.
    + repeat (constructor; [apply ok_data_only; [reflexivity|first [assumption|reflexivity]]|]). constructor.
    + repeat (constructor; [apply ok_data_only; reflexivity|]). constructor.
Qed.

Lemma filter_le {A} (f : A -> bool) l : (length (filter f l) <= length l)%nat.
Proof. induction l as [|x l IH]; [reflexivity|]. cbn [filter]. destruct (f x); cbn [length]; lia. Qed.

(** What the list of titles should be: worksheets, then chartsheets, then defined
    names; very hidden sheets are not listed. *)
Definition shown_sheets (chart : bool) (l : list bsheet) : list str :=
  map b_name (filter (fun s => Bool.eqb (b_chartsheet s) chart && negb (match b_visible s with VVeryHidden => true | _ => false end)) l).
Definition group (name : string) (l : list str) : list (str * N) := match l with [] => [] | _ => [(lit name, N.of_nat (length l))] end.

Lemma pair_group k l : pair_opt k (N.of_nat (length l)) = group k l.
Proof. destruct l as [|x l]; [reflexivity|]. unfold pair_opt, group, Rich_Model.when. destruct (N.ltb_spec 0 (N.of_nat (length (x :: l)))) as [|H]; [reflexivity|]. cbn [length] in H. lia. Qed.
Lemma count16_small m n : n < 65536 -> count16 m n = Some n.
Proof. intros H. unfold count16, as_u16. destruct m; [destruct (N.ltb_spec n 65536); [reflexivity|lia]|]. rewrite N.mod_small by assumption. reflexivity. Qed.

Lemma app_reads sec p pairs tit : props_ok p -> Forall (fun p => doc_text (fst p)) pairs -> Forall doc_text tit ->
  exists t, read_document (document (app_xml sec p pairs tit)) = Some t /\
    heading_pairs t = Some pairs /\ titles t = Some tit /\
    prop "DocSecurity" t = Some (dec sec) /\ prop "Manager" t = Some (dp_manager p) /\ prop "Company" t = Some (dp_company p) /\
    prop "HyperlinkBase" t = Some (dp_hyperlink_base p).
Proof.
  intros P FP FT. eexists. split; [apply document_reads, app_ok; assumption|]. split; [|split].
  - unfold heading_pairs, vector.
    match goal with |- context [kid "HeadingPairs" ?l] => change (kid "HeadingPairs" l) with (Some (node_of (WElem (lit "HeadingPairs") []
        [WElem (lit "vt:vector") [(lit "size", dec (N.of_nat (length pairs) * 2)); (lit "baseType", lit "variant")] (flat_map pair_xml pairs)]))) end.
    cbn [bind node_of map kids_of]. change (str_eqb (lit "vt:vector") (lit "vt:vector")) with true. cbv iota.
    change (attr "size" [(lit "size", dec (N.of_nat (length pairs) * 2)); (lit "baseType", lit "variant")]) with (Some (dec (N.of_nat (length pairs) * 2))).
    change (attr "baseType" [(lit "size", dec (N.of_nat (length pairs) * 2)); (lit "baseType", lit "variant")]) with (Some (lit "variant")).
    cbn [bind]. rewrite number_of_dec. cbn [bind]. rewrite map_length, pairs_length, str_eqb_refl.
    assert (E : (N.of_nat (length pairs) * 2 =? N.of_nat (length pairs * 2)) = true) by (apply N.eqb_eq; lia). rewrite E. cbn [andb bind].
    apply pairs_read. exact FP.
  - unfold titles, vector.
    match goal with |- context [kid "TitlesOfParts" ?l] => change (kid "TitlesOfParts" l) with (Some (node_of (WElem (lit "TitlesOfParts") []
        [WElem (lit "vt:vector") [(lit "size", dec (N.of_nat (length tit))); (lit "baseType", lit "lpstr")] (map (data_only "vt:lpstr") tit)]))) end.
    cbn [bind node_of map kids_of]. change (str_eqb (lit "vt:vector") (lit "vt:vector")) with true. cbv iota.
    change (attr "size" [(lit "size", dec (N.of_nat (length tit))); (lit "baseType", lit "lpstr")]) with (Some (dec (N.of_nat (length tit)))).
    change (attr "baseType" [(lit "size", dec (N.of_nat (length tit))); (lit "baseType", lit "lpstr")]) with (Some (lit "lpstr")).
    cbn [bind]. rewrite number_of_dec. cbn [bind]. rewrite !map_length, str_eqb_refl, N.eqb_refl. cbn [andb bind]. rewrite map_map.
    rewrite (read_all_map _ _ (fun s => s)); [rewrite map_id; reflexivity|]. intros s Hs. unfold data_only. rewrite Forall_forall in FT.
    rewrite node_data by auto. unfold read_leaf, is_elem. rewrite str_eqb_refl. apply text_leaf.
  - destruct P. cbn [app_xml node_of]. props.
    assert (D : doc_text (dec sec)) by apply dec_doc.
    repeat match goal with |- _ /\ _ => split end; lks; first [reflexivity|lk_done].
Qed.

(** C56: whatever the history, the saved docProps/app.xml lists the worksheets,
    then the chartsheets (very hidden ones left out), then the defined names; the
    heading pairs name the non-empty groups with their exact sizes. *)
Theorem C56_app_titles m o b b' f sec now ops : save_book m o b = Some (b', SaveOk f) ->
  doc_text now -> Forall op_storable ops ->
  Forall (fun s => doc_text (b_name s)) (k_sheets b') -> Forall doc_text (bf_app_names f) ->
  N.of_nat (length (k_sheets b')) < 65536 -> N.of_nat (length (bf_app_names f)) < 65536 ->
  exists pairs t, app_pairs m f = Some pairs /\
    read_document (document (app_xml sec (doc_run now ops) pairs (app_titles f))) = Some t /\
    let ws := shown_sheets false (k_sheets b') in let cs := shown_sheets true (k_sheets b') in
    titles t = Some (ws ++ cs ++ bf_app_names f) /\
    heading_pairs t = Some (group "Worksheets" ws ++ group "Charts" cs ++ group "Named Ranges" (bf_app_names f)).
Proof.
  intros H D F FN FA L1 L2. apply save_ok_inv in H as (b1 & own & l & _ & _ & _ & _ & _ & -> & Hw). cbn [k_sheets] in *.
  assert (Es : bf_app_sheets f = shown_sheets false (k_sheets b1) /\ bf_app_charts f = shown_sheets true (k_sheets b1)).
  { unfold write_book in Hw. match type of Hw with obind ?e _ = _ => destruct e as [x|] end; cbn [obind] in Hw; [|discriminate]. injection Hw as <-. cbn [bf_app_sheets bf_app_charts k_sheets].
    unfold shown_sheets, listed. split; f_equal; apply filter_ext; intros s; destruct (b_chartsheet s), (b_visible s); reflexivity. }
  destruct Es as [E1 E2].
  assert (Ln : forall c, N.of_nat (length (shown_sheets c (k_sheets b1))) < 65536).
  { intros c. unfold shown_sheets. rewrite map_length. pose proof (filter_le (fun s => Bool.eqb (b_chartsheet s) c && negb (match b_visible s with VVeryHidden => true | _ => false end)) (k_sheets b1)). lia. }
  assert (Ft : forall c, Forall doc_text (shown_sheets c (k_sheets b1))).
  { intros c. unfold shown_sheets. apply Forall_forall. intros x Hx. apply in_map_iff in Hx as (s & <- & Hs). apply filter_In in Hs as [Hs _].
    rewrite Forall_forall in FN. auto. }
  exists (group "Worksheets" (bf_app_sheets f) ++ group "Charts" (bf_app_charts f) ++ group "Named Ranges" (bf_app_names f)).
  assert (EP : app_pairs m f = Some (group "Worksheets" (bf_app_sheets f) ++ group "Charts" (bf_app_charts f) ++ group "Named Ranges" (bf_app_names f))).
  { unfold app_pairs. rewrite !count16_small by (rewrite ?E1, ?E2; apply Ln). cbn [obind]. rewrite !pair_group. do 3 f_equal.
    destruct (bf_app_names f) as [|x r] eqn:E; [reflexivity|]. unfold as_u16. rewrite N.mod_small by exact L2. apply pair_group. }
  assert (Gp : forall k (l : list str), doc_text (lit k) -> Forall (fun p : str * N => doc_text (fst p)) (group k l)).
  { intros k l0 Hk. destruct l0; constructor; [exact Hk|constructor]. }
  destruct (app_reads sec (doc_run now ops) (group "Worksheets" (bf_app_sheets f) ++ group "Charts" (bf_app_charts f) ++ group "Named Ranges" (bf_app_names f)) (app_titles f)) as (t & T1 & T2 & T3 & _).
  - apply run_ok; assumption.
  - repeat (apply Forall_app; split); apply Gp; reflexivity.
  - unfold app_titles. rewrite E1, E2. repeat (apply Forall_app; split); [apply Ft|apply Ft|assumption].
  - exists t. split; [exact EP|]. split; [exact T1|]. cbv zeta. rewrite T2, T3. unfold app_titles. rewrite E1, E2. split; reflexivity.
Qed.
(** C57, the rest: company, manager and hyperlink base come back from app.xml. *)
Theorem C57_app_properties sec now ops pairs tit : doc_text now -> Forall op_storable ops ->
  Forall (fun p => doc_text (fst p)) pairs -> Forall doc_text tit ->
  exists t, read_document (document (app_xml sec (doc_run now ops) pairs tit)) = Some t /\
    prop "DocSecurity" t = Some (dec sec) /\
    prop "Manager" t = Some (last_given sel_manager [] ops) /\ prop "Company" t = Some (last_given sel_company [] ops) /\
    prop "HyperlinkBase" t = Some (last_given sel_base [] ops).
Proof.
  intros D F A B. destruct (app_reads sec _ _ _ (run_ok now ops D F) A B) as (t & T & _ & _ & T1 & T2 & T3 & T4).
  exists t. split; [exact T|]. pose proof (run_fields ops (docprops_new now)) as H. cbv zeta in H. fold (doc_run now ops) in H.
  destruct H as (_ & _ & H3 & H4 & _ & _ & _ & _ & _ & H10 & _). cbn [docprops_new dp_manager dp_company dp_hyperlink_base] in *.
  rewrite H3 in T2. rewrite H4 in T3. rewrite H10 in T4. auto.
Qed.

(** ** xl/workbook.xml *)
Definition state_read (v : visible) : state := match v with VDefault => Shown | VHidden => Hidden | VVeryHidden => VeryHidden end.
Definition sheet_read (e : sheet_entry) : fsheet :=
  {| fs_name := se_name e; fs_id := se_id e; fs_state := state_read (se_state e); fs_rel := lit "rId" ++ dec (se_rid e) |}.
Definition name_read (e : name_entry) : fname :=
  {| fn_name := ne_name e; fn_local := ne_local e; fn_hidden := ne_hidden e; fn_text := ne_range e |}.
Lemma rid_attr n : forallb attr_char (lit "rId" ++ dec n) = true.
Proof. rewrite forallb_app, dec_attr. reflexivity. Qed.
Lemma sheet_reads e : name_storable (se_name e) -> wx_ok (sheet_xml e) /\ read_sheet (node_of (sheet_xml e)) = Some (sheet_read e).
Proof.
  intros Hn. unfold sheet_xml. split.
  - split; [reflexivity|]. apply attrs_check; [destruct (se_state e); reflexivity|].
    constructor; [split; [reflexivity|exact Hn]|]. constructor; [split; [reflexivity|apply dec_attr]|].
    destruct (se_state e); cbn [app]; repeat (constructor; [split; [reflexivity|first [apply rid_attr|reflexivity]]|]); constructor.
  - cbn [node_of]. unfold read_sheet. change (str_eqb (lit "sheet") (lit "sheet")) with true. cbv iota.
    destruct e as [nm id st rid]. cbn [se_name se_id se_state se_rid]. unfold sheet_read. cbn [se_name se_id se_state se_rid].
    destruct st; cbn [app];
    match goal with |- context [attr "name" ?l] => change (attr "name" l) with (Some nm); change (attr "sheetId" l) with (Some (dec id));
      change (attr "r:id" l) with (Some (lit "rId" ++ dec rid));
      first [change (state_of l) with (Some Shown) | change (state_of l) with (Some Hidden) | change (state_of l) with (Some VeryHidden)] end;
    cbn [bind]; rewrite number_of_dec; reflexivity.
Qed.
Lemma name_reads e : name_storable (ne_name e) -> doc_text (ne_range e) -> wx_ok (name_xml e) /\ read_name (node_of (name_xml e)) = Some (name_read e).
Proof.
  intros Hn D. destruct e as [nm lo hi rg]. cbn [ne_name ne_range] in Hn, D. unfold name_xml, name_read. cbn [ne_name ne_local ne_hidden ne_range]. split.
  - apply ok_data; [reflexivity| |assumption]. apply attrs_check; [destruct lo, hi; reflexivity|].
    constructor; [split; [reflexivity|exact Hn]|]. apply Forall_app. split.
    + destruct lo; constructor; [split; [reflexivity|apply dec_attr]|constructor].
    + destruct hi; constructor; [split; reflexivity|constructor].
  - rewrite node_data by assumption. unfold read_name. cbn [is_elem]. change (str_eqb (lit "definedName") (lit "definedName")) with true. cbv iota. cbn [attrs_of].
    rewrite text_leaf.
    destruct lo as [i|], hi; cbn [app Rich_Model.when];
    match goal with |- context [attr "name" ?l] => change (attr "name" l) with (Some nm);
      first [change (flag_of "hidden" l) with true | change (flag_of "hidden" l) with false] end; cbn [bind];
    match goal with |- context [opt_number "localSheetId" ?l] =>
      first [change (opt_number "localSheetId" l) with (Some (@None N)) | change (opt_number "localSheetId" l) with (bind (number_of (dec i)) (fun n => Some (Some n)))] end;
    rewrite ?number_of_dec; reflexivity.
Qed.
Definition extra_ok (x : book_extra) : Prop := match x_vba x with Some n => name_storable n | None => True end.
Lemma workbook_ok x f : extra_ok x -> Forall (fun e => name_storable (se_name e)) (bf_sheets f) ->
  Forall (fun e => name_storable (ne_name e) /\ doc_text (ne_range e)) (bf_names f) -> wx_ok (workbook_xml x f).
Proof.
  intros X S Hn. unfold workbook_xml. apply wx_ok_elem. split; [reflexivity|]. split.
  - apply attrs_check; [reflexivity|]. repeat (constructor; [split; reflexivity|]). constructor.
  - repeat (apply Forall_app; split).
    + constructor; [|constructor]. split; [reflexivity|]. apply attrs_check; [destruct (x_xlsm x); reflexivity|].
      destruct (x_xlsm x); repeat (constructor; [split; reflexivity|]); constructor.
    + apply when_forall. intros _. constructor; [|constructor]. split; [reflexivity|]. apply attrs_one; reflexivity.
    + constructor; [|constructor; [|constructor; [|constructor]]].
      * split; [reflexivity|]. unfold extra_ok in X. destruct (x_vba x) as [n|]; cbn [app]; [|apply attrs_one; reflexivity].
        apply attrs_check; [reflexivity|]. constructor; [split; [reflexivity|exact X]|]. constructor; [split; reflexivity|constructor].
      * apply wx_ok_elem. split; [reflexivity|]. split; [apply attrs_nil|]. constructor; [|constructor]. split; [reflexivity|].
        apply attrs_check; [destruct (bf_first f), (bf_active f); reflexivity|].
        repeat (apply Forall_app; split).
        -- repeat (constructor; [split; reflexivity|]). constructor.
        -- destruct (bf_first f); constructor; [split; [reflexivity|apply dec_attr]|constructor].
        -- destruct (bf_active f); constructor; [split; [reflexivity|apply dec_attr]|constructor].
      * apply wx_ok_elem. split; [reflexivity|]. split; [apply attrs_nil|]. apply Forall_forall. intros y Hy. apply in_map_iff in Hy as (e & <- & He).
        rewrite Forall_forall in S. apply sheet_reads. auto.
    + destruct (bf_names f) as [|n0 l] eqn:E; [constructor|]. rewrite <- E in *. constructor; [|constructor].
      apply wx_ok_elem. split; [reflexivity|]. split; [apply attrs_nil|]. apply Forall_forall. intros y Hy. apply in_map_iff in Hy as (e & <- & He).
      rewrite Forall_forall in Hn. destruct (Hn e He). apply name_reads; assumption.
    + constructor; [|constructor]. split; [reflexivity|]. apply attrs_check; [reflexivity|]. repeat (constructor; [split; reflexivity|]). constructor.
Qed.
Lemma kid_when k b n r : is_elem k (node_of n) = false -> kid k (map node_of (Rich_Model.when b [n]) ++ r) = kid k r.
Proof. intros H. destruct b; [|reflexivity]. cbn [Rich_Model.when map app]. unfold kid. cbn [find]. rewrite H. reflexivity. Qed.

Lemma workbook_reads x f : extra_ok x -> Forall (fun e => name_storable (se_name e)) (bf_sheets f) ->
  Forall (fun e => name_storable (ne_name e) /\ doc_text (ne_range e)) (bf_names f) ->
  exists t, read_document (document (workbook_xml x f)) = Some t /\ is_elem "workbook" t = true /\
    read_sheets t = Some (map sheet_read (bf_sheets f)) /\ read_names t = Some (map name_read (bf_names f)) /\
    read_view t = Some (bf_first f, bf_active f).
Proof.
  intros X S Hn. eexists. split; [apply document_reads, workbook_ok; assumption|]. split; [reflexivity|].
  unfold read_sheets, read_names, read_view. cbn [workbook_xml node_of kids_of]. rewrite !map_app. cbn [map].
  split; [|split].
  - rewrite !kid_app. change (kid "sheets" [node_of (WEmpty (lit "fileVersion") ([(lit "appName", lit "xl"); (lit "lastEdited", lit "4"); (lit "lowestEdited", lit "4"); (lit "rupBuild", lit "4505")] ++ Rich_Model.when (x_xlsm x) [(lit "codeName", lit "{37E998C4-C9E5-D4B9-71C8-EB1FF731991C}")]))]) with (@None node).
    cbv iota. rewrite <- (app_nil_r (map node_of (Rich_Model.when _ _))). rewrite kid_when by reflexivity.
    match goal with |- context [kid "sheets" []] => change (kid "sheets" []) with (@None node) end. cbv iota.
    match goal with |- context [kid "sheets" [?a; ?b; ?c]] => change (kid "sheets" [a; b; c]) with (Some c) end. cbv iota. cbn [bind node_of kids_of].
    rewrite map_map. apply read_all_map. intros e He. rewrite Forall_forall in S. apply sheet_reads. auto.
  - rewrite !kid_app. cbv iota.
    match goal with |- context [kid "definedNames" [?a]] => change (kid "definedNames" [a]) with (@None node) end. cbv iota.
    rewrite <- (app_nil_r (map node_of (Rich_Model.when _ _))). rewrite kid_when by reflexivity.
    match goal with |- context [kid "definedNames" []] => change (kid "definedNames" []) with (@None node) end. cbv iota.
    match goal with |- context [kid "definedNames" [?a; ?b; ?c]] => change (kid "definedNames" [a; b; c]) with (@None node) end. cbv iota.
    destruct (bf_names f) as [|n0 l] eqn:E.
    + match goal with |- context [kid "definedNames" [?a]] => change (kid "definedNames" [a]) with (@None node) end. reflexivity.
    + rewrite <- E in *. cbn [map].
      match goal with |- context [kid "definedNames" [?a]] => change (kid "definedNames" [a]) with (Some a) end. cbv iota. cbn [node_of kids_of].
      change (name_xml n0 :: map name_xml l) with (map name_xml (n0 :: l)). rewrite <- E, map_map. apply read_all_map. intros e He. rewrite Forall_forall in Hn. destruct (Hn e He). apply name_reads; assumption.
  - rewrite !kid_app. match goal with |- context [kid "bookViews" [?a]] => change (kid "bookViews" [a]) with (@None node) end. cbv iota.
    rewrite <- (app_nil_r (map node_of (Rich_Model.when _ _))). rewrite kid_when by reflexivity.
    match goal with |- context [kid "bookViews" []] => change (kid "bookViews" []) with (@None node) end. cbv iota.
    match goal with |- context [kid "bookViews" [?a; ?b; ?c]] => change (kid "bookViews" [a; b; c]) with (Some b) end. cbv iota. cbn [bind node_of kids_of map].
    destruct (bf_first f) as [i|], (bf_active f) as [j|]; cbn [opt_attr app];
    match goal with |- context [kid "workbookView" [?a]] => change (kid "workbookView" [a]) with (Some a) end; cbn [bind attrs_of];
    match goal with |- context [opt_number "firstSheet" ?l] =>
      first [change (opt_number "firstSheet" l) with (Some (@None N)) | change (opt_number "firstSheet" l) with (bind (number_of (dec i)) (fun n => Some (Some n)))];
      first [change (opt_number "activeTab" l) with (Some (@None N)) | change (opt_number "activeTab" l) with (bind (number_of (dec j)) (fun n => Some (Some n)))] end;
    rewrite ?number_of_dec; reflexivity.
Qed.

(** C58: the saved xl/workbook.xml lists every sheet of the workbook, in tab
    order, with its name and visibility, numbered 1, 2, ... and linked to the
    relationships rId1, rId2, ...; and every defined name of the sorted list, with
    its scope and text.  (What that list is: C46; distinct names: C29; which tab
    is active: C30.) *)
Fixpoint numbered_sheets (i : N) (l : list bsheet) : list fsheet :=
  match l with
  | [] => []
  | s :: r => {| fs_name := b_name s; fs_id := i; fs_state := state_read (b_visible s); fs_rel := lit "rId" ++ dec i |} :: numbered_sheets (i + 1) r
  end.
Lemma numbered_entries l : forall i, i + N.of_nat (length l) < 65536 -> map sheet_read (entries l i) = numbered_sheets (i + 1) l.
Proof.
  induction l as [|s l IH]; intros i H; [reflexivity|]. cbn [length] in H. cbn [entries map numbered_sheets]. rewrite IH by lia. f_equal.
  unfold sheet_read, as_u16. cbn [se_name se_id se_state se_rid]. rewrite N.mod_small by lia. reflexivity.
Qed.
Lemma entries_sheet_names l : forall i, map se_name (entries l i) = map b_name l.
Proof. induction l as [|s l IH]; intros i; [reflexivity|]. cbn [entries map]. rewrite IH. reflexivity. Qed.

Theorem C58_workbook_part m o b b' f x : save_book m o b = Some (b', SaveOk f) -> extra_ok x ->
  Forall (fun s => name_storable (b_name s)) (k_sheets b') ->
  Forall (fun e => name_storable (ne_name e) /\ doc_text (ne_range e)) (bf_names f) ->
  N.of_nat (length (k_sheets b')) < 65536 ->
  exists t, read_document (document (workbook_xml x f)) = Some t /\
    read_sheets t = Some (numbered_sheets 1 (k_sheets b')) /\
    read_names t = Some (map name_read (map name_entry_of (k_names b'))) /\
    read_view t = Some (bf_first f, bf_active f).
Proof.
  intros H X S Hn L. apply save_ok_inv in H as (b1 & own & l & _ & _ & _ & _ & _ & -> & Hw).
  apply write_book_inv in Hw as (Hs & Hd & _). cbn [k_sheets k_names] in *.
  destruct (workbook_reads x f X) as (t & T1 & _ & T2 & T3 & T4).
  - rewrite Hs. apply Forall_forall. intros e He. rewrite Forall_forall in S. assert (I : In (se_name e) (map b_name (k_sheets b1))) by (rewrite <- (entries_sheet_names _ 0); apply in_map; assumption).
    apply in_map_iff in I as (s & <- & I). auto.
  - assumption.
  - exists t. split; [exact T1|]. rewrite T2, T3, T4, Hs, Hd. split; [|split; reflexivity]. rewrite numbered_entries by lia. reflexivity.
Qed.

(** Two worksheets (one very hidden), a chartsheet and a name. *)
Definition example_ops : list bop :=
  [OAdd; OAddChart; OSheet 1 SInsertChart; OAdd; OSheet 2 (SVeryHidden true); ODefine (lit "Sales") (lit "=Sheet1!$A$1")].
Example C56_example : exists b b' f,
  book_run Debug ascii_book book_new example_ops = Some b /\
  save_book Debug ascii_book b = Some (b', SaveOk f) /\
  match app_pairs Debug f with
  | Some pairs =>
    match read_document (document (app_xml 0 (docprops_new (lit "x")) pairs (app_titles f))) with
    | Some t => titles t = Some [lit "Sheet1"; lit "Chart1"; lit "Sales"] /\
                heading_pairs t = Some [(lit "Worksheets", 1); (lit "Charts", 1); (lit "Named Ranges", 1)]
    | None => False
    end
  | None => False
  end.
Proof.
  apply (run_save_ok example_ops (fun f => match app_pairs Debug f with
  | Some pairs =>
    match read_document (document (app_xml 0 (docprops_new (lit "x")) pairs (app_titles f))) with
    | Some t => titles t = Some [lit "Sheet1"; lit "Chart1"; lit "Sales"] /\
                heading_pairs t = Some [(lit "Worksheets", 1); (lit "Charts", 1); (lit "Named Ranges", 1)]
    | None => False
    end
  | None => False
  end)). vm_compute. split; reflexivity.
Qed.
Example C57_example :
  let ops := [DTitle (lit "a"); DAuthor (lit "x & y"); DTitle (lit "b<c"); DCustom (lit "Rev") (CInt (-5)); DCustom (lit "Ok") (CBool true)] in
  Forall op_storable ops /\ Forall custom_storable (customs ops) /\
  match read_document (document (core_xml (doc_run (lit "2024-01-02T03:04:05Z") ops))) with
  | Some t => prop "dc:title" t = Some (lit "b<c") /\ prop "dc:creator" t = Some (lit "x & y") /\ prop "dc:subject" t = Some []
  | None => False end /\
  match read_document (document (custom_xml (fun _ => []) (doc_run [] ops))) with
  | Some t => read_all custom_of (kids_of t) = Some [(2, lit "Rev", RInt (-5)); (3, lit "Ok", RBool true)]
  | None => False end.
Proof.
  split; [repeat (constructor; [repeat (constructor; [reflexivity|]); constructor|]); constructor|].
  split; [repeat (constructor; [split; [reflexivity|exact I]|]); constructor|].
  split; vm_compute; [split; [|split]|]; reflexivity.
Qed.
Example C58_example : exists b b' f,
  book_run Debug ascii_book book_new example_ops = Some b /\
  save_book Debug ascii_book b = Some (b', SaveOk f) /\
  match read_document (document (workbook_xml {| x_xlsm := false; x_read_only := 2; x_vba := None |} f)) with
  | Some t => option_map (map fs_name) (read_sheets t) = Some [lit "Sheet1"; lit "Chart1"; lit "Sheet2"] /\
              option_map (map fs_state) (read_sheets t) = Some [Shown; Shown; VeryHidden] /\
              option_map (map fn_name) (read_names t) = Some [lit "Sales"]
  | None => False end.
Proof.
  apply (run_save_ok example_ops (fun f => match read_document (document (workbook_xml {| x_xlsm := false; x_read_only := 2; x_vba := None |} f)) with
  | Some t => option_map (map fs_name) (read_sheets t) = Some [lit "Sheet1"; lit "Chart1"; lit "Sheet2"] /\
              option_map (map fs_state) (read_sheets t) = Some [Shown; Shown; VeryHidden] /\
              option_map (map fn_name) (read_names t) = Some [lit "Sales"]
  | None => False end)). vm_compute. repeat split; reflexivity.
Qed.
Print Assumptions C56_app_titles.
Print Assumptions C57_core_properties.
Print Assumptions C57_app_properties.
Print Assumptions C57_custom_properties.
Print Assumptions C57_dates_stored_partial.
Print Assumptions C57_serial_date_lost_refuted.
Print Assumptions C58_workbook_part.
