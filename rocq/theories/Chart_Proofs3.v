(** Charts: ranges and titles read back. *)
From Verif Require Import Base F64 Xml_Model Xml_Spec Xml_Proofs Xml_Read Xml_Read_Proofs Xml_Tree Fmt_Model Rich_Model Rich_Proofs SheetXml_Spec SheetXml_Proofs SheetXml_Proofs3 Doc_Model Doc_Spec Props_Doc Tag_Proofs Part_Proofs
  CF_Spec CF_Model CF_Build CF_Read Ref_Model Ref_Proofs Ref_Spec Quote_Proofs Note_Spec Note_Proofs Note_Proofs2 Note_Proofs4 Note_Proofs5 Cache_Model Spark_Model Spark_Spec Dml_Model Dml_Spec Dml_Proofs Draw_Model Draw_Proofs Draw_Proofs3 Chart_Model Chart_Spec Chart_Proofs Chart_Proofs2.
From Verif Require Color_Spec Props_Spark Xml_Spec.

(** ** Points *)
Definition from_n {A} (n : nat) (l : list A) : list (N * A) := combine (map N.of_nat (seq n (length l))) l.
Lemma indexed_from {A} (l : list A) : indexed l = from_n 0 l. Proof. reflexivity. Qed.
Lemma from_cons {A} n (a : A) l : from_n n (a :: l) = (N.of_nat n, a) :: from_n (S n) l. Proof. reflexivity. Qed.
Lemma str_pts_indexed l : forall n, str_pts (N.of_nat n) l = from_n n l.
Proof. induction l as [|a l IH]; intros n; [reflexivity|]. cbn [str_pts]. rewrite from_cons, <- IH. replace (N.of_nat (S n)) with (N.succ (N.of_nat n)) by lia. reflexivity. Qed.
Lemma num_pts_indexed parses l : forall n, num_pts parses (N.of_nat n) l = map (fun p => (fst p, if parses (snd p) then snd p else lit "0")) (filter (fun p => negb (blank (snd p))) (from_n n l)).
Proof.
  induction l as [|a l IH]; intros n; [reflexivity|]. rewrite from_cons. cbn [num_pts filter map snd]. replace (N.succ (N.of_nat n)) with (N.of_nat (S n)) by lia. rewrite IH.
  destruct a as [|c r]; [reflexivity|]. cbn [blank negb map fst snd]. reflexivity.
Qed.
Lemma pts_read l : Forall (fun p => doc_text (snd p)) l -> Forall wx_ok (map pt_xml l) /\ read_all read_pt (map node_of (map pt_xml l)) = Some l.
Proof.
  induction 1 as [|p l H F [W R]]; [split; [constructor|reflexivity]|]. cbn [map read_all]. split.
  - constructor; [|exact W]. unfold pt_xml. apply ok_elem; [reflexivity|good|]. constructor; [apply ok_word; [reflexivity|exact H]|constructor].
  - replace (read_pt (node_of (pt_xml p))) with (Some p); [rewrite R; reflexivity|]. unfold read_pt, pt_xml. rewrite node_elem. cbn [attrs_of kids_of]. ats. cbn [bind]. rewrite number_of_dec. cbn [bind]. unfold needed.
    assert (K : Forall2 tagged ["c:v"]%string [[WData (lit "c:v") (snd p) []]]) by kinds.
    change (map node_of [WData (lit "c:v") (snd p) []]) with (map node_of (concat [[WData (lit "c:v") (snd p) []]])). rewrite (parts_maybe _ _ _ _ K). parted. rewrite (node_data _ _ _ H), text_leaf. cbn [bind]. destruct p; reflexivity.
Qed.
Lemma from_all {A} (P : A -> Prop) l : Forall P l -> forall n, Forall (fun p => P (snd p)) (from_n n l).
Proof. induction 1; intros n; [constructor|]. rewrite from_cons. constructor; auto. Qed.

Definition env_ok (E : env) : Prop := (forall x, attr_text (e_num E x)) /\ unicode_ok (e_chars E) /\ (forall c, Forall doc_text (c_data (e_cache E c))).
Section Env.
Variable E : env.
Hypothesis Env : env_ok E.
Let Num : forall x, attr_text (e_num E x) := proj1 Env.
Definition quotable (s : str) : Prop := Props_Spark.quotable (e_mode E) (e_chars E) s.
Notation known := (range_known quotable).
Lemma absolute_doc r c t : r < 2 ^ 32 - 1 -> c < 65535 -> row_col_to_cell_absolute (e_mode E) r c = Some t -> doc_text t.
Proof.
  intros A B Q. destruct (row_col_to_cell_text (e_mode E) r c A B) as (nm & En & _ & Ez & _). destruct (column_number_to_name_spec (e_mode E) c B) as (nm2 & En2 & Up & _ ).
  assert (nm2 = nm) by congruence. subst nm2. rewrite Ez in Q. injection Q as <-. change (doc_text ([36] ++ nm ++ [36] ++ dec (r + 1))). rewrite !Props_Spark.doc_app.
  split; [reflexivity|]. split; [apply doc_simple, upper_simple; exact Up|]. split; [reflexivity|apply doc_simple, dec_simple].
Qed.
Lemma formula_reads c : known c -> doc_text (formula_abs E c) /\ read_area (formula_abs E c) = Some (area_asked c).
Proof.
  intros (A & B & C & D & Hs & Dt & q & Hq). pose proof (proj1 (proj2 Env)) as U.
  destruct (chart_range_parse true (e_mode E) (e_chars E) (g_sheet c) q (g_fr c) (g_fc c) (g_lr c) (g_lc c) U Hs A C B D Hq) as (f & Ef & Pf). cbv beta iota in Ef.
  unfold formula_abs. rewrite Ef. split.
  - unfold chart_range_abs in Ef. rewrite Hq in Ef. cbv beta iota delta [obind] in Ef. destruct (row_col_to_cell_absolute (e_mode E) (g_fr c) (g_fc c)) as [a|] eqn:Ea; [|discriminate].
    destruct (row_col_to_cell_absolute (e_mode E) (g_lr c) (g_lc c)) as [b|] eqn:Eb; [|discriminate].
    pose proof (absolute_doc _ _ _ A C Ea) as Da. pose proof (absolute_doc _ _ _ B D Eb) as Db. pose proof (Props_Spark.doc_quote _ _ _ _ Dt Hq) as Dq. injection Ef as <-. destruct (str_eqb a b).
    + apply Props_Spark.doc_app. split; [exact Dq|]. change (doc_text ([33] ++ a)). apply Props_Spark.doc_app. split; [reflexivity|exact Da].
    + apply Props_Spark.doc_app. split; [exact Dq|]. change (doc_text ([33] ++ a ++ [58] ++ b)). rewrite !Props_Spark.doc_app. repeat split; assumption.
  - unfold read_area. rewrite Pf. reflexivity.
Qed.
Notation asked_source := (source_asked (e_parses E) (e_cache E)).
Lemma data_docs c : Forall doc_text (c_data (e_cache E c)). Proof. apply Env. Qed.
Lemma area_read tag rest tags c : known c -> Forall2 tagged tags rest -> part "c:f" tags rest = [] -> read_area_of (node_of (elem tag ([WData (lit "c:f") (formula_abs E c) []] :: rest))) = Some (area_asked c).
Proof.
  intros Kn F P. destruct (formula_reads c Kn) as [D R]. unfold read_area_of, needed. rewrite elem_kids. assert (K : Forall2 tagged ("c:f"%string :: tags) ([WData (lit "c:f") (formula_abs E c) []] :: rest)) by (constructor; [apply tagged_one; reflexivity|exact F]).
  rewrite (parts_maybe _ _ _ _ K). cbn [part]. eqbs. rewrite P. cbn [app]. rewrite (node_data _ _ _ D), text_leaf. cbn [bind]. rewrite R. reflexivity.
Qed.
Lemma points_read tag pre pretags n pts : Forall2 tagged pretags pre -> part "c:ptCount" pretags pre = [] -> part "c:pt" pretags pre = [] -> Forall (fun p => doc_text (snd p)) pts ->
  read_points (node_of (elem tag (pre ++ [[num_xml "c:ptCount" n]; map pt_xml pts]))) = Some (n, pts).
Proof.
  intros F P1 P2 D. destruct (pts_read pts D) as [_ R]. unfold read_points, needed. rewrite elem_kids.
  assert (K : Forall2 tagged (pretags ++ ["c:ptCount"; "c:pt"]%string) (pre ++ [[num_xml "c:ptCount" n]; map pt_xml pts])) by (apply Forall2_app; [exact F|kinds]).
  assert (Pa : forall k t1 l1 t2 l2, Forall2 tagged t1 l1 -> part k (t1 ++ t2) (l1 ++ l2) = part k t1 l1 ++ part k t2 l2).
  { intros k t1 l1 t2 l2 H. induction H as [|j l t r H0 H1 IH]; [reflexivity|]. cbn [app part]. rewrite IH, app_assoc. reflexivity. }
  rewrite (parts_maybe _ _ _ _ K), (parts_filter _ _ _ K), !Pa, P1, P2 by exact F. parted. rewrite value_num. cbn [bind]. rewrite R. reflexivity.
Qed.
Lemma count_ok (l : list str) : Forall wx_ok [num_xml "c:ptCount" (N.of_nat (length l))]. Proof. constructor; [apply num_ok; reflexivity|constructor]. Qed.
Lemma str_ref_reads c : known c -> wx_ok (str_ref E c) /\ read_ref (node_of (str_ref E c)) = Some (asked_source AsText c) /\ is_elem "c:strRef" (node_of (str_ref E c)) = true.
Proof.
  intros Kn. destruct (formula_reads c Kn) as [D R]. pose proof (data_docs c) as Dd. unfold str_ref. set (k := e_cache E c). fold k in Dd. cbv zeta.
  assert (Dp : Forall (fun p => doc_text (snd p)) (str_pts 0 (c_data k))) by (change 0 with (N.of_nat 0); rewrite str_pts_indexed; apply from_all; exact Dd). destruct (pts_read _ Dp) as [Wp _].
  set (cc := elem "c:strCache" _). split; [|split; [|reflexivity]].
  - apply elem_ok; [reflexivity|]. constructor; [constructor; [apply ok_word; [reflexivity|exact D]|constructor]|]. constructor; [|constructor]. apply ok_if. constructor; [|constructor].
    apply elem_ok; [reflexivity|]. constructor; [apply count_ok|]. constructor; [exact Wp|constructor].
  - unfold read_ref. change (is_elem "c:strRef" (node_of (elem "c:strRef" ?x))) with true. cbv iota.
    assert (F : Forall2 tagged ["c:strCache"]%string [when (negb (is_nil (c_data k))) [cc]]) by kinds.
    rewrite (area_read "c:strRef" _ _ c Kn F) by reflexivity. cbn [bind]. rewrite elem_kids.
    assert (K : Forall2 tagged ["c:f"; "c:strCache"]%string [[WData (lit "c:f") (formula_abs E c) []]; when (negb (is_nil (c_data k))) [cc]]) by kinds.
    rewrite (parts_maybe "c:strCache" _ _ _ K). parted. unfold source_asked. fold k. unfold data_seen.
    destruct (c_data k) as [|s r] eqn:Ed; [reflexivity|]. cbn [is_nil negb when].
    pose proof (points_read "c:strCache" [] [] (N.of_nat (length (s :: r))) (str_pts 0 (s :: r)) ltac:(constructor) eq_refl eq_refl Dp) as Pr. cbn [app] in Pr. fold cc in Pr. rewrite Pr.
    cbn [bind option_map fst snd]. do 3 f_equal. destruct (c_type k); rewrite indexed_from, <- str_pts_indexed; reflexivity.
Qed.
Lemma num_ref_reads c : known c ->
  wx_ok (num_ref E c) /\ read_ref (node_of (num_ref E c)) = Some (asked_source AsNumbers c) /\ is_elem "c:numRef" (node_of (num_ref E c)) = true.
Proof.
  intros Kn. destruct (formula_reads c Kn) as [D R]. pose proof (data_docs c) as Dd. unfold num_ref. set (k := e_cache E c). fold k in Dd. cbv zeta.
  assert (Dp : Forall (fun p => doc_text (snd p)) (num_pts (e_parses E) 0 (c_data k))).
  { change 0 with (N.of_nat 0). rewrite num_pts_indexed. apply Forall_forall. intros p Hp. apply in_map_iff in Hp as (q & <- & Hq). apply filter_In in Hq as [Hq _]. cbn [snd].
    destruct (e_parses E (snd q)); [|reflexivity]. pose proof (from_all doc_text _ Dd 0%nat) as Fa. rewrite Forall_forall in Fa. exact (Fa _ Hq). }
  destruct (pts_read _ Dp) as [Wp _]. set (code := match c_type k with TDate => lit "dd/mm/yyyy" | _ => lit "General" end). assert (Dc : doc_text code) by (unfold code; destruct (c_type k); reflexivity).
  set (cc := elem "c:numCache" _). split; [|split; [|reflexivity]].
  - apply elem_ok; [reflexivity|]. constructor; [constructor; [apply ok_word; [reflexivity|exact D]|constructor]|]. constructor; [|constructor]. apply ok_if. constructor; [|constructor].
    apply elem_ok; [reflexivity|]. constructor; [constructor; [apply ok_word; [reflexivity|exact Dc]|constructor]|]. constructor; [apply count_ok|]. constructor; [exact Wp|constructor].
  - unfold read_ref. change (is_elem "c:strRef" (node_of (elem "c:numRef" ?x))) with false. change (is_elem "c:numRef" (node_of (elem "c:numRef" ?x))) with true. cbv iota.
    assert (F : Forall2 tagged ["c:numCache"]%string [when (negb (is_nil (c_data k))) [cc]]) by kinds.
    rewrite (area_read "c:numRef" _ _ c Kn F) by reflexivity. cbn [bind]. rewrite elem_kids.
    assert (K : Forall2 tagged ["c:f"; "c:numCache"]%string [[WData (lit "c:f") (formula_abs E c) []]; when (negb (is_nil (c_data k))) [cc]]) by kinds.
    rewrite (parts_maybe "c:numCache" _ _ _ K). parted. unfold source_asked. fold k. unfold data_seen.
    destruct (c_data k) as [|s r] eqn:Ed; [reflexivity|]. cbn [is_nil negb when].
    assert (Fc : needed "c:formatCode" text_of (kids_of (node_of cc)) = Some code).
    { unfold cc, needed. rewrite elem_kids. match goal with |- context [map node_of (concat ?ls)] => assert (K2 : Forall2 tagged ["c:formatCode"; "c:ptCount"; "c:pt"]%string ls) by kinds end.
      rewrite (parts_maybe _ _ _ _ K2). parted. rewrite (node_data _ _ _ Dc), text_leaf. reflexivity. }
    rewrite Fc. cbn [bind]. pose proof (points_read "c:numCache" [[WData (lit "c:formatCode") code []]] ["c:formatCode"%string] (N.of_nat (length (s :: r))) (num_pts (e_parses E) 0 (s :: r)) ltac:(kinds) eq_refl eq_refl Dp) as Pr. cbn [app] in Pr. fold cc in Pr. rewrite Pr.
    cbn [bind option_map fst snd]. do 3 f_equal. unfold number_points, code. rewrite indexed_from, <- num_pts_indexed. destruct (c_type k); reflexivity.
Qed.
Lemma cache_ref_reads c num : known c ->
  wx_ok (cache_ref E c num) /\ read_ref (node_of (cache_ref E c num)) = Some (asked_source (if num then AsNumbers else AsFound) c).
Proof.
  intros Kn. destruct (str_ref_reads c Kn) as (Ws & Rs & _). destruct (num_ref_reads c Kn) as (Wn & Rn & _). unfold cache_ref. unfold source_asked, data_seen in *.
  destruct (c_type (e_cache E c)) eqn:T; destruct num; cbv beta iota; (split; [assumption|]); first [rewrite Rn|rewrite Rs]; reflexivity.
Qed.
Lemma source_reads tag c num : known c -> good_name (lit tag) = true ->
  wx_ok (elem tag [[cache_ref E c num]]) /\ read_source (node_of (elem tag [[cache_ref E c num]])) = Some (asked_source (if num then AsNumbers else AsFound) c).
Proof.
  intros Kn G. destruct (cache_ref_reads c num Kn) as [W R]. split; [apply elem_ok; [exact G|]; constructor; [constructor; [exact W|constructor]|constructor]|]. unfold read_source. rewrite elem_kids. exact R.
Qed.

(** ** Names *)
Definition name_text (t : str) (a : carg) : str := if is_range a then t else a_text a.
Definition name_range (c : crange) (a : carg) : crange := a_range a.
Lemma names_say l : settled l ->
  match the_name l with
  | NoName => fold_left name_text l [] = [] /\ range_given (fold_left name_range l no_range) = false
  | ByText s => fold_left name_text l [] = s /\ s <> []
  | ByRange c => fold_left name_text l [] = [] /\ fold_left name_range l no_range = c /\ range_given c = true
  end.
Proof.
  intros S. unfold the_name, last_name. induction l as [|b l _] using rev_ind; [split; reflexivity|]. rewrite last_snoc. rewrite !fold_left_app. cbn [fold_left]. unfold name_text at 1 3 5, name_range at 1.
  destruct (is_range b) eqn:Q.
  - split; [|split; [reflexivity|exact Q]].
    assert (P : forall k, (exists r, l = k ++ r) -> fold_left name_text k [] = []).
    { intros k. induction k as [|a k IH] using rev_ind; intros [r Hr]; [reflexivity|]. rewrite fold_left_app. cbn [fold_left]. unfold name_text at 1. destruct (is_range a) eqn:Qa.
      - apply IH. exists (a :: r). rewrite Hr, <- app_assoc. reflexivity.
      - destruct (a_text a) as [|c t] eqn:Ta; [reflexivity|]. exfalso. assert (X : is_range b = false); [|congruence].
        apply (S k a r b []); [rewrite Hr, <- !app_assoc; reflexivity|exact Qa|rewrite Ta; discriminate]. }
    apply P. exists []. rewrite app_nil_r. reflexivity.
  - destruct (a_text b) as [|c t]; [split; [reflexivity|]|split; [reflexivity|discriminate]]. exact Q.
Qed.
Definition names_known (l : list carg) : Prop := Forall (arg_known quotable) l /\ settled l.
Lemma name_known l : Forall (arg_known quotable) l -> match the_name l with NoName => True | ByText s => doc_text s | ByRange c => known c end.
Proof.
  intros F. unfold the_name, last_name. destruct l as [|b l _] using rev_ind; [exact I|]. rewrite last_snoc. apply Forall_app in F as [_ F]. pose proof (Forall_inv F) as H. unfold arg_known in H. destruct (is_range b); [exact H|].
  destruct (a_text b); [exact I|exact H].
Qed.

(** ** Titles *)
Lemma last_ext {A B} (f g : A -> option B) d l : (forall o, f o = g o) -> last_of f d l = last_of g d l.
Proof. intros H. unfold last_of. revert d. induction l as [|o l IH]; intros d; [reflexivity|]. cbn [fold_left]. rewrite H. apply IH. Qed.
Lemma tx_rich_reads t : fits (ti_font t) -> doc_text (ti_name t) ->
  wx_ok (tx_rich E t) /\ read_words (node_of (tx_rich E t)) =
    Some (Rich (ti_name t) {| te_turn := turn_of (ti_font t) (ti_horizontal t); te_rtl := if ti_plain t then None else cf_rtl (ti_font t); te_letters := letters_of E (ti_font t) |}).
Proof.
  intros F D. destruct (rich_reads E Num t F D) as [W R]. unfold tx_rich. split; [apply elem_ok; [reflexivity|]; constructor; [constructor; [exact W|constructor]|constructor]|].
  unfold read_words. rewrite elem_kids. cbn [concat app map]. change (is_elem "c:rich" (node_of (rich_xml E t))) with true. cbv iota. rewrite R. reflexivity.
Qed.
Lemma tx_formula_reads c : known c -> wx_ok (tx_formula E c) /\ read_words (node_of (tx_formula E c)) = Some (Cells (asked_source AsText c)).
Proof.
  intros Kn. destruct (str_ref_reads c Kn) as (W & R & _). unfold tx_formula. split; [apply elem_ok; [reflexivity|]; constructor; [constructor; [exact W|constructor]|constructor]|].
  unfold read_words. rewrite elem_kids. cbn [concat app map]. change (is_elem "c:rich" (node_of (str_ref E c))) with false. change (is_elem "c:v" (node_of (str_ref E c))) with false. change (is_elem "c:strRef" (node_of (str_ref E c))) with true. cbv iota. rewrite R. reflexivity.
Qed.
Lemma tx_value_reads s : doc_text s -> wx_ok (tx_value s) /\ read_words (node_of (tx_value s)) = Some (Plain s).
Proof.
  intros D. unfold tx_value. split; [apply elem_ok; [reflexivity|]; constructor; [constructor; [apply ok_word; [reflexivity|exact D]|constructor]|constructor]|].
  unfold read_words. rewrite elem_kids. cbn [concat app map]. rewrite (node_data _ _ _ D). rewrite !elem_is. eqbs. rewrite text_leaf. reflexivity.
Qed.
Lemma title_names l : forall t, ti_name (fold_left title_step l t) = fold_left name_text (names_of l) (ti_name t) /\ ti_range (fold_left title_step l t) = fold_left name_range (names_of l) (ti_range t).
Proof.
  induction l as [|o l IH]; intros t; [split; reflexivity|]. cbn [fold_left names_of flat_map]. destruct (IH (title_step t o)) as [-> ->]. rewrite !fold_left_app.
  destruct o; cbn [fold_left title_step ti_name ti_range]; split; reflexivity.
Qed.
Lemma fits_new : fits font_new. Proof. split; reflexivity. Qed.
Lemma title_font_view f : letters_of E (title_font f) = letters_of E f /\ cf_rtl (title_font f) = cf_rtl f /\ (forall h, turn_of (title_font f) h = turn_of f h) /\ (fits f -> fits (title_font f)).
Proof. repeat split; intros; try reflexivity; apply H. Qed.
Definition titled (turned : bool) (l : list title_op) (t : ctitle) : Prop :=
  ti_horizontal t = turned /\ ti_plain t = false /\ ti_name t = fold_left name_text (names_of l) [] /\ ti_range t = fold_left name_range (names_of l) no_range /\ ti_format t = chart_format (title_format l) /\
  letters_of E (ti_font t) = asked_letters (e_num E) (title_font_calls l) /\ cf_rtl (ti_font t) = asked_rtl (title_font_calls l) /\ turn_of (ti_font t) turned = asked_turn turned (title_font_calls l) /\
  layout_of E (ti_layout t) = asked_layout (e_num E) false false (title_layout l) /\ ti_overlay t = title_overlay l /\ ti_hidden t = title_off l /\ (Forall (title_known quotable) l -> fits (ti_font t)).
Lemma make_titled turned l t : ti_horizontal t = turned -> ti_plain t = false -> ti_name t = [] -> ti_range t = no_range -> ti_format t = format_new -> ti_font t = font_new -> ti_layout t = layout_new -> ti_overlay t = false ->
  ti_hidden t = false -> titled turned l (fold_left title_step l t).
Proof.
  intros A1 A2 A3 A4 A5 A6 A7 A8 A9. destruct (title_names l t) as [B1 B2]. rewrite A3 in B1. rewrite A4 in B2.
  assert (Fo : ti_font (fold_left title_step l t) = match last_of (fun o => match o with TiFont f => Some (Some f) | _ => None end) None l with Some f => title_font (make_font f) | None => font_new end).
  { apply (Draw_Proofs2.last_folded ti_font (fun o => match o with Some f => title_font (make_font f) | None => font_new end) (fun o => match o with TiFont f => Some (Some f) | _ => None end)); [intros s []; reflexivity|exact A6]. }
  assert (Fc : title_font_calls l = match last_of (fun o => match o with TiFont f => Some (Some f) | _ => None end) None l with Some f => f | None => [] end).
  { unfold title_font_calls. transitivity (last_of (fun o => option_map (fun x => match x with Some f => f | None => [] end) (match o with TiFont f => Some (Some f) | _ => None end)) [] l).
    - apply last_ext. intros []; reflexivity.
    - apply (Draw_Proofs2.last_map (fun x : option (list font_op) => match x with Some f => f | None => [] end) (fun o => match o with TiFont f => Some (Some f) | _ => None end) None l). }
  unfold titled. split; [|split; [|split; [exact B1|split; [exact B2|]]]].
  - clear -A1. revert t A1. induction l as [|o l IH]; intros t A; [exact A|]. cbn [fold_left]. apply IH. exact A.
  - clear -A2. revert t A2. induction l as [|o l IH]; intros t A; [exact A|]. cbn [fold_left]. apply IH. exact A.
  - split; [apply (Draw_Proofs2.last_folded ti_format chart_format (fun o => match o with TiFormat f => Some f | _ => None end)); [intros s []; reflexivity|exact A5]|].
    rewrite Fo, Fc. set (lf := last_of _ None l). assert (V : letters_of E (match lf with Some f => title_font (make_font f) | None => font_new end) = asked_letters (e_num E) match lf with Some f => f | None => [] end /\
      cf_rtl (match lf with Some f => title_font (make_font f) | None => font_new end) = asked_rtl match lf with Some f => f | None => [] end /\
      turn_of (match lf with Some f => title_font (make_font f) | None => font_new end) turned = asked_turn turned match lf with Some f => f | None => [] end).
    { destruct lf as [f|]; [|split; [reflexivity|split; [reflexivity|destruct turned; reflexivity]]]. destruct (title_font_view (make_font f)) as (-> & -> & -> & _). rewrite made_letters, made_rtl, turn_asked. repeat split. }
    destruct V as (-> & -> & ->). split; [reflexivity|]. split; [reflexivity|]. split; [reflexivity|]. split.
    { replace (ti_layout (fold_left title_step l t)) with (make_layout (title_layout l)); [apply layout_same|]. symmetry. apply (Draw_Proofs2.last_folded ti_layout make_layout (fun o => match o with TiLayout f => Some f | _ => None end)); [intros s []; reflexivity|exact A7]. }
    split; [transitivity (last_of (fun o => match o with TiOverlay b => Some b | _ => None end) (ti_overlay t) l); [apply (last_fold ti_overlay); intros s []; reflexivity|rewrite A8; reflexivity]|].
    split.
    { unfold title_off. rewrite last_existsb. transitivity (last_of (fun o => if match o with TiHidden => true | _ => false end then Some true else None) (ti_hidden t) l); [apply (last_fold ti_hidden (fun o => if match o with TiHidden => true | _ => false end then Some true else None)); intros s []; reflexivity|rewrite A9; reflexivity]. }
    intros K. destruct lf as [f|] eqn:Q; [|apply fits_new]. apply title_font_view, made_fits.
    assert (P : match lf with Some f => Forall font_known f | None => True end) by (apply (last_all (fun x => match x with Some f => Forall font_known f | None => True end) (title_known quotable)); [|exact I|exact K];
      intros o v H0 H1; destruct o; try discriminate; injection H1 as <-; exact H0). rewrite Q in P. exact P.
Qed.
Notation asked_title := (asked_title (e_num E) (e_parses E) (e_cache E)).
Lemma names_in l : Forall (title_known quotable) l -> Forall (arg_known quotable) (names_of l).
Proof. induction 1 as [|o l H F IH]; [constructor|]. unfold names_of. cbn [flat_map]. apply Forall_app. split; [destruct o; try constructor; [exact H|constructor]|exact IH]. Qed.
Lemma title_reads turned l t : titled turned l t -> Forall (title_known quotable) l -> settled (names_of l) ->
  Forall wx_ok (title_xml E t) /\ tagged "c:title" (title_xml E t) /\
  match title_xml E t with [] => asked_title turned l = None | [x] => bind (read_title (node_of x)) (fun a => Some (Some a)) = Some (asked_title turned l) | _ => False end.
Proof.
  intros (H1 & H2 & H3 & H4 & H5 & H6 & H7 & H8 & H9 & H10 & _ & H11) K S. specialize (H11 K). pose proof (names_say _ S) as Ns. pose proof (name_known _ (names_in l K)) as Nk.
  assert (Kf : Forall format_known (title_format l)). { apply (last_all (Forall format_known) (title_known quotable)); [|constructor|exact K]. intros o v A B. destruct o; try discriminate. injection B as <-. exact A. }
  destruct (sp_reads _ Kf) as [Ws _]. destruct (layout_reads E Num (ti_layout t)) as (Wl & Rl & Tl). destruct (tx_pr_reads E Num (ti_font t) turned H11) as [Wt Rt].
  assert (Tf : text_of_font E (ti_font t) turned = asked_text (e_num E) turned (title_font_calls l)) by (unfold text_of_font, asked_text; rewrite H6, H7, H8; reflexivity). rewrite Tf in Rt.
  assert (W : forall tx w text tv, Forall wx_ok tx -> tagged "c:tx" tx -> match tx with [] => Some None | [x] => bind (read_words (node_of x)) (fun a => Some (Some a)) | _ => None end = Some w ->
    Forall wx_ok text -> tagged "c:txPr" text -> match text with [] => Some None | [x] => bind (read_text (node_of x)) (fun a => Some (Some a)) | _ => None end = Some tv ->
    let x := elem "c:title" [tx; [layout_xml E (ti_layout t)]; when (ti_overlay t) [flag_xml "c:overlay"]; sp_pr (ti_format t); text] in
    Forall wx_ok [x] /\ tagged "c:title" [x] /\ bind (read_title (node_of x)) (fun a => Some (Some a)) =
      Some (Some {| tt_words := w; tt_layout := asked_layout (e_num E) false false (title_layout l); tt_overlay := title_overlay l; tt_shape := asked_shape (title_format l); tt_text := tv |})).
  { intros tx w text tv W1 T1 R1 W2 T2 R2. cbv zeta. split; [|split; [apply tagged_one; reflexivity|]].
    - constructor; [|constructor]. apply elem_ok; [reflexivity|]. constructor; [exact W1|]. constructor; [constructor; [exact Wl|constructor]|]. constructor; [apply ok_if; constructor; [apply flag_ok; reflexivity|constructor]|].
      constructor; [rewrite H5; exact Ws|]. constructor; [exact W2|constructor].
    - unfold read_title. rewrite elem_kids. cbv zeta. match goal with |- context [map node_of (concat ?ls)] => assert (K2 : Forall2 tagged ["c:tx"; "c:layout"; "c:overlay"; "c:spPr"; "c:txPr"]%string ls) end.
      { constructor; [exact T1|]. constructor; [apply tagged_one; exact Tl|]. constructor; [apply tagged_when, tagged_one; reflexivity|]. constructor; [apply tagged_sp|]. constructor; [exact T2|constructor]. }
      unfold needed. rewrite !(parts_maybe _ _ _ _ K2). parted. rewrite R1. cbn [bind]. rewrite Rl. cbn [bind]. rewrite (flag_parts "c:overlay" (ti_overlay t) _ _ K2) by (parted; reflexivity). cbn [bind].
      rewrite (shape_parts (title_format l) _ _ K2 Kf) by (parted; rewrite H5; reflexivity). cbn [bind]. rewrite R2. cbn [bind]. rewrite H9, H10. reflexivity. }
  unfold title_xml, Chart_Spec.asked_title. cbv zeta. assert (Hf : has_formatting (ti_format t) = negb (no_calls (title_format l))) by (rewrite H5; apply has_formatting_calls). rewrite !Hf, negb_involutive. unfold named. rewrite H3, H4, H1. destruct (the_name (names_of l)) as [|s|c].
  - destruct Ns as [E1 E2]. rewrite E1, E2. cbn [is_nil negb]. destruct (no_calls (title_format l)); cbn [negb]; [split; [constructor|]; split; [constructor|reflexivity]|].
    exact (W [] None [] None ltac:(constructor) ltac:(constructor) eq_refl ltac:(constructor) ltac:(constructor) eq_refl).
  - destruct Ns as [E1 E2]. rewrite E1. destruct s as [|a s]; [congruence|]. cbn [is_nil negb]. assert (Dn : doc_text (ti_name t)) by (rewrite H3, E1; exact Nk). destruct (tx_rich_reads t H11 Dn) as [Wr Rr].
    assert (Er : {| te_turn := turn_of (ti_font t) (ti_horizontal t); te_rtl := if ti_plain t then None else cf_rtl (ti_font t); te_letters := letters_of E (ti_font t) |} = asked_text (e_num E) turned (title_font_calls l)) by (rewrite H1, H2; exact Tf).
    rewrite Er, H3, E1 in Rr.
    apply (W [tx_rich E t] (Some (Rich (a :: s) (asked_text (e_num E) turned (title_font_calls l)))) [] None); [constructor; [exact Wr|constructor]|apply tagged_one; reflexivity|rewrite Rr; reflexivity|constructor|constructor|reflexivity].
  - destruct Ns as (E1 & E2 & E3). rewrite E1, E2, E3. cbn [is_nil negb]. destruct (tx_formula_reads c Nk) as [Wr Rr].
    apply (W [tx_formula E c] (Some (Cells (asked_source AsText c))) (when (no_calls (title_format l)) [tx_pr E (ti_font t) turned])); [constructor; [exact Wr|constructor]|apply tagged_one; reflexivity|rewrite Rr; reflexivity| | |].
    + apply ok_if. constructor; [exact Wt|constructor].
    + apply tagged_when, tagged_one. reflexivity.
    + destruct (no_calls (title_format l)); cbn [when]; [rewrite Rt; reflexivity|reflexivity].
Qed.
Notation asked_name_of := (asked_name_of (e_parses E) (e_cache E)).
Lemma series_title_reads l t : ti_name t = fold_left name_text l [] -> ti_range t = fold_left name_range l no_range -> Forall (arg_known quotable) l -> settled l ->
  Forall wx_ok (series_title E t) /\ tagged "c:tx" (series_title E t) /\
  match series_title E t with [] => Some None | [x] => bind (read_words (node_of x)) (fun a => Some (Some a)) | _ => None end = Some (asked_name_of l).
Proof.
  intros H3 H4 K S. pose proof (names_say _ S) as Ns. pose proof (name_known _ K) as Nk. unfold series_title, named, Chart_Spec.asked_name_of. rewrite H3, H4. destruct (the_name l) as [|s|c].
  - destruct Ns as [-> ->]. split; [constructor|]. split; [constructor|reflexivity].
  - destruct Ns as [-> Ne]. destruct s as [|a s]; [congruence|]. cbn [is_nil negb]. destruct (tx_value_reads _ Nk) as [W R]. split; [constructor; [exact W|constructor]|]. split; [apply tagged_one; reflexivity|rewrite R; reflexivity].
  - destruct Ns as (-> & -> & ->). cbn [is_nil negb when]. destruct (tx_formula_reads c Nk) as [W R]. split; [constructor; [exact W|constructor]|]. split; [apply tagged_one; reflexivity|rewrite R; reflexivity].
Qed.
End Env.
