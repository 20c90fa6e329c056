(** Charts: markers, points, trendlines and error bars read back. *)
From Verif Require Import Base F64 Xml_Model Xml_Spec Xml_Proofs Xml_Read Xml_Read_Proofs Xml_Tree Fmt_Model Rich_Model Rich_Proofs SheetXml_Spec SheetXml_Proofs SheetXml_Proofs3 Doc_Model Doc_Spec Props_Doc Tag_Proofs Part_Proofs
  CF_Spec CF_Model CF_Build CF_Read Ref_Model Ref_Proofs Ref_Spec Quote_Proofs Note_Spec Note_Proofs Note_Proofs2 Note_Proofs4 Note_Proofs5 Cache_Model Spark_Model Spark_Spec Dml_Model Dml_Spec Dml_Proofs Draw_Model Draw_Proofs Draw_Proofs3
  Chart_Model Chart_Series Chart_Spec Chart_Spec2 Chart_Proofs Chart_Proofs2 Chart_Proofs3.
From Verif Require Color_Spec Props_Spark Xml_Spec.

(** ** Parts that say something *)
Definition says {A} (f : node -> option A) (xs : list wx) (v : option A) : Prop :=
  Forall wx_ok xs /\ match xs with [] => Some None | [x] => bind (f (node_of x)) (fun a => Some (Some a)) | _ => None end = Some v.
Lemma says_nil {A} (f : node -> option A) : says f [] None. Proof. split; [constructor|reflexivity]. Qed.
Lemma says_one {A} (f : node -> option A) x a : wx_ok x -> f (node_of x) = Some a -> says f [x] (Some a).
Proof. intros W R. split; [constructor; [exact W|constructor]|rewrite R; reflexivity]. Qed.
Lemma says_when {A} (f : node -> option A) b x a : (b = true -> wx_ok x /\ f (node_of x) = Some a) -> says f (when b [x]) (if b then Some a else None).
Proof. intros H. destruct b; [destruct (H eq_refl); apply says_one; assumption|apply says_nil]. Qed.
Lemma says_opt {A B} (f : node -> option A) (o : option B) g h : (forall b, o = Some b -> wx_ok (g b) /\ f (node_of (g b)) = Some (h b)) -> says f (opt_xml o g) (option_map h o).
Proof. intros H. destruct o as [b|]; [destruct (H b eq_refl); apply says_one; assumption|apply says_nil]. Qed.
Lemma says_maybe {A} k (f : node -> option A) tags ls v xs : Forall2 tagged tags ls -> part k tags ls = xs -> says f xs v -> maybe k f (map node_of (concat ls)) = Some v.
Proof. intros K P [_ R]. rewrite (parts_maybe _ _ _ _ K), P. exact R. Qed.
Lemma says_needed {A} k (f : node -> option A) tags ls a xs : Forall2 tagged tags ls -> part k tags ls = xs -> says f xs (Some a) -> needed k f (map node_of (concat ls)) = Some a.
Proof. intros K P R. unfold needed. rewrite (says_maybe _ _ _ _ _ _ K P R). reflexivity. Qed.
Lemma says_word b tag s : good_name (lit tag) = true -> attr_ok s -> says value_of (when b [word_xml tag s]) (if b then Some s else None).
Proof. intros G D. apply says_when. intros _. split; [apply word_ok; assumption|reflexivity]. Qed.
Lemma says_word1 tag s : good_name (lit tag) = true -> attr_ok s -> says value_of [word_xml tag s] (Some s).
Proof. intros G D. apply says_one; [apply word_ok; assumption|reflexivity]. Qed.
Lemma says_num b tag n : good_name (lit tag) = true -> says number_val (when b [num_xml tag n]) (if b then Some n else None).
Proof. intros G. apply says_when. intros _. split; [apply num_ok; exact G|apply value_num]. Qed.
Lemma says_num1 tag n : good_name (lit tag) = true -> says number_val [num_xml tag n] (Some n).
Proof. intros G. apply says_one; [apply num_ok; exact G|apply value_num]. Qed.
Lemma when_flag b tag : good_name (lit tag) = true -> Forall wx_ok (when b [flag_xml tag]).
Proof. intros G. apply ok_if. constructor; [apply flag_ok, G|constructor]. Qed.
Lemma says_data tag (s : str) : good_name (lit tag) = true -> doc_text s -> says text_of (when (negb (Pkg_Model.is_nil s)) [WData (lit tag) s []]) (match s with [] => None | _ => Some s end).
Proof. intros G D. destruct s as [|c r]; [apply says_nil|]. cbn [Pkg_Model.is_nil negb when]. apply says_one; [apply ok_word; assumption|]. rewrite (node_data _ _ _ D), text_leaf. reflexivity. Qed.
Lemma part_app k t1 l1 t2 l2 : Forall2 tagged t1 l1 -> part k (t1 ++ t2) (l1 ++ l2) = part k t1 l1 ++ part k t2 l2.
Proof. intros H. induction H as [|j l t r H0 H1 IH]; [reflexivity|]. cbn [app part]. rewrite IH, app_assoc. reflexivity. Qed.
Ltac at_part := parted; reflexivity.
Ltac flag_at_part K := erewrite (flag_parts _ _ _ _ K) by at_part; cbn [bind].
Ltac maybe_part K S := match goal with |- context [maybe ?k ?f (map node_of (concat ?ls))] => erewrite (says_maybe k f _ ls _ _ K); [|at_part|exact S]; cbn [bind] end.
Ltac needed_part K S := match goal with |- context [needed ?k ?f (map node_of (concat ?ls))] => erewrite (says_needed k f _ ls _ _ K); [|at_part|exact S]; cbn [bind] end.
Ltac tagging tags tac := match goal with |- context [map node_of (concat ?x)] => assert (K2 : Forall2 tagged tags x) by tac end.

(** ** Folds *)
Lemma flag_fold {O S} (f : O -> bool) (p : S -> bool) step (l : list O) s : (forall s o, p (step s o) = if f o then true else p s) -> p s = false -> p (fold_left step l s) = existsb f l.
Proof. intros H H0. rewrite (last_fold p (fun o => if f o then Some true else None)) by (intros; rewrite H; destruct (f o); reflexivity). rewrite H0. symmetry. apply last_existsb. Qed.
Lemma nth_attr (l : list string) n : Forall (fun s => attr_ok (lit s)) l -> attr_ok (word_of l n).
Proof. intros F. unfold word_of. apply (nth_forall (fun s => attr_ok (lit s))); [exact F|reflexivity]. Qed.
Lemma format_from {O} (g : O -> option (list format_op)) (P : O -> Prop) l : (forall o v, P o -> g o = Some v -> Forall format_known v) -> Forall P l -> Forall format_known (last_of g [] l).
Proof. intros H F. apply (last_all (Forall format_known) P); [exact H|constructor|exact F]. Qed.

(** ** Markers *)
Lemma marker_reads l : Forall marker_known l -> not_both l -> says read_marker (shown_marker (Some (make_marker l))) (asked_marker l).
Proof.
  intros K Nb. set (k := make_marker l).
  assert (A1 : mk_automatic k = left_automatic l) by (apply (last_fold mk_automatic (fun o => match o with MkAutomatic => Some true | MkType _ => Some false | MkSize n => if valid_size n then Some false else None | _ => None end)); intros s []; try reflexivity; cbn [marker_step mk_automatic]; unfold size_ok, valid_size; destruct (_ && _); reflexivity).
  assert (A2 : mk_format k = chart_format (marker_format l)) by (apply (Draw_Proofs2.last_folded mk_format chart_format (fun o => match o with MkFormat l => Some l | _ => None end)); [intros s []; reflexivity|reflexivity]).
  assert (A3 : (if mk_size k =? 0 then None else Some (mk_size k)) = asked_marker_size l /\ (forall n, asked_marker_size l = Some n -> mk_size k = n)).
  { unfold k, asked_marker_size. clear. unfold make_marker. induction l as [|o l [IH1 IH2]] using rev_ind; [split; [reflexivity|discriminate]|]. rewrite fold_left_app, last_snoc. cbn [fold_left]. set (s := fold_left marker_step l marker_new) in *.
    destruct o; cbn [marker_step mk_size]; try (split; [exact IH1|exact IH2]). change (valid_size n) with (size_ok n). destruct (size_ok n) eqn:Q; [|split; [exact IH1|exact IH2]].
    unfold size_ok in Q. assert (n <> 0) by lia. split; [destruct (N.eqb_spec n 0); [congruence|reflexivity]|intros m E; congruence]. }
  assert (A4 : match mk_type k with Some n => Some (word_of marker_names n) | None => if mk_none k then Some (lit "none") else None end = asked_symbol l).
  { unfold k, asked_symbol. clear -Nb. unfold make_marker. induction l as [|o l IH] using rev_ind; [reflexivity|]. rewrite fold_left_app, last_snoc. cbn [fold_left]. set (s := fold_left marker_step l marker_new) in *.
    assert (Nb' : not_both l) by (intros p q n H; apply (Nb p (q ++ [o]) n); rewrite H, <- app_assoc; reflexivity). specialize (IH Nb'). destruct o; cbn [marker_step mk_type mk_none]; try exact IH.
    - destruct (mk_type s) as [n|] eqn:Q; [|reflexivity]. exfalso. assert (In (MkType n) l); [|exact (Nb l [] n eq_refl H)]. clear -Q. unfold s in Q. clear s.
      induction l as [|o l IH] using rev_ind; [discriminate|]. rewrite fold_left_app in Q. cbn [fold_left] in Q. apply in_or_app. destruct o; cbn [marker_step mk_type] in Q; try (left; apply IH; exact Q). right. left. congruence.
    - reflexivity. }
  assert (Kf : Forall format_known (marker_format l)) by (apply (format_from _ marker_known); [|exact K]; intros o v A B; destruct o; try discriminate; injection B as <-; exact A).
  unfold shown_marker, asked_marker. rewrite A1. destruct (left_automatic l); [apply says_nil|]. cbn [negb when]. unfold marker_xml.
  set (y := WEmpty (lit "c:symbol") _).
  assert (Wy : wx_ok y /\ value_of (node_of y) = asked_symbol l).
  { rewrite <- A4. unfold y. destruct (mk_type k) as [n|]; [|destruct (mk_none k)]; [| |split; [apply ok_leaf; reflexivity|reflexivity]].
    - split; [apply (word_ok "c:symbol"); [reflexivity|apply nth_attr; repeat constructor]|reflexivity].
    - split; [apply (word_ok "c:symbol"); reflexivity|reflexivity]. }
  destruct Wy as [Wy Ry]. destruct (sp_reads _ Kf) as [Ws _]. rewrite <- A2 in Ws.
  apply says_one.
  - apply elem_ok; [reflexivity|]. constructor; [constructor; [exact Wy|constructor]|]. constructor; [apply ok_if; constructor; [apply num_ok; reflexivity|constructor]|]. constructor; [exact Ws|constructor].
  - unfold read_marker. rewrite elem_kids. cbv zeta. tagging ["c:symbol"; "c:size"; "c:spPr"]%string kinds.
    assert (Sy : says (fun k => Some (value_of k)) [y] (Some (asked_symbol l))) by (apply says_one; [exact Wy|rewrite Ry; reflexivity]).
    needed_part K2 Sy.
    pose proof (says_num (negb (mk_size k =? 0)) "c:size" (mk_size k) eq_refl) as Sz. maybe_part K2 Sz.
    rewrite (shape_parts (marker_format l) _ _ K2 Kf) by (rewrite <- A2; at_part). cbn [bind]. destruct A3 as [<- _]. destruct (mk_size k =? 0); reflexivity.
Qed.

(** ** Points *)
Definition point_xml (f : family) (i : N) (p : dformat) : wx :=
  elem "c:dPt" [[num_xml "c:idx" i]; match f with FScatter | FLine => [elem "c:marker" [sp_pr p]] | _ => [] end; match f with FScatter | FLine => [] | _ => sp_pr p end].
Lemma point_reads f i l : Forall format_known l -> wx_ok (point_xml f i (chart_format l)) /\ read_point (node_of (point_xml f i (chart_format l))) = Some (asked_point f (i, l)).
Proof.
  intros K. destruct (sp_reads l K) as [Ws _]. set (s := sp_pr (chart_format l)) in *. unfold point_xml. fold s. set (m := match f with FScatter | FLine => [elem "c:marker" [s]] | _ => [] end). set (d := match f with FScatter | FLine => [] | _ => s end).
  assert (B : (f = FScatter \/ f = FLine) \/ (m = [] /\ d = s /\ asked_point f (i, l) = {| po_index := i; po_marker := no_shape; po_shape := asked_shape l |})) by (destruct f; auto).
  assert (Mk : wx_ok (elem "c:marker" [s]) /\ shape_in (kids_of (node_of (elem "c:marker" [s]))) = Some (asked_shape l)).
  { split; [apply elem_ok; [reflexivity|]; constructor; [exact Ws|constructor]|]. rewrite elem_kids. assert (K3 : Forall2 tagged ["c:spPr"]%string [s]) by (constructor; [apply tagged_sp|constructor]).
    apply (shape_parts l _ _ K3 K). parted. reflexivity. }
  destruct Mk as [Wm Rm].
  assert (Q : Forall wx_ok m /\ Forall wx_ok d /\ tagged "c:marker" m /\ tagged "c:spPr" d).
  { assert (Wm1 : Forall wx_ok [elem "c:marker" [s]]) by (constructor; [exact Wm|constructor]). assert (Tm1 : tagged "c:marker" [elem "c:marker" [s]]) by (apply tagged_one; reflexivity).
    assert (Ts : tagged "c:spPr" s) by apply tagged_sp. unfold m, d. destruct f; (split; [first [exact Wm1|apply Forall_nil]|split; [first [exact Ws|apply Forall_nil]|split; [first [exact Tm1|apply tagged_nil]|first [exact Ts|apply tagged_nil]]]]). }
  destruct Q as (Qm & Qd & Tm & Td). split.
  - apply elem_ok; [reflexivity|]. constructor; [constructor; [apply num_ok; reflexivity|constructor]|]. constructor; [exact Qm|]. constructor; [exact Qd|constructor].
  - unfold read_point. rewrite elem_kids. cbv zeta. tagging ["c:idx"; "c:marker"; "c:spPr"]%string ltac:(constructor; [apply tagged_one; reflexivity|]; constructor; [exact Tm|]; constructor; [exact Td|constructor]).
    pose proof (says_num1 "c:idx" i eq_refl) as Si. needed_part K2 Si. destruct B as [B|(Em & Ed & Ea)].
    + assert (Sm : says (fun m => shape_in (kids_of m)) [elem "c:marker" [s]] (Some (asked_shape l))) by (apply says_one; assumption).
      assert (Em : m = [elem "c:marker" [s]]) by (unfold m; destruct B as [->| ->]; reflexivity). assert (Ed : d = []) by (unfold d; destruct B as [->| ->]; reflexivity).
      rewrite (says_maybe "c:marker" _ _ _ _ _ K2 ltac:(parted; rewrite Em; reflexivity) Sm). cbn [bind].
      rewrite (shape_parts [] _ _ K2 ltac:(constructor)) by (parted; rewrite Ed; reflexivity). destruct B as [->| ->]; reflexivity.
    + rewrite (says_maybe "c:marker" (fun m => shape_in (kids_of m)) _ _ None [] K2 ltac:(parted; rewrite Em; reflexivity) (says_nil _)). cbn [bind].
      rewrite (shape_parts l _ _ K2 K) by (parted; rewrite Ed; reflexivity). rewrite Ea. reflexivity.
Qed.
Lemma points_made f points l : Forall (Forall format_known) l -> forall n,
  Forall wx_ok (points_xml f (N.of_nat n) points (map chart_format l)) /\ tagged "c:dPt" (points_xml f (N.of_nat n) points (map chart_format l)) /\
  read_all read_point (map node_of (points_xml f (N.of_nat n) points (map chart_format l))) = Some (map (asked_point f) (filter (fun p => (fst p <? points) && negb (no_calls (snd p))) (from_n n l))).
Proof.
  induction 1 as [|a l H F IH]; intros n; [repeat split; constructor|]. rewrite from_cons. cbn [map points_xml filter fst snd]. destruct (N.leb_spec points (N.of_nat n)).
  - replace (N.of_nat n <? points) with false by lia. cbn [andb].
    assert (Z : forall k, (n <= k)%nat -> filter (fun p => (fst p <? points) && negb (no_calls (snd p))) (from_n k l) = []).
    { clear -H0. intros k Hk. revert k Hk. induction l as [|b l IH]; intros k Hk; [reflexivity|]. rewrite from_cons. cbn [filter fst snd]. replace (N.of_nat k <? points) with false by lia. apply IH. lia. }
    rewrite Z by lia. repeat split; constructor.
  - replace (N.of_nat n <? points) with true by lia. cbn [andb]. rewrite has_formatting_calls. replace (N.of_nat n + 1) with (N.of_nat (S n)) by lia. destruct (IH (S n)) as (W & T & R).
    destruct (no_calls a) eqn:Q; cbn [negb when app]; [split; [exact W|split; [exact T|exact R]]|]. fold (point_xml f (N.of_nat n) (chart_format a)). destruct (point_reads f (N.of_nat n) a H) as [W1 R1].
    split; [constructor; assumption|]. split; [constructor; [reflexivity|exact T]|]. cbn [map read_all]. rewrite R1, R. reflexivity.
Qed.

Section Env.
Variable E : env.
Hypothesis Env : env_ok E.
Let Num : forall x, attr_text (e_num E x) := proj1 Env.
Notation known := (range_known (quotable E)).

(** ** Fonts *)
Lemma says_font (o : option cfont) (v : option text) h : (forall f, o = Some f -> fits f) -> option_map (fun f => text_of_font E f h) o = v -> says read_text (opt_xml o (fun f => tx_pr E f h)) v.
Proof. intros F <-. apply says_opt. intros b Hb. apply (tx_pr_reads E Num b h (F b Hb)). Qed.
Lemma font_view f h : text_of_font E (make_font f) h = asked_text (e_num E) h f.
Proof. unfold text_of_font, asked_text. rewrite made_letters, made_rtl, turn_asked. reflexivity. Qed.
Lemma says_num_text o tag : good_name (lit tag) = true -> says value_of (opt_xml o (fun x => word_xml tag (e_num E x))) (option_map (e_num E) o).
Proof. intros G. apply (says_opt value_of o (fun x => word_xml tag (e_num E x)) (e_num E)). intros b _. split; [apply word_ok; [exact G|apply Num]|reflexivity]. Qed.
Lemma says_above x tag : good_name (lit tag) = true -> says value_of (when (flt (f_of_N 0) x) [word_xml tag (e_num E x)]) (above_zero (e_num E) x).
Proof. intros G. apply says_word; [exact G|apply Num]. Qed.
Lemma says_layout l : says read_layout [layout_xml E l] (Some (layout_of E l)).
Proof. apply says_one; apply (layout_reads E Num l). Qed.

(** ** Trendlines *)
Lemma trend_reads l : Forall trend_known l -> says read_trend (when (trend_given (make_trend l)) [trend_xml E (make_trend l)]) (asked_trend (e_num E) l).
Proof.
  intros K. set (t := make_trend l).
  assert (A1 : tr_type t = asked_trend_type l) by (apply (last_fold tr_type (fun o => match o with TrType t => Some t | _ => None end)); intros s []; reflexivity).
  assert (A2 : tr_format t = chart_format (trend_format l)) by (apply (Draw_Proofs2.last_folded tr_format chart_format (fun o => match o with TrFormat l => Some l | _ => None end)); [intros s []; reflexivity|reflexivity]).
  assert (A3 : tr_label_format t = chart_format (trend_label_format l)) by (apply (Draw_Proofs2.last_folded tr_label_format chart_format (fun o => match o with TrLabelFormat l => Some l | _ => None end)); [intros s []; reflexivity|reflexivity]).
  set (tf := fun l => let f := make_font l in with_font f (cf_bold f) true (cf_default_bold f) (cf_rtl f)).
  assert (A4 : tr_label_font t = option_map tf (trend_label_font l)) by (apply (Draw_Proofs2.last_folded tr_label_font (option_map tf) (fun o => match o with TrLabelFont l => Some (Some l) | _ => None end)); [intros s []; reflexivity|reflexivity]).
  assert (A5 : tr_name t = trend_title l) by (apply (last_fold tr_name (fun o => match o with TrName t => Some t | _ => None end)); intros s []; reflexivity).
  assert (A6 : tr_forward t = trend_forward l) by (apply (last_fold tr_forward (fun o => match o with TrForward t => Some t | _ => None end)); intros s []; reflexivity).
  assert (A7 : tr_backward t = trend_backward l) by (apply (last_fold tr_backward (fun o => match o with TrBackward t => Some t | _ => None end)); intros s []; reflexivity).
  assert (A8 : tr_intercept t = trend_intercept l) by (apply (last_fold tr_intercept (fun o => match o with TrIntercept t => Some (Some t) | _ => None end)); intros s []; reflexivity).
  assert (A9 : tr_equation t = trend_equation l) by (apply (last_fold tr_equation (fun o => match o with TrEquation t => Some t | _ => None end)); intros s []; reflexivity).
  assert (A10 : tr_rsquared t = trend_rsquared l) by (apply (last_fold tr_rsquared (fun o => match o with TrRSquared t => Some t | _ => None end)); intros s []; reflexivity).
  assert (Kf : Forall format_known (trend_format l)) by (apply (format_from _ trend_known); [|exact K]; intros o v A B; destruct o; try discriminate; injection B as <-; exact A).
  assert (Kl : Forall format_known (trend_label_format l)) by (apply (format_from _ trend_known); [|exact K]; intros o v A B; destruct o; try discriminate; injection B as <-; exact A).
  assert (Kt : match trend_label_font l with Some f => Forall font_known f | None => True end) by (apply (last_all (fun o => match o with Some f => Forall font_known f | None => True end) trend_known); [|exact I|exact K]; intros o v A B; destruct o; try discriminate; injection B as <-; exact A).
  assert (Kn : doc_text (trend_title l)) by (apply (last_all doc_text trend_known); [|reflexivity|exact K]; intros o v A B; destruct o; try discriminate; injection B as <-; exact A).
  destruct (sp_reads _ Kf) as [Wf _]. destruct (sp_reads _ Kl) as [Wl _].
  assert (St : says read_text (opt_xml (tr_label_font t) (fun f => tx_pr E f false)) (option_map (asked_text (e_num E) false) (trend_label_font l))).
  { apply says_font; rewrite A4.
    - destruct (trend_label_font l) as [f|]; intros g Hg; [|discriminate]. injection Hg as <-. exact (made_fits f Kt).
    - destruct (trend_label_font l) as [f|]; [|reflexivity]. cbn [option_map]. f_equal. rewrite <- font_view. reflexivity. }
  set (lb := elem "c:trendlineLbl" [[layout_xml E layout_new]; [num_fmt_xml (lit "General") false]; sp_pr (tr_label_format t); opt_xml (tr_label_font t) (fun f => tx_pr E f false)]).
  assert (Wn : wx_ok (num_fmt_xml (lit "General") false)) by (split; [reflexivity|good]).
  assert (Sl : wx_ok lb /\ read_trend_label (node_of lb) = Some (lit "General", false, asked_shape (trend_label_format l), option_map (asked_text (e_num E) false) (trend_label_font l))).
  { split.
    - apply elem_ok; [reflexivity|]. constructor; [apply says_layout|]. constructor; [constructor; [exact Wn|constructor]|]. constructor; [rewrite A3; exact Wl|]. constructor; [exact (proj1 St)|constructor].
    - unfold lb, read_trend_label. rewrite elem_kids. cbv zeta. tagging ["c:layout"; "c:numFmt"; "c:spPr"; "c:txPr"]%string kinds.
      assert (Sn : says read_format_code [num_fmt_xml (lit "General") false] (Some (lit "General", false))) by (apply says_one; [exact Wn|reflexivity]).
      needed_part K2 Sn. rewrite (shape_parts (trend_label_format l) _ _ K2 Kl) by (rewrite <- A3; at_part). cbn [bind]. maybe_part K2 St. reflexivity. }
  destruct Sl as [Wlb Rlb]. unfold asked_trend. unfold trend_given. rewrite A1. set (ty := asked_trend_type l) in *.
  assert (X : wx_ok (trend_xml E t) /\ read_trend (node_of (trend_xml E t)) = Some {| td_name := match trend_title l with [] => None | s => Some s end; td_shape := asked_shape (trend_format l); td_type := trend_name_of ty;
                 td_order := match ty with TrPolynomial n => Some n | _ => None end; td_period := match ty with TrMoving n => Some n | _ => None end;
                 td_forward := above_zero (e_num E) (trend_forward l); td_backward := above_zero (e_num E) (trend_backward l); td_intercept := option_map (e_num E) (trend_intercept l); td_rsquared := trend_rsquared l;
                 td_equation := trend_equation l;
                 td_label := if trend_equation l then Some (lit "General", false, asked_shape (trend_label_format l), option_map (asked_text (e_num E) false) (trend_label_font l)) else None |}).
  { pose proof (says_data "c:name" (trend_title l) eq_refl Kn) as S1. pose proof (says_above (trend_forward l) "c:forward" eq_refl) as S2. pose proof (says_above (trend_backward l) "c:backward" eq_refl) as S3.
    pose proof (says_num_text (trend_intercept l) "c:intercept" eq_refl) as S4.
    assert (S5 : says value_of [word_xml "c:trendlineType" (lit (trend_word ty))] (Some (trend_name_of ty))) by (replace (trend_name_of ty) with (lit (trend_word ty)) by (destruct ty; reflexivity); apply says_word1; [reflexivity|destruct ty; reflexivity]).
    assert (S6 : says number_val match ty with TrPolynomial n => [num_xml "c:order" n] | _ => [] end match ty with TrPolynomial n => Some n | _ => None end) by (destruct ty; try apply says_nil; apply says_num1; reflexivity).
    assert (S7 : says number_val match ty with TrMoving n => [num_xml "c:period" n] | _ => [] end match ty with TrMoving n => Some n | _ => None end) by (destruct ty; try apply says_nil; apply says_num1; reflexivity).
    pose proof (says_when read_trend_label (trend_equation l) lb _ (fun _ => conj Wlb Rlb)) as S8.
    assert (T6 : tagged "c:order" match ty with TrPolynomial n => [num_xml "c:order" n] | _ => [] end) by (destruct ty; try constructor; [reflexivity|constructor]).
    assert (T7 : tagged "c:period" match ty with TrMoving n => [num_xml "c:period" n] | _ => [] end) by (destruct ty; try constructor; [reflexivity|constructor]).
    unfold trend_xml. fold lb. rewrite A1, A2, A5, A6, A7, A8, A9, A10. cbv zeta. split.
    - apply elem_ok; [reflexivity|]. constructor; [exact (proj1 S1)|]. constructor; [exact Wf|]. constructor; [exact (proj1 S5)|]. constructor; [exact (proj1 S6)|]. constructor; [exact (proj1 S7)|]. constructor; [exact (proj1 S2)|].
      constructor; [exact (proj1 S3)|]. constructor; [exact (proj1 S4)|]. constructor; [apply when_flag; reflexivity|]. constructor; [apply when_flag; reflexivity|]. constructor; [exact (proj1 S8)|constructor].
    - unfold read_trend. rewrite elem_kids. cbv zeta. tagging ["c:name"; "c:spPr"; "c:trendlineType"; "c:order"; "c:period"; "c:forward"; "c:backward"; "c:intercept"; "c:dispRSqr"; "c:dispEq"; "c:trendlineLbl"]%string ltac:(repeat (first [apply Forall2_nil | apply Forall2_cons]); try exact T6; try exact T7; kinds).
      maybe_part K2 S1. rewrite (shape_parts (trend_format l) _ _ K2 Kf) by at_part. cbn [bind]. needed_part K2 S5. maybe_part K2 S6. maybe_part K2 S7. maybe_part K2 S2. maybe_part K2 S3. maybe_part K2 S4.
      flag_at_part K2. flag_at_part K2. maybe_part K2 S8. destruct (trend_title l); reflexivity. }
  destruct X as [W R]. destruct ty; cbn [when]; try apply says_nil; apply says_one; assumption.
Qed.

(** ** Error bars *)
Notation asked_bars := (asked_bars (e_num E) (e_parses E) (e_cache E)).
Lemma bars_reads axis l : attr_ok (lit axis) -> Forall (bars_known (quotable E)) l ->
  wx_ok (bars_xml E axis (make_bars l)) /\ read_bars (node_of (bars_xml E axis (make_bars l))) = Some (asked_bars (if String.eqb axis "" then None else Some (lit axis)) l).
Proof.
  intros Ax K. set (b := make_bars l).
  assert (A1 : eb_type b = asked_bars_type l) by (apply (last_fold eb_type (fun o => match o with EbType t => if valid_bars t then Some t else None | _ => None end)); intros s []; try reflexivity; cbn [bars_step eb_type]; change (bars_ok t) with (valid_bars t); destruct (valid_bars t); reflexivity).
  assert (A2 : eb_format b = chart_format (bars_format l)) by (apply (Draw_Proofs2.last_folded eb_format chart_format (fun o => match o with EbFormat l => Some l | _ => None end)); [intros s []; reflexivity|reflexivity]).
  assert (A3 : eb_direction b = bars_direction l) by (apply (last_fold eb_direction (fun o => match o with EbDirection n => Some n | _ => None end)); intros s []; reflexivity).
  assert (A4 : eb_cap b = bars_cap l) by (apply (last_fold eb_cap (fun o => match o with EbCap n => Some n | _ => None end)); intros s []; reflexivity).
  assert (A5 : forall p m, asked_bars_type l = BtCustom p m -> eb_plus b = p /\ eb_minus b = m).
  { rewrite <- A1. unfold b. clear. unfold make_bars. induction l as [|o l IH] using rev_ind; [discriminate|]. intros p m. rewrite fold_left_app. cbn [fold_left]. set (s := fold_left bars_step l bars_new) in *.
    destruct o as [t| | |]; try exact (IH p m). cbn [bars_step eb_type eb_plus eb_minus]. destruct t; cbn [bars_ok]; try (destruct (negb _)); intros H; try discriminate; try exact (IH p m H). injection H as -> ->. split; reflexivity. }
  assert (Kf : Forall format_known (bars_format l)) by (apply (format_from _ (bars_known (quotable E))); [|exact K]; intros o v A B; destruct o; try discriminate; injection B as <-; exact A).
  assert (Kt : match asked_bars_type l with BtCustom p m => known p /\ known m | _ => True end).
  { apply (last_all (fun t => match t with BtCustom p m => known p /\ known m | _ => True end) (bars_known (quotable E))); [|exact I|exact K]. intros o v A B. destruct o; try discriminate. destruct (valid_bars t); [|discriminate]. injection B as <-. destruct t; try exact I. exact A. }
  destruct (sp_reads _ Kf) as [Wf _]. unfold Chart_Spec2.asked_bars. cbv zeta. set (ty := asked_bars_type l) in *.
  assert (S1 : says value_of (when (negb (String.eqb axis "")) [word_xml "c:errDir" (lit axis)]) (if String.eqb axis "" then None else Some (lit axis))).
  { pose proof (says_word (negb (String.eqb axis "")) "c:errDir" (lit axis) eq_refl Ax) as S. destruct (String.eqb axis ""); exact S. }
  pose proof (says_word1 "c:errBarType" (word_of direction_names (bars_direction l)) eq_refl (nth_attr direction_names (bars_direction l) ltac:(repeat constructor))) as S2.
  pose proof (says_word1 "c:errValType" (lit (bars_word ty)) eq_refl ltac:(destruct ty; reflexivity)) as S3.
  assert (S4 : says read_source match ty with BtCustom _ _ => [elem "c:plus" [[cache_ref E (eb_plus b) true]]] | _ => [] end match ty with BtCustom p _ => Some (source_asked (e_parses E) (e_cache E) AsNumbers p) | _ => None end).
  { destruct ty; try apply says_nil. destruct (A5 _ _ eq_refl) as [-> _]. destruct Kt as [Kp _]. apply says_one; apply (source_reads E Env "c:plus" plus true Kp eq_refl). }
  assert (S5 : says read_source match ty with BtCustom _ _ => [elem "c:minus" [[cache_ref E (eb_minus b) true]]] | _ => [] end match ty with BtCustom _ p => Some (source_asked (e_parses E) (e_cache E) AsNumbers p) | _ => None end).
  { destruct ty; try apply says_nil. destruct (A5 _ _ eq_refl) as [_ ->]. destruct Kt as [_ Kp]. apply says_one; apply (source_reads E Env "c:minus" minus true Kp eq_refl). }
  assert (S6 : says value_of match ty with BtFixed x | BtPercentage x | BtDeviation x => [word_xml "c:val" (e_num E x)] | _ => [] end match ty with BtFixed x | BtPercentage x | BtDeviation x => Some (e_num E x) | _ => None end).
  { destruct ty; try apply says_nil; (apply says_word1; [reflexivity|apply Num]). }
  unfold bars_xml. rewrite A1, A2, A3, A4. fold ty. split.
  - apply elem_ok; [reflexivity|]. constructor; [exact (proj1 S1)|]. constructor; [exact (proj1 S2)|]. constructor; [exact (proj1 S3)|]. constructor; [apply when_flag; reflexivity|]. constructor; [exact (proj1 S4)|]. constructor; [exact (proj1 S5)|].
    constructor; [exact (proj1 S6)|]. constructor; [exact Wf|constructor].
  - unfold read_bars. rewrite elem_kids. cbv zeta. tagging ["c:errDir"; "c:errBarType"; "c:errValType"; "c:noEndCap"; "c:plus"; "c:minus"; "c:val"; "c:spPr"]%string ltac:(destruct ty; kinds).
    maybe_part K2 S1. needed_part K2 S2. needed_part K2 S3. flag_at_part K2. maybe_part K2 S4. maybe_part K2 S5. maybe_part K2 S6.
    rewrite (shape_parts (bars_format l) _ _ K2 Kf) by at_part. cbn [bind]. destruct ty; reflexivity.
Qed.
End Env.
