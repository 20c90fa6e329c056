(** Conditional formats: what the builder calls build. *)
From Verif Require Import Base F64 Ref_Model Ref_Spec Xml_Model Xml_Spec Xml_Proofs Xml_Read Xml_Read_Proofs Xml_Tree Fmt_Model Rich_Model Rich_Proofs
  Cells_Model SheetXml_Spec SheetXml_Proofs SheetXml_Proofs3 Doc_Spec Url_Model Formula_Model Doc_Model Props_Doc View_Model View_Spec Setup_Spec Tag_Proofs Part_Proofs StrMap
  DV_Model DV_Spec DV_Proofs CF_Model CF_Spec.

Definition class_of (b : body) : cf_class :=
  match b with
  | BCell _ => KCell | BBlank _ => KBlank | BError _ => KError | BDuplicate _ => KDuplicate | BFormula _ => KFormula | BAverage _ => KAverage | BTop _ => KTop
  | BText _ => KText | BDate _ => KDate | BScale2 _ => KScale2 | BScale3 _ => KScale3 | BBar _ => KBar | BIcons _ => KIcons
  end.
Lemma set_name_eq s : icon_set_name s = set_name s. Proof. destruct s; reflexivity. Qed.
Lemma set_size_eq s : N.of_nat (icon_count s) = set_size s. Proof. destruct s; reflexivity. Qed.
Lemma in_range_eq c : in_range c = if color_valid c then Some c else None.
Proof.
  destruct c as [n|t s| | |n]; cbn [in_range color_valid]; try reflexivity.
  - destruct (N.ltb_spec n 16777216), (N.leb_spec n 16777215); try reflexivity; lia.
  - destruct (N.ltb_spec t 10), (N.leb_spec t 9), (N.ltb_spec s 6), (N.leb_spec s 5); try reflexivity; lia.
Qed.
Lemma if_valid_eq old c : if_valid old c = match in_range c with Some v => v | None => old end.
Proof. rewrite in_range_eq. unfold if_valid. destruct (color_valid c); reflexivity. Qed.

Lemma exists_map {A B} (f : B -> bool) (g : A -> B) l : existsb f (map g l) = existsb (fun x => f (g x)) l.
Proof. induction l as [|x l IH]; [reflexivity|]. cbn. rewrite IH. reflexivity. Qed.

Lemma or_fold {A} (f : A -> bool) l : fold_left (fun a o => a || f o) l false = existsb f l.
Proof.
  assert (G : forall b, fold_left (fun a o => a || f o) l b = b || existsb f l); [|exact (G false)].
  induction l as [|o r IH]; intros b; [cbn; rewrite orb_false_r; reflexivity|]. cbn [fold_left existsb]. rewrite IH, orb_assoc. reflexivity.
Qed.

Section Build.
  Variable num_text : f64 -> str.
  Variable beyond : str -> bool.
  Notation stored := (fun s => fst (formula_new s)).
  Notation step := (cf_step num_text beyond).
  Notation build := (cf_build num_text beyond).

  Lemma step_class c o : class_of (cf_body (step c o)) = class_of (cf_body c).
  Proof. destruct c as [b mu st x on sy]. destruct o; try reflexivity; destruct b; reflexivity. Qed.
  Lemma build_fold {A} k (f : cf -> A) (h : A -> cf_op -> A) : (forall c o, class_of (cf_body c) = k -> f (step c o) = h (f c) o) ->
    forall ops, f (build k ops) = fold_left h ops (f (cf_new k)).
  Proof.
    intros H ops. unfold cf_build. assert (K : class_of (cf_body (cf_new k)) = k) by (destruct k; reflexivity). revert K. generalize (cf_new k).
    induction ops as [|o r IH]; intros c K; [reflexivity|]. cbn [fold_left]. rewrite IH by (rewrite step_class; exact K). rewrite (H c o K). reflexivity.
  Qed.
  Lemma build_field {A} k (f : cf -> A) (g : cf_op -> option A) : (forall c o, class_of (cf_body c) = k -> f (step c o) = match g o with Some v => v | None => f c end) ->
    forall ops, f (build k ops) = last_given g (f (cf_new k)) ops.
  Proof. intros H ops. apply build_fold. exact H. Qed.
  Lemma build_class k ops : class_of (cf_body (build k ops)) = k.
  Proof. unfold cf_build. transitivity (class_of (cf_body (cf_new k))); [|destruct k; reflexivity]. generalize (cf_new k). induction ops as [|o r IH]; intros c; [reflexivity|]. cbn [fold_left]. rewrite IH. apply step_class. Qed.

  (** Common fields *)
  Ltac all_steps := intros c o K; destruct c as [b mu st x on sy]; destruct o; try reflexivity; destruct b; try discriminate K; reflexivity.
  Lemma build_stop k ops : cf_stop (build k ops) = last_given of_stop false ops.
  Proof. apply (build_field k cf_stop of_stop). all_steps. Qed.
  Lemma build_multi k ops : cf_multi (build k ops) = last_given of_multi_range [] ops.
  Proof.
    apply (build_field k cf_multi of_multi_range). intros c o K; destruct c as [b mu st x on sy]; destruct o; try reflexivity; try (destruct b; reflexivity).
    cbn [cf_step cf_multi of_multi_range]. apply multi_eq.
  Qed.
  Definition styled (k : cf_class) : bool := match k with KScale2 | KScale3 | KBar | KIcons => false | _ => true end.
  Lemma build_style k ops : styled k = true -> cf_style (build k ops) = last_given of_format None ops.
  Proof.
    intros S. apply (build_field k cf_style of_format). intros c o K; destruct c as [b mu st x on sy]; destruct o; try reflexivity; destruct b; try reflexivity; cbn in K; subst k; discriminate S.
  Qed.
  Lemma styled_has b : has_format b = styled (class_of b). Proof. destruct b; reflexivity. Qed.
  Lemma build_only k ops : cf_only (build k ops) = extension_only num_text beyond stored k ops.
  Proof.
    destruct k.
    13: { unfold extension_only. transitivity (fold_left (fun a o => a || needs_extension num_text beyond stored o) ops false).
      - apply (build_fold KIcons cf_only). intros c o K. destruct c as [b mu st x on sy]; destruct b; try discriminate K; destruct o; cbn [cf_step body_step cf_body cf_only set_body needs_extension custom_call]; try (rewrite orb_false_r; reflexivity); try reflexivity.
        f_equal. rewrite exists_map. destruct l as [|ops0 l]; [reflexivity|]. cbn [map existsb first_icon ic_custom].
        assert (C : forall ops, ic_custom (icon_build num_text beyond ops) = w_custom (want_icon_of num_text beyond stored ops)).
        { clear. intros ops. unfold icon_build, want_icon_of. cbn [w_custom]. transitivity (ic_custom icon_new || existsb touches_picture ops); [|reflexivity]. generalize icon_new. induction ops as [|o r IH]; intros i; [cbn; rewrite orb_false_r; reflexivity|].
          cbn [fold_left existsb]. rewrite IH. rewrite orb_assoc. f_equal. destruct o; cbn [icon_step touches_picture]; [destruct (negb _); [rewrite orb_false_r; reflexivity|destruct t; rewrite orb_false_r; reflexivity]| |rewrite orb_true_r; reflexivity|rewrite orb_false_r; reflexivity].
          rewrite <- set_size_eq. destruct (N.leb_spec (N.of_nat (icon_count s)) index), (N.ltb_spec index (N.of_nat (icon_count s))); try lia; cbn [ic_custom]; [rewrite orb_false_r; reflexivity|rewrite orb_true_r; reflexivity]. }
        rewrite C. f_equal. clear K. induction l as [|p l IH]; [reflexivity|]. cbn [map existsb]. rewrite C, IH. reflexivity.
      - apply or_fold. }
    all: cbn [extension_only]; transitivity (fold_left (fun (a : bool) (o : cf_op) => a) ops false); [|clear; induction ops; [reflexivity|assumption]]; eapply build_fold; intros c o K; destruct c as [b mu st x on sy]; destruct b; try discriminate K; destruct o; reflexivity.
  Qed.

  Lemma custom_is ops : ic_custom (icon_build num_text beyond ops) = existsb touches_picture ops.
  Proof.
    unfold icon_build. transitivity (ic_custom icon_new || existsb touches_picture ops); [|reflexivity]. generalize icon_new. induction ops as [|o r IH]; intros i; [cbn; rewrite orb_false_r; reflexivity|].
    cbn [fold_left existsb]. rewrite IH. rewrite orb_assoc. f_equal. destruct o; cbn [icon_step touches_picture]; [destruct (negb _); [rewrite orb_false_r; reflexivity|destruct t; rewrite orb_false_r; reflexivity]| |rewrite orb_true_r; reflexivity|rewrite orb_false_r; reflexivity].
    rewrite <- set_size_eq. destruct (N.leb_spec (N.of_nat (icon_count s)) index), (N.ltb_spec index (N.of_nat (icon_count s))); try lia; cbn [ic_custom]; [rewrite orb_false_r; reflexivity|rewrite orb_true_r; reflexivity].
  Qed.
  Lemma customs_are l : existsb ic_custom (match map (icon_build num_text beyond) l with x :: r => first_icon x :: r | [] => [] end) = existsb w_custom (map (want_icon_of num_text beyond stored) l).
  Proof.
    assert (G : forall l, existsb ic_custom (map (icon_build num_text beyond) l) = existsb w_custom (map (want_icon_of num_text beyond stored) l)).
    { clear. induction l as [|p l IH]; [reflexivity|]. cbn [map existsb]. rewrite custom_is, IH. reflexivity. }
    destruct l as [|p l]; [reflexivity|]. cbn [map existsb first_icon ic_custom]. rewrite custom_is, G. reflexivity.
  Qed.
  Lemma build_x14 k ops : cf_x14 (build k ops) = extended num_text beyond stored k ops.
  Proof.
    destruct k.
    13: { unfold extended. transitivity (fold_left (fun a o => a || needs_extension num_text beyond stored o) ops false); [|apply or_fold].
      apply (build_fold KIcons cf_x14). intros c o K. destruct c as [b mu st x on sy]; destruct b; try discriminate K; destruct o; cbn [cf_step body_step cf_body cf_x14 set_body needs_extension custom_call]; try (rewrite orb_false_r; reflexivity); try reflexivity.
      f_equal. apply customs_are. }
    12: { unfold extended. transitivity (fold_left (fun a o => a && negb (is_classic o)) ops true).
      - apply (build_fold KBar cf_x14). intros c o K. destruct c as [b mu st x on sy]; destruct b; try discriminate K; destruct o; cbn [cf_step body_step cf_body cf_x14 set_body is_classic negb]; rewrite ?andb_true_r, ?andb_false_r; reflexivity.
      - assert (G : forall b, fold_left (fun a o => a && negb (is_classic o)) ops b = b && negb (existsb is_classic ops)); [|exact (G true)].
        induction ops as [|o r IH]; intros b; [cbn; rewrite andb_true_r; reflexivity|]. cbn [fold_left existsb]. rewrite IH, negb_orb, andb_assoc. reflexivity. }
    all: cbn [extended]; transitivity (fold_left (fun (a : bool) (o : cf_op) => a) ops false); [|clear; induction ops; [reflexivity|assumption]]; eapply build_fold; intros c o K; destruct c as [b mu st x on sy]; destruct b; try discriminate K; destruct o; reflexivity.
  Qed.

  (** Values *)
  Lemma shown_value v : is_text v = false -> cf_value_text num_text v = cf_shown num_text stored v.
  Proof. destruct v as [s|z|x|s|x|b]; try (intros _; reflexivity); [discriminate|intros _; destruct b; reflexivity]. Qed.
  Lemma usable_eq t v : usable num_text beyond t v = sensible num_text beyond stored t v.
  Proof. unfold usable, sensible. destruct v; cbn [is_text negb andb]; try reflexivity; rewrite shown_value by reflexivity; destruct t; reflexivity. Qed.
  Lemma usable_value t v : usable num_text beyond t v = true -> cf_value_text num_text v = cf_shown num_text stored v.
  Proof. unfold usable. destruct v; try (intros _; apply shown_value; reflexivity). discriminate. Qed.
  Lemma rev_last {A} (l : list A) a d : match rev (a :: l) with x :: _ => x | [] => d end = last (a :: l) d.
  Proof.
    revert a. induction l as [|b l IH]; intros a; [reflexivity|]. change (last (a :: b :: l) d) with (last (b :: l) d). rewrite <- IH. cbn [rev]. destruct (rev l ++ [b]) eqn:E; [destruct (rev l); discriminate|reflexivity].
  Qed.
  Lemma quote_eq v : cf_value_ok stored v -> quote_string num_text v = cf_shown num_text stored v.
  Proof.
    intros K. unfold quote_string. destruct v as [s|z|x|s|x|b]; cbn [is_text negb orb]; try reflexivity; [|destruct b; reflexivity].
    cbn [cf_value_text cf_shown cf_value_ok] in *. destruct K as (_ & Ne & Nq). destruct s as [|c s]; [congruence|]. cbn [given negb orb].
    unfold starts_quote, ends_quote. destruct s as [|d s].
    - cbn [rev app quoted]. destruct (N.eqb_spec c 34); [subst; congruence|]. reflexivity.
    - change (quoted (c :: d :: s)) with ((c =? 34) && (last (c :: d :: s) 0 =? 34)). rewrite <- rev_last. destruct (rev (c :: d :: s)) eqn:E; [apply (f_equal (@length N)) in E; rewrite rev_length in E; discriminate|].
      destruct ((c =? 34) && (n =? 34)); reflexivity.
  Qed.

  (** The bodies *)
  Ltac of_class k ops := let K := fresh "K" in pose proof (build_class k ops) as K; destruct (cf_body (build k ops)) eqn:?; try discriminate K; clear K; cbv beta in *; repeat match goal with E : cf_body _ = _, H : context [cf_body (build k ops)] |- _ => rewrite E in H end.
  Ltac body_field k ops proj g H := pose proof (build_field k (fun c => proj (cf_body c)) g) as H; specialize (H ltac:(intros c o K; destruct c as [b mu st x on sy]; destruct b; try discriminate K; destruct o; reflexivity) ops).
  Lemma body_cell ops : Forall (cf_op_ok stored) ops ->
    cf_body (build KCell ops) = BCell (option_map (map_rule (cf_shown num_text stored)) (last_given of_cell None ops)).
  Proof.
    intros F. transitivity (BCell (option_map (map_rule (quote_string num_text)) (last_given of_cell None ops))).
    - assert (G : forall o c, cf_body c = BCell (option_map (map_rule (quote_string num_text)) o) ->
        cf_body (fold_left step ops c) = BCell (option_map (map_rule (quote_string num_text)) (fold_left (fun a o => match of_cell o with Some v => v | None => a end) ops o))); [|exact (G None (cf_new KCell) eq_refl)].
      clear F. induction ops as [|o r IH]; intros w c E; [exact E|]. cbn [fold_left]. apply IH. destruct c as [b mu st x on sy]. cbn [cf_body] in E. subst b. destruct o; reflexivity.
    - f_equal. destruct (last_given of_cell None ops) as [r|] eqn:L; [|reflexivity]. cbn [option_map]. f_equal.
      assert (G : forall w, last_given of_cell w ops = Some r -> w = Some r \/ exists o, In o ops /\ o = OCell r).
      { clear F L. unfold last_given. induction ops as [|o l IH]; intros w E; [left; exact E|]. cbn [fold_left] in E. apply IH in E as [E|(x & Hx & Ex)]; [|right; exists x; split; [right; exact Hx|exact Ex]].
        destruct o; cbn [of_cell] in E; try (left; exact E). right. eexists. split; [left; reflexivity|]. congruence. }
      destruct (G None L) as [E|(o & Ho & ->)]; [discriminate|]. rewrite Forall_forall in F. specialize (F _ Ho). cbn [cf_op_ok] in F.
      destruct r; cbn [map_rule]; try (destruct F as [F1 F2]); rewrite ?quote_eq by assumption; reflexivity.
  Qed.
  Definition inv_of b := match b with BBlank i | BError i | BDuplicate i => i | _ => false end.
  Lemma body_blank ops : cf_body (build KBlank ops) = BBlank (last_given of_inverted false ops).
  Proof. body_field KBlank ops inv_of of_inverted H. of_class KBlank ops. apply f_equal. exact H. Qed.
  Lemma body_error ops : cf_body (build KError ops) = BError (last_given of_inverted false ops).
  Proof. body_field KError ops inv_of of_inverted H. of_class KError ops. apply f_equal. exact H. Qed.
  Lemma body_duplicate ops : cf_body (build KDuplicate ops) = BDuplicate (last_given of_inverted false ops).
  Proof. body_field KDuplicate ops inv_of of_inverted H. of_class KDuplicate ops. apply f_equal. exact H. Qed.
  Definition exp_of b := match b with BFormula s => s | _ => [] end.
  Lemma body_formula ops : cf_body (build KFormula ops) = BFormula (last_given (of_expression stored) [] ops).
  Proof. body_field KFormula ops exp_of (of_expression stored) H. of_class KFormula ops. apply f_equal. exact H. Qed.
  Definition avg_of b := match b with BAverage s => s | _ => AboveAverage end.
  Lemma body_average ops : cf_body (build KAverage ops) = BAverage (last_given of_average AboveAverage ops).
  Proof. body_field KAverage ops avg_of of_average H. of_class KAverage ops. apply f_equal. exact H. Qed.
  Definition top_of b := match b with BTop s => s | _ => Top 10 end.
  Lemma body_top ops : cf_body (build KTop ops) = BTop (last_given of_top (Top 10) ops).
  Proof. body_field KTop ops top_of of_top H. of_class KTop ops. apply f_equal. exact H. Qed.
  Definition txt_of b := match b with BText s => s | _ => None end.
  Lemma body_text ops : cf_body (build KText ops) = BText (last_given of_text None ops).
  Proof. body_field KText ops txt_of of_text H. of_class KText ops. apply f_equal. exact H. Qed.
  Definition date_of b := match b with BDate s => s | _ => Yesterday end.
  Lemma body_date ops : cf_body (build KDate ops) = BDate (last_given of_date Yesterday ops).
  Proof. body_field KDate ops date_of of_date H. of_class KDate ops. apply f_equal. exact H. Qed.

  (** Scales *)
  Lemma scale_point_eq old t v : scale_point num_text beyond old t v = match of_scale_point num_text beyond stored t v with Some p => p | None => old end.
  Proof. unfold scale_point, of_scale_point. rewrite <- usable_eq. destruct (usable num_text beyond t v) eqn:U; cbn [negb]; [|reflexivity]. rewrite (usable_value t v U). destruct t; reflexivity. Qed.
  Definition sc_of b := match b with BScale2 s | BScale3 s => s | _ => scale2_new end.
  Ltac scale_field := intros c o K; destruct c as [b mu st x on sy]; destruct b; try discriminate K; destruct o; first [reflexivity | apply scale_point_eq | apply if_valid_eq].
  Lemma scale2_fields ops : exists s, cf_body (build KScale2 ops) = BScale2 s /\
    sc_min s = last_given (of_min num_text beyond stored) (TyLowest, dec 0) ops /\ sc_max s = last_given (of_max num_text beyond stored) (TyHighest, dec 0) ops /\
    sc_cmin s = last_given of_min_color (CRGB 16773020) ops /\ sc_cmax s = last_given of_max_color (CRGB 6536827) ops.
  Proof.
    pose proof (build_field KScale2 (fun c => sc_min (sc_of (cf_body c))) (of_min num_text beyond stored) ltac:(scale_field) ops) as H1.
    pose proof (build_field KScale2 (fun c => sc_max (sc_of (cf_body c))) (of_max num_text beyond stored) ltac:(scale_field) ops) as H2.
    pose proof (build_field KScale2 (fun c => sc_cmin (sc_of (cf_body c))) of_min_color ltac:(scale_field) ops) as H3.
    pose proof (build_field KScale2 (fun c => sc_cmax (sc_of (cf_body c))) of_max_color ltac:(scale_field) ops) as H4.
    of_class KScale2 ops. exists s. split; [reflexivity|]. repeat split; assumption.
  Qed.
  Lemma scale3_fields ops : exists s, cf_body (build KScale3 ops) = BScale3 s /\
    sc_min s = last_given (of_min num_text beyond stored) (TyLowest, dec 0) ops /\ sc_mid s = last_given (of_mid num_text beyond stored) (TyPercentile, dec 50) ops /\
    sc_max s = last_given (of_max num_text beyond stored) (TyHighest, dec 0) ops /\
    sc_cmin s = last_given of_min_color (CRGB 16279915) ops /\ sc_cmid s = last_given of_mid_color (CRGB 16771972) ops /\ sc_cmax s = last_given of_max_color (CRGB 6536827) ops.
  Proof.
    pose proof (build_field KScale3 (fun c => sc_min (sc_of (cf_body c))) (of_min num_text beyond stored) ltac:(scale_field) ops) as H1.
    pose proof (build_field KScale3 (fun c => sc_mid (sc_of (cf_body c))) (of_mid num_text beyond stored) ltac:(scale_field) ops) as H5.
    pose proof (build_field KScale3 (fun c => sc_max (sc_of (cf_body c))) (of_max num_text beyond stored) ltac:(scale_field) ops) as H2.
    pose proof (build_field KScale3 (fun c => sc_cmin (sc_of (cf_body c))) of_min_color ltac:(scale_field) ops) as H3.
    pose proof (build_field KScale3 (fun c => sc_cmid (sc_of (cf_body c))) of_mid_color ltac:(scale_field) ops) as H6.
    pose proof (build_field KScale3 (fun c => sc_cmax (sc_of (cf_body c))) of_max_color ltac:(scale_field) ops) as H4.
    of_class KScale3 ops. exists s. split; [reflexivity|]. repeat split; assumption.
  Qed.

  (** Data bars *)
  Definition ba_of b := match b with BBar s => s | _ => bar_new end.
  Ltac bar_field := intros c o K; destruct c as [b mu st x on sy]; destruct b; try discriminate K; destruct o; first [reflexivity | apply if_valid_eq].
  Lemma bar_low_eq ops : ba_min (ba_of (cf_body (build KBar ops))) = bar_low num_text beyond stored ops.
  Proof.
    apply (build_fold KBar (fun c => ba_min (ba_of (cf_body c)))). intros c o K; destruct c as [b mu st x on sy]; destruct b; try discriminate K; destruct o; try reflexivity.
    cbn [cf_step body_step cf_body set_body ba_of bar_points ba_min]. unfold bar_min. rewrite <- usable_eq. destruct (usable num_text beyond t v) eqn:U; cbn [negb]; [|reflexivity]. rewrite (usable_value t v U). destruct t; reflexivity.
  Qed.
  Lemma bar_high_eq ops : ba_max (ba_of (cf_body (build KBar ops))) = bar_high num_text beyond stored ops.
  Proof.
    apply (build_fold KBar (fun c => ba_max (ba_of (cf_body c)))). intros c o K; destruct c as [b mu st x on sy]; destruct b; try discriminate K; destruct o; try reflexivity.
    cbn [cf_step body_step cf_body set_body ba_of bar_points ba_max]. unfold bar_max. rewrite <- usable_eq. destruct (usable num_text beyond t v) eqn:U; cbn [negb]; [|reflexivity]. rewrite (usable_value t v U). destruct t; reflexivity.
  Qed.
  Lemma bar_fields ops : exists b, cf_body (build KBar ops) = BBar b /\
    ba_min b = bar_low num_text beyond stored ops /\ ba_max b = bar_high num_text beyond stored ops /\
    ba_fill b = last_given of_fill (CRGB 6524614) ops /\ ba_border b = last_given of_border (CRGB 6524614) ops /\
    ba_nfill b = last_given of_neg_fill (CRGB 16711680) ops /\ ba_nborder b = last_given of_neg_border (CRGB 16711680) ops /\ ba_axis b = last_given of_axis_color (CRGB 0) ops /\
    ba_off b = last_given of_border_off false ops /\ ba_solid b = last_given of_solid false ops /\ ba_only b = last_given of_bar_only false ops /\
    ba_dir b = last_given of_direction DirContext ops /\ ba_pos b = last_given of_axis AxisAutomatic ops.
  Proof.
    pose proof (bar_low_eq ops) as H1. pose proof (bar_high_eq ops) as H2.
    pose proof (build_field KBar (fun c => ba_fill (ba_of (cf_body c))) of_fill ltac:(bar_field) ops) as H3.
    pose proof (build_field KBar (fun c => ba_border (ba_of (cf_body c))) of_border ltac:(bar_field) ops) as H4.
    pose proof (build_field KBar (fun c => ba_nfill (ba_of (cf_body c))) of_neg_fill ltac:(bar_field) ops) as H5.
    pose proof (build_field KBar (fun c => ba_nborder (ba_of (cf_body c))) of_neg_border ltac:(bar_field) ops) as H6.
    pose proof (build_field KBar (fun c => ba_axis (ba_of (cf_body c))) of_axis_color ltac:(bar_field) ops) as H7.
    pose proof (build_field KBar (fun c => ba_off (ba_of (cf_body c))) of_border_off ltac:(bar_field) ops) as H8.
    pose proof (build_field KBar (fun c => ba_solid (ba_of (cf_body c))) of_solid ltac:(bar_field) ops) as H9.
    pose proof (build_field KBar (fun c => ba_only (ba_of (cf_body c))) of_bar_only ltac:(bar_field) ops) as H10.
    pose proof (build_field KBar (fun c => ba_dir (ba_of (cf_body c))) of_direction ltac:(bar_field) ops) as H11.
    pose proof (build_field KBar (fun c => ba_pos (ba_of (cf_body c))) of_axis ltac:(bar_field) ops) as H12.
    of_class KBar ops. exists b. split; [reflexivity|]. repeat split; assumption.
  Qed.

  (** Icons *)
  Definition want_of (i : icon) : want_icon :=
    {| w_point := (ic_type i, ic_value i); w_greater := ic_greater i; w_picture := match ic_set i with Some s => Some (s, ic_index i) | None => None end;
       w_none := ic_none i; w_custom := ic_custom i |}.
  Lemma icon_field {A} (f : icon -> A) (g : icon_op -> option A) : (forall i o, f (icon_step num_text beyond i o) = match g o with Some v => v | None => f i end) ->
    forall ops, f (icon_build num_text beyond ops) = last_given g (f icon_new) ops.
  Proof.
    intros H ops. unfold icon_build, last_given. generalize icon_new. induction ops as [|o r IH]; intros i; [reflexivity|]. cbn [fold_left]. rewrite IH, H. reflexivity.
  Qed.
  Lemma want_build ops : want_of (icon_build num_text beyond ops) = want_icon_of num_text beyond stored ops.
  Proof.
    unfold want_of, want_icon_of. f_equal.
    - apply (icon_field (fun i => (ic_type i, ic_value i))). intros i o. destruct o; cbn [icon_step of_icon_rule]; try reflexivity; [|destruct (_ <=? _); reflexivity].
      rewrite <- usable_eq. destruct (usable num_text beyond t v) eqn:U; cbn [negb]; [|reflexivity]. rewrite (usable_value t v U). destruct t; reflexivity.
    - apply (icon_field ic_greater). intros i o. destruct o; cbn [icon_step of_icon_greater]; try reflexivity; [destruct (negb _); [reflexivity|destruct t; reflexivity]|destruct (_ <=? _); reflexivity].
    - apply (icon_field (fun i => match ic_set i with Some s => Some (s, ic_index i) | None => None end)). intros i o. destruct o; cbn [icon_step of_icon_type]; try reflexivity; [destruct (negb _); [reflexivity|destruct t; reflexivity]|].
      rewrite <- set_size_eq. destruct (N.leb_spec (N.of_nat (icon_count s)) index), (N.ltb_spec index (N.of_nat (icon_count s))); try lia; reflexivity.
    - apply (icon_field ic_none). intros i o. destruct o; cbn [icon_step of_icon_none]; try reflexivity; [destruct (negb _); [reflexivity|destruct t; reflexivity]|destruct (_ <=? _); reflexivity].
    - apply custom_is.
  Qed.
  Lemma want_first l : map want_of (match map (icon_build num_text beyond) l with x :: r => first_icon x :: r | [] => [] end) = from_lowest (map (want_icon_of num_text beyond stored) l).
  Proof.
    assert (G : forall l, map want_of (map (icon_build num_text beyond) l) = map (want_icon_of num_text beyond stored) l).
    { clear. induction l as [|p l IH]; [reflexivity|]. cbn [map]. rewrite want_build, IH. reflexivity. }
    destruct l as [|p l]; [reflexivity|]. cbn [map from_lowest]. rewrite G, <- want_build. reflexivity.
  Qed.
  (** Percentages of whole numbers up to a hundred are accepted. *)
  Definition usual_percents := forall n, n <= 100 -> beyond (dec n) = false.
  Lemma want_percent n : usual_percents -> n <= 100 -> want_of (percent_icon num_text beyond n) = {| w_point := (TyPercent, dec n); w_greater := false; w_picture := None; w_none := false; w_custom := false |}.
  Proof.
    intros U L. unfold percent_icon, icon_build. cbn [fold_left icon_step]. unfold usable. cbn [is_text negb andb is_percent cf_value_text]. unfold int_text.
    destruct (Z.ltb_spec (Z.of_N n) 0); [lia|]. rewrite N2Z.id, (U n L). reflexivity.
  Qed.
  Lemma want_default s : usual_percents -> map want_of (default_icons num_text beyond s) = usual_icons s.
  Proof.
    intros U. unfold default_icons, usual_icons, percents. rewrite map_map, <- set_size_eq. destruct s; cbn [icon_count N.of_nat N.eqb Pos.of_succ_nat Pos.succ Pos.eqb map]; rewrite !want_percent by (try exact U; lia); reflexivity.
  Qed.
  Definition is_of b := match b with BIcons s => s | _ => {| is_set := ThreeTrafficLights; is_reversed := false; is_only := false; is_custom := false; is_icons := [] |} end.
  Ltac icons_field := intros c o K; destruct c as [b mu st x on sy]; destruct b; try discriminate K; destruct o; reflexivity.
  Lemma icons_fields ops : usual_percents -> exists i, cf_body (build KIcons ops) = BIcons i /\
    is_set i = want_set ops /\ is_reversed i = last_given of_reverse false ops /\ is_only i = last_given of_icons_only false ops /\
    is_custom i = existsb (custom_call num_text beyond stored) ops /\ map want_of (is_icons i) = want_icons num_text beyond stored ops.
  Proof.
    intros U. pose proof (build_field KIcons (fun c => is_set (is_of (cf_body c))) of_icon_set ltac:(icons_field) ops) as H1.
    pose proof (build_field KIcons (fun c => is_reversed (is_of (cf_body c))) of_reverse ltac:(icons_field) ops) as H2.
    pose proof (build_field KIcons (fun c => is_only (is_of (cf_body c))) of_icons_only ltac:(icons_field) ops) as H3.
    assert (H4 : is_custom (is_of (cf_body (build KIcons ops))) = existsb (custom_call num_text beyond stored) ops).
    { rewrite <- or_fold. apply (build_fold KIcons (fun c => is_custom (is_of (cf_body c)))). intros c o K; destruct c as [b mu st x on sy]; destruct b; try discriminate K; destruct o; cbn [cf_step body_step cf_body set_body is_of is_custom custom_call]; rewrite ?orb_false_r; try reflexivity.
      f_equal. apply customs_are. }
    assert (H5 : map want_of (is_icons (is_of (cf_body (build KIcons ops)))) = want_icons num_text beyond stored ops).
    { apply (build_field KIcons (fun c => map want_of (is_icons (is_of (cf_body c))))). intros c o K; destruct c as [b mu st x on sy]; destruct b; try discriminate K; destruct o; cbn [cf_step body_step cf_body set_body is_of is_icons of_icons]; try reflexivity.
      - apply want_default. exact U.
      - apply want_first. }
    of_class KIcons ops. exists i. split; [reflexivity|]. repeat split; assumption.
  Qed.
End Build.
