(** Conditional formats: what is built is what was asked for. *)
From Verif Require Import Base F64 Ref_Model Ref_Spec Xml_Model Xml_Spec Xml_Proofs Xml_Read Xml_Read_Proofs Xml_Tree Fmt_Model Rich_Model Rich_Proofs Props_Rich
  Cells_Model SheetXml_Spec SheetXml_Proofs SheetXml_Proofs3 Doc_Spec Url_Model Formula_Model Doc_Model Props_Doc View_Model View_Spec Setup_Spec Tag_Proofs Part_Proofs StrMap
  DV_Model DV_Spec DV_Proofs CF_Model CF_Spec CF_Build CF_Read.

Lemma given_ok {A O} (P : A -> Prop) (g : O -> option A) a ops : P a -> Forall (fun o => forall v, g o = Some v -> P v) ops -> P (last_given g a ops).
Proof.
  unfold last_given. intros H F. revert a H. induction F as [|o r Ho F IH]; intros a H; [exact H|]. cbn [fold_left]. apply IH. destruct (g o) eqn:E; [apply Ho; reflexivity|exact H].
Qed.
Lemma given_all {A O} (P : A -> Prop) (Q : O -> Prop) (g : O -> option A) a ops : Forall Q ops -> P a -> (forall o v, Q o -> g o = Some v -> P v) -> P (last_given g a ops).
Proof. intros F H G. apply given_ok; [exact H|]. rewrite Forall_forall in *. intros o Ho v E. eapply G; eauto. Qed.

Section Asked.
  Variable num_text : f64 -> str.
  Variable beyond : str -> bool.
  Hypothesis plain_numbers : forall x, forallb simple (num_text x) = true.
  Notation stored := (fun s => fst (formula_new s)).
  Notation build := (cf_build num_text beyond).
  Notation ok := (cf_op_ok stored).

  Lemma value_attr t v : point_ok stored v -> sensible num_text beyond stored t v = true -> attr_ok (cf_shown num_text stored v).
  Proof.
    destruct v as [s|z|x|s|x|b]; cbn [point_ok sensible cf_shown]; intros P S; try discriminate S.
    - destruct (z <? 0)%Z; [|apply attr_dec]. apply simple_attrs. cbn [forallb]. rewrite dec_simple. reflexivity.
    - apply simple_attrs, plain_numbers.
    - apply attr_text_ok. exact P.
    - apply simple_attrs, plain_numbers.
    - destruct b; reflexivity.
  Qed.
  Lemma value_doc v : cf_value_ok stored v -> doc_text (cf_shown num_text stored v).
  Proof.
    destruct v as [s|z|x|s|x|b]; cbn [cf_value_ok cf_shown]; intros P.
    - destruct (quoted s); [tauto|]. change (34 :: doubled s ++ [34]) with ([34] ++ doubled s ++ [34]). apply doc_app; [reflexivity|]. apply doc_app; [|reflexivity]. apply doubled_doc. tauto.
    - apply (int_doc z).
    - apply doc_simple, plain_numbers.
    - exact P.
    - apply doc_simple, plain_numbers.
    - destruct b; reflexivity.
  Qed.
  Definition pt_ok (p : point) := scale_name (fst p) = true /\ attr_ok (snd p).
  Lemma scale_given t v p : point_ok stored v -> of_scale_point num_text beyond stored t v = Some p -> pt_ok p.
  Proof.
    unfold of_scale_point. intros P. destruct (sensible num_text beyond stored t v) eqn:S; [|discriminate]. pose proof (value_attr t v P S) as A.
    destruct t; try discriminate; intros E; injection E as <-; split; try reflexivity; exact A.
  Qed.
  Lemma color_given c v : plain_color c -> in_range c = Some v -> color_ok v.
  Proof. intros P. destruct c as [n|t s| | |n]; cbn [in_range plain_color] in *; try (exact (False_ind _ P)); [destruct (N.ltb_spec n 16777216); [|discriminate]|]; intros E; injection E as <-; split; auto. Qed.
  Ltac known := eapply given_all; [eassumption| |let o := fresh "o" in let v := fresh "v" in let Q := fresh "Q" in let E := fresh "E" in intros o v Q E; destruct o; try discriminate E; cbn [cf_op_ok] in Q; first [eapply scale_given; [exact Q|exact E] | eapply color_given; [exact Q|exact E]]].
  Lemma rgb_color n : n < 16777216 -> color_ok (CRGB n). Proof. split; [exact I|assumption]. Qed.
  Lemma bar_low_ok ops : Forall ok ops -> attr_ok (snd (bar_low num_text beyond stored ops)).
  Proof.
    intros F. unfold bar_low. assert (G : forall p, attr_ok (snd p) -> attr_ok (snd (fold_left (fun p o => match o with
                          | OMin t v => if sensible num_text beyond stored t v then match t with TyHighest => p | _ => (t, cf_shown num_text stored v) end else p
                          | OClassic => match fst p with TyAutomatic => (TyLowest, snd p) | _ => p end
                          | _ => p end) ops p))); [|apply G; reflexivity].
    induction F as [|o r H F IH]; intros p P; [exact P|]. cbn [fold_left]. apply IH. destruct o; try exact P.
    - cbn [cf_op_ok] in H. destruct (sensible num_text beyond stored t v) eqn:S; [|exact P]. pose proof (value_attr t v H S). destruct t; assumption.
    - destruct (fst p); exact P.
  Qed.
  Lemma bar_high_ok ops : Forall ok ops -> attr_ok (snd (bar_high num_text beyond stored ops)).
  Proof.
    intros F. unfold bar_high. assert (G : forall p, attr_ok (snd p) -> attr_ok (snd (fold_left (fun p o => match o with
                          | OMax t v => if sensible num_text beyond stored t v then match t with TyLowest => p | _ => (t, cf_shown num_text stored v) end else p
                          | OClassic => match fst p with TyAutomatic => (TyHighest, snd p) | _ => p end
                          | _ => p end) ops p))); [|apply G; reflexivity].
    induction F as [|o r H F IH]; intros p P; [exact P|]. cbn [fold_left]. apply IH. destruct o; try exact P.
    - cbn [cf_op_ok] in H. destruct (sensible num_text beyond stored t v) eqn:S; [|exact P]. pose proof (value_attr t v H S). destruct t; assumption.
    - destruct (fst p); exact P.
  Qed.
  Lemma want_icon_ok l : Forall (icon_op_ok stored) l -> attr_ok (snd (w_point (want_icon_of num_text beyond stored l))).
  Proof.
    intros F. cbn [want_icon_of w_point]. eapply (given_all (fun p => attr_ok (snd p))); [exact F|reflexivity|]. intros o v Q E. destruct o; try discriminate E. cbn [of_icon_rule icon_op_ok] in *.
    destruct (sensible num_text beyond stored t v0) eqn:S; [|discriminate]. pose proof (value_attr t v0 Q S) as A. destruct t; try discriminate E; injection E as <-; exact A.
  Qed.
  Lemma want_icons_ok ops : Forall ok ops -> Forall (fun w => attr_ok (snd (w_point w))) (want_icons num_text beyond stored ops).
  Proof.
    intros F. unfold want_icons. eapply (given_all (Forall (fun w => attr_ok (snd (w_point w))))); [exact F|constructor|]. intros o v Q E. destruct o; try discriminate E; cbn [of_icons cf_op_ok] in *.
    - injection E as <-. unfold usual_icons, percents. apply Forall_forall. intros w Hw. apply in_map_iff in Hw as (n & <- & _). apply attr_dec.
    - injection E as <-. destruct l as [|x l]; [constructor|]. cbn [map from_lowest]. inversion_clear Q as [|? ? Qx Ql]. constructor; [reflexivity|].
      apply Forall_forall. intros w Hw. apply in_map_iff in Hw as (y & <- & Hy). rewrite Forall_forall in Ql. apply want_icon_ok. auto.
  Qed.
  Lemma build_ok k ops : usual_percents beyond -> Forall ok ops -> body_ok (cf_body (build k ops)).
  Proof.
    intros U F. destruct k.
    - rewrite (body_cell num_text beyond ops F). destruct (last_given of_cell None ops) as [r|] eqn:L; [|exact I]. cbn [option_map body_ok].
      assert (H : match last_given of_cell None ops with Some r => Forall doc_text (cell_values (map_rule (cf_shown num_text stored) r)) | None => True end); [|rewrite L in H; exact H].
      eapply (given_all (fun o => match o with Some r => Forall doc_text (cell_values (map_rule (cf_shown num_text stored) r)) | None => True end)); [exact F|exact I|]. intros o v Q E. destruct o; try discriminate E. cbn [of_cell cf_op_ok] in *. injection E as <-.
      destruct r0; cbn [map_rule cell_values]; repeat (constructor; [apply value_doc; tauto|]); constructor.
    - rewrite body_blank. exact I.
    - rewrite body_error. exact I.
    - rewrite body_duplicate. exact I.
    - rewrite body_formula. cbn [body_ok]. eapply (given_all doc_text); [exact F|reflexivity|]. intros o v Q E. destruct o; try discriminate E. cbn [of_expression cf_op_ok] in *. injection E as <-. exact Q.
    - rewrite body_average. exact I.
    - rewrite body_top. exact I.
    - rewrite body_text. cbn [body_ok]. eapply (given_all (fun o => match o with Some r => attr_ok (rule_text r) | None => True end)); [exact F|exact I|]. intros o v Q E. destruct o; try discriminate E. cbn [of_text cf_op_ok] in *. injection E as <-.
      apply attr_text_ok. destruct r; exact Q.
    - rewrite body_date. exact I.
    - destruct (scale2_fields num_text beyond ops) as (s & -> & E1 & E2 & E3 & E4). cbn [body_ok]. rewrite E1, E2, E3, E4. split.
      + constructor; [apply (given_all pt_ok ok); [exact F|split; reflexivity|intros o v Q E; destruct o; try discriminate E; eapply scale_given; [exact Q|exact E]]|].
        constructor; [apply (given_all pt_ok ok); [exact F|split; reflexivity|intros o v Q E; destruct o; try discriminate E; eapply scale_given; [exact Q|exact E]]|constructor].
      + constructor; [|constructor; [|constructor]]; (apply (given_all color_ok ok); [exact F|apply rgb_color; reflexivity|intros o v Q E; destruct o; try discriminate E; eapply color_given; [exact Q|exact E]]).
    - destruct (scale3_fields num_text beyond ops) as (s & -> & E1 & E2 & E3 & E4 & E5 & E6). cbn [body_ok]. rewrite E1, E2, E3, E4, E5, E6. split.
      + constructor; [|constructor; [|constructor; [|constructor]]]; (apply (given_all pt_ok ok); [exact F|split; reflexivity|intros o v Q E; destruct o; try discriminate E; eapply scale_given; [exact Q|exact E]]).
      + constructor; [|constructor; [|constructor; [|constructor]]]; (apply (given_all color_ok ok); [exact F|apply rgb_color; reflexivity|intros o v Q E; destruct o; try discriminate E; eapply color_given; [exact Q|exact E]]).
    - destruct (bar_fields num_text beyond ops) as (b & -> & E1 & E2 & E3 & E4 & E5 & E6 & E7 & _). cbn [body_ok]. unfold bar_ok. rewrite E1, E2, E3, E4, E5, E6, E7.
      split; [apply bar_low_ok; exact F|]. split; [apply bar_high_ok; exact F|].
      constructor; [|constructor; [|constructor; [|constructor; [|constructor; [|constructor]]]]]; (apply (given_all color_ok ok); [exact F|apply rgb_color; reflexivity|intros o v Q E; destruct o; try discriminate E; exact (color_given _ _ Q E)]).
    - destruct (icons_fields num_text beyond ops U) as (i & -> & _ & _ & _ & _ & E). cbn [body_ok]. pose proof (want_icons_ok ops F) as W. rewrite <- E in W.
      apply Forall_forall. intros x Hx. rewrite Forall_forall in W. exact (W (want_of x) (in_map want_of _ _ Hx)).
  Qed.
  Lemma multi_attr k ops : Forall ok ops -> attr_ok (cf_multi (build k ops)).
  Proof.
    intros F. rewrite build_multi. eapply (given_all attr_ok); [exact F|reflexivity|]. intros o v Q E. destruct o; try discriminate E. cbn [of_multi_range cf_op_ok] in *. injection E as <-.
    rewrite <- multi_eq. apply multi_ok. exact Q.
  Qed.

  (** Text rules *)
  Lemma easy_len s : easy_text s -> byte_len s = N.of_nat (length s).
  Proof. induction 1 as [|c s [_ H] F IH]; [reflexivity|]. cbn [byte_len fold_right length] in *. unfold byte_len in IH. rewrite IH. unfold utf8_len. destruct (N.ltb_spec c 128); lia. Qed.
  Lemma easy_double s : easy_text s -> doubled s = s.
  Proof. unfold doubled. induction 1 as [|c s [H _] F IH]; [reflexivity|]. cbn [flat_map]. rewrite IH. destruct (N.eqb_spec c 34); [congruence|reflexivity]. Qed.
  Lemma easy_formula a r : easy_text (rule_text r) -> text_formula a r = search_formula a r.
  Proof.
    intros H. destruct r; cbn [rule_text] in H; cbn [text_formula search_formula]; unfold in_formula; rewrite ?(easy_len s H), (easy_double s H); cbn [app]; rewrite <- ?app_assoc; reflexivity.
  Qed.
  Lemma build_says k ops a id : usual_percents beyond -> Forall ok ops -> Forall easy ops ->
    (if cf_valid (build k ops) then Some (shown (build k ops) a id) else None) = asked_rule num_text beyond stored k ops a id.
  Proof.
    intros U F Ez. unfold cf_valid, shown. pose proof (build_stop num_text beyond k ops) as St. rewrite St.
    assert (Sy : styled k = true -> cf_style (build k ops) = last_given of_format None ops) by (apply build_style).
    destruct k.
    - rewrite (body_cell num_text beyond ops F), Sy by reflexivity. cbn [asked_rule]. destruct (last_given of_cell None ops) as [r|]; [|reflexivity]. destruct r; reflexivity.
    - rewrite body_blank, Sy by reflexivity. cbn [asked_rule]. destruct (last_given of_inverted false ops); reflexivity.
    - rewrite body_error, Sy by reflexivity. cbn [asked_rule]. destruct (last_given of_inverted false ops); reflexivity.
    - rewrite body_duplicate, Sy by reflexivity. reflexivity.
    - rewrite body_formula, Sy by reflexivity. cbn [asked_rule]. destruct (last_given (of_expression stored) [] ops); reflexivity.
    - rewrite body_average, Sy by reflexivity. reflexivity.
    - rewrite body_top, Sy by reflexivity. cbn [asked_rule]. destruct (last_given of_top (Top 10) ops); reflexivity.
    - rewrite body_text, Sy by reflexivity. cbn [asked_rule]. assert (E : match last_given of_text None ops with Some r => easy_text (rule_text r) | None => True end).
      { eapply (given_all (fun o => match o with Some r => easy_text (rule_text r) | None => True end)); [exact Ez|exact I|]. intros o v Q E. destruct o; try discriminate E. cbn [of_text easy] in *. injection E as <-. destruct r; exact Q. }
      destruct (last_given of_text None ops) as [r|]; [|reflexivity]. rewrite easy_formula by exact E. destruct r; reflexivity.
    - rewrite body_date, Sy by reflexivity. cbn [asked_rule]. destruct (last_given of_date Yesterday ops); reflexivity.
    - destruct (scale2_fields num_text beyond ops) as (s & -> & E1 & E2 & E3 & E4). rewrite E1, E2, E3, E4. reflexivity.
    - destruct (scale3_fields num_text beyond ops) as (s & -> & E1 & E2 & E3 & E4 & E5 & E6). rewrite E1, E2, E3, E4, E5, E6. reflexivity.
    - destruct (bar_fields num_text beyond ops) as (b & -> & E1 & E2 & E3 & E4 & E5 & E6 & E7 & E8 & E9 & E10 & _). rewrite E1, E2, E3, E10, build_x14. reflexivity.
    - destruct (icons_fields num_text beyond ops U) as (i & -> & E1 & E2 & E3 & E4 & E5). rewrite E1, E2, E3. cbn [asked_rule]. rewrite <- E5, map_length, map_map, <- set_size_eq.
      destruct (Nat.eqb_spec (length (is_icons i)) (icon_count (want_set ops))) as [L|L], (N.eqb_spec (N.of_nat (length (is_icons i))) (N.of_nat (icon_count (want_set ops)))); try lia; reflexivity.
  Qed.
End Asked.
