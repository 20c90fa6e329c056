(** When a result text parses as a number; what a written cell reads as. *)
From Verif Require Import Base SMap F64 Fmt_Model Xml_Model Xml_Spec Xml_Proofs Xml_Read Xml_Read_Proofs Xml_Tree
  Sst_Model Ref_Model Ref_Spec Ref_Proofs Cells_Model Cells_Spec Rich_Model Rich_Proofs SheetXml_Model SheetXml_Spec SheetXml_Proofs.

(** ** str::parse::<f64> accepts exactly the decimal numbers and special words *)
Lemma eat_digits_spec s : forall n t, eat_digits s = (n, t) -> exists d, s = d ++ t /\ all_digits d /\ N.of_nat (length d) = n /\
  match t with c :: _ => is_ascii_digit c = false | [] => True end.
Proof.
  induction s as [|c s IH]; intros n t H; cbn [eat_digits] in H.
  - injection H as <- <-. exists []. split; [reflexivity|]. split; [intros ? []|]. split; [reflexivity|exact I].
  - destruct (is_ascii_digit c) eqn:E.
    + destruct (eat_digits s) as [n' t'] eqn:E2. apply pair_equal_spec in H as [<- <-]. destruct (IH _ _ eq_refl) as (d & -> & D & L & T).
      exists (c :: d). split; [reflexivity|]. split; [intros x [<-|Hx]; [unfold is_ascii_digit in E; lia|auto]|]. split; [cbn [length]; lia|assumption].
    + apply pair_equal_spec in H as [<- <-]. exists []. split; [reflexivity|]. split; [intros ? []|]. split; [reflexivity|assumption].
Qed.
Lemma eat_digits_app d t : all_digits d -> match t with c :: _ => is_ascii_digit c = false | [] => True end ->
  eat_digits (d ++ t) = (N.of_nat (length d), t).
Proof.
  intros D T. induction d as [|c d IH].
  - cbn [app length]. destruct t; [reflexivity|]. cbn [eat_digits]. rewrite T. reflexivity.
  - cbn [app eat_digits]. pose proof (D c (or_introl eq_refl)) as Hc.
    replace (is_ascii_digit c) with true by (unfold is_ascii_digit; lia). rewrite IH by (intros x Hx; apply D; right; assumption).
    cbn [length]. f_equal. lia.
Qed.
Lemma eat_sign_spec s : exists sg, s = sg ++ eat_sign s /\ is_sign sg.
Proof.
  destruct s as [|c s]; [exists []; split; [reflexivity|left; reflexivity]|]. cbn [eat_sign].
  destruct (N.eqb_spec c 43) as [->|]; [exists [43]; split; [reflexivity|right; left; reflexivity]|].
  destruct (N.eqb_spec c 45) as [->|]; [exists [45]; split; [reflexivity|right; right; reflexivity]|].
  exists []. split; [reflexivity|left; reflexivity].
Qed.
Definition unsigned (s : str) : Prop := match s with c :: _ => c <> 43 /\ c <> 45 | [] => True end.
Lemma eat_sign_app sg s : is_sign sg -> unsigned s -> eat_sign (sg ++ s) = s.
Proof.
  intros [->|[->| ->]] U; [|reflexivity|reflexivity]. destruct s as [|c s]; [reflexivity|]. destruct U as [U1 U2]. cbn [app eat_sign].
  destruct (N.eqb_spec c 43); [contradiction|]. destruct (N.eqb_spec c 45); [contradiction|]. reflexivity.
Qed.
Definition exp_text (s : str) : Prop :=
  s = [] \/ exists e sg2 d, s = e :: sg2 ++ d /\ (e = 101 \/ e = 69) /\ is_sign sg2 /\ all_digits d /\ d <> [].
Lemma digits_unsigned d t : all_digits d -> unsigned t -> unsigned (d ++ t).
Proof. intros D U. destruct d as [|c d]; [assumption|]. pose proof (D c (or_introl eq_refl)). cbn. lia. Qed.
Lemma exponent_ok_iff s : exponent_ok s = true <-> exp_text s.
Proof.
  unfold exponent_ok. destruct s as [|c r]; [split; [left; reflexivity|reflexivity]|]. split.
  - destruct ((c =? 101) || (c =? 69)) eqn:E; [|discriminate]. destruct (eat_digits (eat_sign r)) as [n t] eqn:E2.
    intros H. apply andb_prop in H as [H1 H2]. destruct t; [|discriminate]. destruct (eat_digits_spec _ _ _ E2) as (d & Hd & D & L & _).
    rewrite app_nil_r in Hd. destruct (eat_sign_spec r) as (sg & Hr & S). right. exists c, sg, d. split; [congruence|].
    split; [apply orb_prop in E as [E|E]; apply N.eqb_eq in E; auto|]. split; [assumption|]. split; [assumption|].
    intros ->. cbn in L. lia.
  - intros [H|(e & sg & d & H & E & S & D & Hne)]; [discriminate|]. injection H as -> ->.
    replace ((e =? 101) || (e =? 69)) with true by (destruct E as [-> | ->]; reflexivity).
    rewrite eat_sign_app; [|assumption|]. 2:{ rewrite <- (app_nil_r d). apply digits_unsigned; [assumption|exact I]. }
    rewrite <- (app_nil_r d). rewrite eat_digits_app by (assumption || exact I). destruct d as [|x d]; [congruence|]. cbn [length]. lia.
Qed.
Lemma exp_head s : exp_text s -> match s with c :: _ => is_ascii_digit c = false /\ c <> 46 | [] => True end.
Proof.
  intros [->|(e & sg & d & -> & E & _)]; [exact I|]. destruct E as [-> | ->]; split; [reflexivity|discriminate|reflexivity|discriminate].
Qed.
Definition mantissa (s : str) : Prop := exists ip fp ex, s = ip ++ fp ++ ex /\ all_digits ip /\
  (fp = [] \/ exists d, fp = 46 :: d /\ all_digits d) /\ (ip <> [] \/ (exists c d, fp = 46 :: c :: d)) /\ exp_text ex.
Lemma number_ok_iff s : number_ok s = true <-> mantissa s.
Proof.
  unfold number_ok. split.
  - destruct (eat_digits s) as [a r] eqn:E1. destruct (eat_digits_spec _ _ _ E1) as (ip & -> & D & L & T).
    destruct r as [|c r'].
    + intros H. apply andb_prop in H as [H _]. exists ip, [], []. split; [rewrite !app_nil_r; reflexivity|]. split; [assumption|].
      split; [left; reflexivity|]. split; [left; intros ->; cbn in L; lia|left; reflexivity].
    + destruct (N.eqb_spec c 46) as [->|Hc].
      * destruct (eat_digits r') as [b r''] eqn:E2. destruct (eat_digits_spec _ _ _ E2) as (fd & -> & D2 & L2 & T2).
        intros H. apply andb_prop in H as [H1 H2]. apply exponent_ok_iff in H2. exists ip, (46 :: fd), r''. split; [reflexivity|].
        split; [assumption|]. split; [right; eauto|]. split; [|assumption].
        destruct ip as [|x ip]; [|left; discriminate]. right. destruct fd as [|x fd]; [cbn in L, L2; lia|eauto].
      * intros H. apply andb_prop in H as [H1 H2]. apply exponent_ok_iff in H2. exists ip, [], (c :: r'). split; [reflexivity|].
        split; [assumption|]. split; [left; reflexivity|]. split; [left; intros ->; cbn in L; lia|assumption].
  - intros (ip & fp & ex & -> & D & F & Ne & X). pose proof (exp_head ex X) as Hx.
    assert (T : match fp ++ ex with c :: _ => is_ascii_digit c = false | [] => True end).
    { destruct F as [->|(d & -> & _)]; [destruct ex; [exact I|apply Hx]|reflexivity]. }
    rewrite (eat_digits_app ip (fp ++ ex) D T). destruct F as [->|(d & -> & D2)].
    + destruct Ne as [Ne|(? & ? & ?)]; [|discriminate]. cbn [app]. destruct ex as [|c ex].
      * cbn. destruct ip; [congruence|]. cbn [length]. rewrite andb_true_r. apply N.ltb_lt. lia.
      * destruct Hx as [_ Hx]. destruct (N.eqb_spec c 46); [contradiction|]. rewrite (proj2 (exponent_ok_iff _) X), andb_true_r.
        destruct ip; [congruence|]. cbn [length]. apply N.ltb_lt. lia.
    + cbn [app]. rewrite N.eqb_refl. assert (T2 : match ex with c :: _ => is_ascii_digit c = false | [] => True end) by (destruct ex; [exact I|apply Hx]).
      rewrite (eat_digits_app d ex D2 T2). rewrite (proj2 (exponent_ok_iff _) X), andb_true_r. apply N.ltb_lt.
      destruct Ne as [Ne|(x & d' & E)]; [destruct ip; [congruence|cbn [length]; lia]|]. injection E as ->. cbn [length]. lia.
Qed.
Lemma mantissa_unsigned s : mantissa s -> unsigned s.
Proof.
  intros (ip & fp & ex & -> & D & F & Ne & X). apply digits_unsigned; [assumption|].
  destruct F as [->|(d & -> & _)]; [|cbn; lia]. cbn [app]. destruct X as [->|(e & sg & d & -> & E & _)]; [exact I|]. cbn. lia.
Qed.
Lemma decimal_mantissa s : decimal_number s <-> mantissa (eat_sign s).
Proof.
  split.
  - intros (sg & ip & fp & ex & -> & S & D & F & Ne & X). assert (M : mantissa (ip ++ fp ++ ex)) by (exists ip, fp, ex; auto 6).
    rewrite eat_sign_app; [assumption|assumption|apply mantissa_unsigned; assumption].
  - intros (ip & fp & ex & E & D & F & Ne & X). destruct (eat_sign_spec s) as (sg & H & S). exists sg, ip, fp, ex. rewrite H, E. auto 7.
Qed.
Lemma word_ok_iff s : word_ok s = true <-> In (map ascii_lower s) [lit "inf"; lit "infinity"; lit "nan"].
Proof.
  unfold word_ok. rewrite !orb_true_iff, !str_eqb_eq. cbn [In]. intuition.
Qed.
Lemma lower_head a b x : map ascii_lower (a :: b) = lit x -> a <> 43 /\ a <> 45 \/ match lit x with c :: _ => c = 43 \/ c = 45 | [] => True end.
Proof.
  intros E. destruct (N.eq_dec a 43) as [->|]; [right; rewrite <- E; left; reflexivity|].
  destruct (N.eq_dec a 45) as [->|]; [right; rewrite <- E; right; reflexivity|]. left. auto.
Qed.
Lemma word_unsigned w : In (map ascii_lower w) [lit "inf"; lit "infinity"; lit "nan"] -> unsigned w.
Proof.
  intros H. destruct w as [|a w]; [exact I|]. cbn [unsigned]. destruct H as [H|[H|[H|[]]]]; symmetry in H;
    (destruct (lower_head a w _ H) as [?|[E|E]]; [assumption|discriminate E|discriminate E]).
Qed.
Lemma special_iff s : special_word s <-> word_ok (eat_sign s) = true.
Proof.
  rewrite word_ok_iff. split.
  - intros (sg & w & -> & S & H). rewrite eat_sign_app; [assumption|assumption|apply word_unsigned; assumption].
  - intros H. destruct (eat_sign_spec s) as (sg & E & S). exists sg, (eat_sign s). auto.
Qed.
Lemma parse_f64_ok_iff s : parse_f64_ok s = true <-> decimal_number s \/ special_word s.
Proof. unfold parse_f64_ok. rewrite orb_true_iff, number_ok_iff, <- decimal_mantissa, <- special_iff. tauto. Qed.

(** ** Results *)
Lemma error_value_iff r : existsb (str_eqb r) error_codes = true <-> error_value r.
Proof.
  rewrite existsb_exists. unfold error_value. change error_codes with (map lit ["#DIV/0!"; "#N/A"; "#NAME?"; "#NULL!"; "#NUM!"; "#REF!"; "#VALUE!"; "#GETTING_DATA"]%string).
  split; [intros (x & Hx & E); apply str_eqb_eq in E; subst; assumption|]. intros H. exists r. split; [assumption|apply str_eqb_refl].
Qed.
Lemma error_not_number r : error_value r -> parse_f64_ok r = false /\ str_eqb r (lit "TRUE") = false /\ str_eqb r (lit "FALSE") = false.
Proof. unfold error_value. cbn [map In]. intros H. repeat (destruct H as [<-|H]; [vm_compute; auto|]). destruct H. Qed.
Lemma result_reads r : plain_text r -> ~ special_word r ->
  exists q, read_result (attr "t" (res_attr r)) (res_value r) = Some q /\ result_read r q.
Proof.
  intros P Ns. unfold res_attr, res_value. destruct (parse_f64_ok r) eqn:E; cbn [negb].
  - apply parse_f64_ok_iff in E as [E|E]; [|contradiction].
    destruct (str_eqb_spec r (lit "TRUE")) as [->|]; [apply (or_introl (B := special_word (lit "TRUE"))), parse_f64_ok_iff in E; discriminate E|].
    destruct (str_eqb_spec r (lit "FALSE")) as [->|]; [apply (or_introl (B := special_word (lit "FALSE"))), parse_f64_ok_iff in E; discriminate E|].
    exists (RNumber r). split; [reflexivity|]. constructor; assumption.
  - assert (Nd : ~ decimal_number r) by (intros D; rewrite (proj2 (parse_f64_ok_iff r)) in E by auto; discriminate).
    destruct (existsb (str_eqb r) error_codes) eqn:E2.
    + apply error_value_iff in E2. destruct (error_not_number r E2) as (_ & -> & ->). exists (RError r). split; [reflexivity|]. constructor. assumption.
    + assert (Ne : ~ error_value r) by (intros D; apply error_value_iff in D; congruence).
      destruct (str_eqb_spec r (lit "TRUE")) as [->|N1]; [exists (RBool true); split; [reflexivity|constructor]|].
      destruct (str_eqb_spec r (lit "FALSE")) as [->|N2]; [exists (RBool false); split; [reflexivity|constructor]|].
      cbn [orb]. exists (RText r). split; [|constructor; assumption]. cbn. do 2 f_equal. apply P.
Qed.
