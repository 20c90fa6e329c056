(** C63: data validations. *)
From Verif Require Import Base Book_Model F64 Ref_Model Ref_Spec Xml_Model Xml_Spec Xml_Proofs Xml_Read Xml_Read_Proofs Xml_Tree Rich_Model Rich_Proofs
  Cells_Model SheetXml_Spec SheetXml_Proofs SheetXml_Proofs3 Doc_Spec Url_Model Formula_Model Doc_Model Props_Doc View_Model View_Spec Setup_Spec Part_Model Tag_Proofs Part_Proofs
  Props_Part View_Hist Part_Groups StrMap DV_Model DV_Spec DV_Proofs.

(** The last of the calls that ask for something. *)
Definition same_range (a b : N * N * (N * N)) : bool :=
  let '(a1, a2, (a3, a4)) := a in let '(b1, b2, (b3, b4)) := b in (a1 =? b1) && (a2 =? b2) && (a3 =? b3) && (a4 =? b4).
Lemma same_range_eq a b : same_range a b = true <-> a = b.
Proof. destruct a as [[a1 a2] [a3 a4]], b as [[b1 b2] [b3 b4]]. cbn. rewrite !andb_true_iff, !N.eqb_eq. intuition congruence. Qed.

Lemma last_from {A O} (g : O -> option (option A)) v l : last_given g None l = Some v -> exists o, In o l /\ g o = Some (Some v).
Proof.
  unfold last_given. assert (G : forall l o, fold_left (fun a o => match g o with Some v => v | None => a end) l o = Some v -> o = Some v \/ exists x, In x l /\ g x = Some (Some v)).
  { clear l. induction l as [|a r IH]; intros o H; [left; exact H|]. cbn [fold_left] in H. apply IH in H as [H|(x & Hx & E)]; [|right; exists x; split; [right; exact Hx|exact E]].
    destruct (g a) eqn:Ea; [right; exists a; split; [left; reflexivity|congruence]|left; exact H]. }
  intros H. apply G in H as [H|H]; [discriminate|exact H].
Qed.

Section Validations.
  Variable num_text : f64 -> str.
  Variable m : ovf.
  Hypothesis plain_numbers : forall x, forallb simple (num_text x) = true.
  Notation stored := (fun s => fst (formula_new s)).
  (** The calls in turn; [None]: a panic or a validation that could not be built. *)
  Fixpoint dv_run (s : list (str * dv)) (adds : list dv_add) : option (list (str * dv)) :=
    match adds with
    | [] => Some s
    | ((fr, fc, (lr, lc)), ops) :: r =>
        d <- dv_build num_text dv_new ops ;; p <- add_data_validation m s fr fc lr lc d ;; dv_run (fst p) r
    end.
  (** Whether a call takes effect, and the text it takes effect for: the ranges
      given with set_multi_range, else the range of the call. *)
  Definition effective (a : dv_add) : bool := proper_range (fst a) && negb (idle num_text stored (snd a)).
  Definition target (a : dv_add) : option str :=
    let '((fr, fc, (lr, lc)), ops) := a in
    match last_given of_multi [] ops with [] => cell_range m fr fc lr lc | t => Some t end.
  Definition wanted (t : str) (adds : list dv_add) : option validation :=
    last_given (fun a => if effective a && match target a with Some u => str_eqb u t | None => false end then Some (Some (asked num_text stored (snd a))) else None) None adds.

  Record inv (s : list (str * dv)) (done : list dv_add) : Prop := {
    i_sorted : sm_ok s;
    i_ok : Forall (fun p => attr_ok (fst p) /\ dv_ok (snd p)) s;
    i_get : forall t, option_map says (sm_get t s) = wanted t done }.
  Lemma ins_forall {V} (P : str * V -> Prop) k v s : Forall P s -> P (k, v) -> Forall P (sm_ins k v s).
  Proof.
    induction 1 as [|[j w] s Hw F IH]; intros Hk; [constructor; [exact Hk|constructor]|]. cbn [sm_ins]. destruct (str_eqb k j); [constructor; assumption|].
    destruct (str_leb k j); constructor; auto.
  Qed.
  Lemma step_inv s done a : inv s done -> existsb too_long (snd a) = false -> Forall (op_texts stored) (snd a) ->
    exists d e t, dv_build num_text dv_new (snd a) = Some d /\ (let '(fr, fc, (lr, lc)) := fst a in add_data_validation m s fr fc lr lc d) = Some (t, e) /\
      e = negb (proper_range (fst a)) /\ inv t (done ++ [a]).
  Proof.
    intros S T O. destruct (build_some num_text (snd a) T) as (d & B). exists d. pose proof (build_ok num_text plain_numbers _ O _ _ new_ok B) as D.
    destruct a as [[[fr fc] [lr lc]] ops]. cbn [fst snd] in *. unfold add_data_validation, proper_range. change check_dimensions_only with on_grid.
    assert (Stay : effective ((fr, fc, (lr, lc)), ops) = false -> inv s (done ++ [((fr, fc, (lr, lc)), ops)])).
    { intros E. destruct S. constructor; try assumption. intros t. rewrite i_get0. unfold wanted, last_given. rewrite fold_left_app. cbn [fold_left]. rewrite E. reflexivity. }
    unfold effective in Stay. cbn [fst snd proper_range] in Stay.
    destruct (on_grid fr fc) eqn:A, (on_grid lr lc) eqn:C; cbn [negb orb andb] in *; try (exists true, s; repeat (split; [first [assumption|reflexivity]|]); apply Stay; reflexivity).
    destruct (N.ltb_spec lr fr); cbn [orb].
    { exists true, s. destruct (N.leb_spec fr lr); [lia|]. repeat (split; [first [assumption|reflexivity]|]). apply Stay. reflexivity. }
    destruct (N.ltb_spec lc fc); cbn [orb].
    { exists true, s. destruct (N.leb_spec fc lc); [lia|]. rewrite andb_false_r in *. repeat (split; [first [assumption|reflexivity]|]). apply Stay. reflexivity. }
    destruct (N.leb_spec fr lr); [|lia]. destruct (N.leb_spec fc lc); [|lia]. cbn [andb negb] in *.
    rewrite (build_idle num_text ops d B). destruct (idle num_text stored ops) eqn:Id.
    { exists false, s. repeat (split; [first [assumption|reflexivity]|]). apply Stay. reflexivity. }
    apply on_grid_lt in A as [A1 A2]. apply on_grid_lt in C as [C1 C2]. destruct (range_text m fr fc lr lc A1 A2 C1 C2) as (u & Eu & Au & _ & _). rewrite Eu. cbn [obind].
    eexists false, _. split; [exact B|]. split; [reflexivity|]. split; [reflexivity|].
    set (key := if given (dv_multi d) then dv_multi d else u).
    assert (Kt : target ((fr, fc, (lr, lc)), ops) = Some key).
    { unfold target. rewrite <- (build_multi num_text ops d B), Eu. unfold key. destruct (dv_multi d); reflexivity. }
    assert (Ka : attr_ok key) by (unfold key; destruct (given (dv_multi d)); [apply D|exact Au]).
    destruct S. constructor.
    - apply sm_ins_ok. assumption.
    - apply ins_forall; [assumption|]. split; assumption.
    - intros t. rewrite sm_get_ins. unfold wanted, last_given. rewrite fold_left_app. cbn [fold_left]. unfold effective at 1. cbn [fst snd]. unfold proper_range.
      rewrite Kt, Id. unfold on_grid. assert (R : (fr <? 1048576) = true /\ (fc <? 16384) = true /\ (lr <? 1048576) = true /\ (lc <? 16384) = true) by (unfold ROW_MAX, COL_MAX in *; lia).
      destruct R as (R1 & R2 & R3 & R4). rewrite R1, R2, R3, R4. destruct (N.leb_spec fr lr); [|lia]. destruct (N.leb_spec fc lc); [|lia]. cbn [andb negb].
      destruct (str_eqb key t) eqn:E; [cbn [option_map]; rewrite (build_says num_text ops d B); reflexivity|]. exact (i_get0 t).
  Qed.
  Definition buildable (a : dv_add) : Prop := existsb too_long (snd a) = false /\ Forall (op_texts stored) (snd a).
  Lemma run_inv adds : Forall buildable adds -> forall s done, inv s done -> exists t, dv_run s adds = Some t /\ inv t (done ++ adds).
  Proof.
    induction 1 as [|a r [T O] F IH]; intros s done S; [exists s; split; [reflexivity|rewrite app_nil_r; exact S]|].
    destruct (step_inv s done a S T O) as (d & e & t & B & E & _ & St). cbn [dv_run]. destruct a as [[[fr fc] [lr lc]] ops]. cbn [fst snd] in *. rewrite B. cbn [obind]. rewrite E. cbn [obind fst].
    destruct (IH t _ St) as (u & Eu & Su). exists u. split; [exact Eu|]. rewrite <- app_assoc in Su. exact Su.
  Qed.
  Lemma inv_new : inv [] []. Proof. constructor; [constructor|constructor|reflexivity]. Qed.

  Lemma validations_ok s done : inv s done -> section_ok "dataValidations" (validations_xml s).
  Proof.
    intros [_ F _]. unfold validations_xml. destruct s as [|p s]; [split; [constructor|apply amo_nil]|]. split; [|apply amo_one; reflexivity].
    constructor; [|constructor]. apply wx_ok_elem. split; [reflexivity|]. split; [good|]. apply Forall_forall. intros x Hx. apply in_map_iff in Hx as ([k d] & <- & Hd).
    rewrite Forall_forall in F. destruct (F _ Hd). apply dv_xml_ok; assumption.
  Qed.
  Lemma read_all_forall {A B} (f : A -> option B) g l : Forall (fun x => f x = Some (g x)) l -> read_all f l = Some (map g l).
  Proof. induction 1 as [|x l H F IH]; [reflexivity|]. cbn [read_all map]. rewrite H. cbn [bind]. rewrite IH. reflexivity. Qed.
  Lemma kid_is k l : kid k l = match kids_named k l with n :: _ => Some n | [] => None end.
  Proof. unfold kid, kids_named. induction l as [|n l IH]; [reflexivity|]. cbn [find filter]. destruct (is_elem k n); [reflexivity|exact IH]. Qed.
  Lemma validations_read s done root : inv s done -> kids_named "dataValidations" (kids_of root) = map node_of (validations_xml s) ->
    read_validations root = Some (map (fun p => (fst p, says (snd p))) s).
  Proof.
    intros [_ F _] K.
    assert (R : read_all read_validation (map node_of (map dv_xml s)) = Some (map (fun p => (fst p, says (snd p))) s)).
    { clear K. rewrite map_map. induction F as [|[k d] r [_ D] F IH]; [reflexivity|]. cbn [fst snd] in D. cbn [map read_all]. rewrite (dv_reads k d D). cbn [bind]. rewrite IH. reflexivity. }
    unfold read_validations. rewrite kid_is, K. unfold validations_xml. destruct s as [|p s]; [reflexivity|]. cbn [map node_of kids_of attrs_of] in *. rewrite R. cbn [bind].
    rewrite attr_cons. cbn [String.eqb Ascii.eqb Bool.eqb bind]. rewrite number_of_dec. cbn [bind length]. rewrite map_length, N.eqb_refl. reflexivity.
  Qed.
  Lemma get_map_says t s : sm_get t (map (fun p => (fst p, says (snd p))) s) = option_map says (sm_get t s).
  Proof. induction s as [|[k d] s IH]; [reflexivity|]. cbn [map fst snd sm_get]. destruct (str_eqb k t); [reflexivity|exact IH]. Qed.

  (** C63: no call panics; the sheet has for every text of ranges at most one
      validation, the one asked for last. *)
  Theorem C63_data_validations adds : Forall buildable adds -> exists s, dv_run [] adds = Some s /\
    section_ok "dataValidations" (validations_xml s) /\
    forall i, n_dv i = validations_xml s -> sections_ok i -> both_extensions i = false ->
      exists text root l, worksheet_text num_text m i = Some text /\ read_document text = Some root /\ read_validations root = Some l /\
        NoDup (map fst l) /\ forall t v, In (t, v) l <-> wanted t adds = Some v.
  Proof.
    intros F. destruct (run_inv adds F [] [] inv_new) as (s & E & S). exists s. split; [exact E|]. cbn [app] in S. split; [exact (validations_ok s _ S)|]. intros i Hi Ok B.
    destruct (worksheet_section num_text m plain_numbers i Ok B) as (text & root & Et & R & _ & _ & _ & _ & _ & _ & K & _). rewrite Hi in K.
    exists text, root, (map (fun p => (fst p, says (snd p))) s). split; [exact Et|]. split; [exact R|]. split; [exact (validations_read s _ root S K)|].
    assert (Nd : NoDup (map fst (map (fun p : str * dv => (fst p, says (snd p))) s))) by (rewrite map_map; cbn [fst]; apply (sm_nodup s); apply S).
    split; [exact Nd|]. intros t v. rewrite <- (i_get s adds S t), <- get_map_says. split; [apply sm_in_get; exact Nd|apply sm_get_in].
  Qed.

  (** Without set_multi_range: for every range at most one validation, the last one
      asked for it. *)
  Definition wanted_for (q : N * N * (N * N)) (adds : list dv_add) : option validation :=
    last_given (fun a => if effective a && same_range (fst a) q then Some (Some (asked num_text stored (snd a))) else None) None adds.
  Definition no_multi (a : dv_add) : Prop := last_given of_multi [] (snd a) = [].
  Lemma target_range a q : effective a = true -> no_multi a -> proper_range q = true -> forall t, (let '(fr, fc, (lr, lc)) := q in cell_range m fr fc lr lc) = Some t ->
    match target a with Some u => str_eqb u t | None => false end = same_range (fst a) q.
  Proof.
    intros E M Q t Et. unfold effective in E. apply andb_prop in E as [P _]. destruct a as [[[fr fc] [lr lc]] ops]. destruct q as [[gr gc] [hr hc]]. cbn [fst snd] in *. unfold no_multi in M. cbn [snd] in M.
    unfold target. rewrite M. unfold proper_range in *. apply andb_prop in P as [P _]. apply andb_prop in P as [P _]. apply andb_prop in P as [P1 P2]. apply andb_prop in Q as [Q _]. apply andb_prop in Q as [Q _]. apply andb_prop in Q as [Q1 Q2].
    apply on_grid_lt in P1 as [? ?]. apply on_grid_lt in P2 as [? ?]. apply on_grid_lt in Q1 as [? ?]. apply on_grid_lt in Q2 as [? ?].
    destruct (range_text m fr fc lr lc) as (u & Eu & _ & _ & Ru); try assumption. destruct (range_text m gr gc hr hc) as (t' & Et' & _ & _ & Rt); try assumption.
    assert (t' = t) by congruence. subst t'. rewrite Eu. apply Bool.eq_iff_eq_true. rewrite same_range_eq, str_eqb_eq. split; intros X; [subst; congruence|]. injection X as -> -> -> ->. congruence.
  Qed.
  Theorem C63_by_range adds : Forall buildable adds -> Forall no_multi adds -> exists s, dv_run [] adds = Some s /\
    forall i, n_dv i = validations_xml s -> sections_ok i -> both_extensions i = false ->
      exists text root l, worksheet_text num_text m i = Some text /\ read_document text = Some root /\
        bind (read_validations root) (read_all (fun e => bind (range_of (fst e)) (fun q => Some (q, snd e)))) = Some l /\
        NoDup (map fst l) /\ forall q v, In (q, v) l <-> wanted_for q adds = Some v.
  Proof.
    intros F M. destruct (C63_data_validations adds F) as (s & E & _ & H). exists s. split; [exact E|]. intros i Hi Ok B. destruct (H i Hi Ok B) as (text & root & l & Et & R & Rv & Nd & Q). clear H.
    (* every text is that of the range of an effective call *)
    assert (K : forall t v, In (t, v) l -> exists q, proper_range q = true /\ (let '(fr, fc, (lr, lc)) := q in cell_range m fr fc lr lc) = Some t /\ range_of t = Some q).
    { intros t v Hin. apply Q in Hin. unfold wanted in Hin. apply last_from in Hin as (a & Ha & Hn). rewrite Forall_forall in M. specialize (M a Ha).
      destruct (effective a) eqn:Ef; [|discriminate]. cbn [andb] in Hn.
      unfold effective in Ef. apply andb_prop in Ef as [P _]. exists (fst a). split; [exact P|]. destruct a as [[[fr fc] [lr lc]] ops]. cbn [fst snd] in *. unfold no_multi in M. cbn [snd] in M. unfold target in Hn. rewrite M in Hn.
      unfold proper_range in P. apply andb_prop in P as [P _]. apply andb_prop in P as [P _]. apply andb_prop in P as [P1 P2]. apply on_grid_lt in P1 as [? ?]. apply on_grid_lt in P2 as [? ?].
      destruct (range_text m fr fc lr lc) as (u & Eu & _ & _ & Ru); try assumption. rewrite Eu in Hn. destruct (str_eqb u t) eqn:Ut; [|discriminate]. apply str_eqb_eq in Ut. subst u. split; assumption. }
    assert (W : forall q t, proper_range q = true -> (let '(fr, fc, (lr, lc)) := q in cell_range m fr fc lr lc) = Some t -> wanted t adds = wanted_for q adds).
    { intros q t Pq Eq. unfold wanted, wanted_for, last_given. generalize (@None validation). clear - M Pq Eq. induction M as [|a r Na M IH]; intros o; [reflexivity|]. cbn [fold_left].
      destruct (effective a) eqn:Ef; cbn [andb]; [rewrite (target_range a q Ef Na Pq t Eq)|]; apply IH. }
    exists text, root, (map (fun e => (match range_of (fst e) with Some q => q | None => (0, 0, (0, 0)) end, snd e)) l). split; [exact Et|]. split; [exact R|]. rewrite Rv. cbn [bind]. split; [|split].
    - apply read_all_forall. apply Forall_forall. intros [t v] Hin. destruct (K t v Hin) as (q & _ & _ & Rq). cbn [fst snd]. rewrite Rq. reflexivity.
    - assert (Inj : forall t v t' v', In (t, v) l -> In (t', v') l -> range_of t = range_of t' -> t = t').
      { intros t v t' v' H1 H2 HR. destruct (K t v H1) as (q & _ & E1 & R1). destruct (K t' v' H2) as (q' & _ & E2 & R2). assert (q = q') by congruence. subst q'. congruence. }
      clear - Nd Inj K. induction l as [|[t v] l IH]; [constructor|]. cbn [map fst snd] in *. inversion Nd as [|? ? N1 N2]; subst. constructor.
      + intros Hin. apply in_map_iff in Hin as (x & Hx & Hin). apply in_map_iff in Hin as ([t' v'] & <- & Hin). cbn [fst snd] in Hx. apply N1.
        destruct (K t v (or_introl eq_refl)) as (q & _ & _ & R1). destruct (K t' v' (or_intror Hin)) as (q' & _ & _ & R2). rewrite R1, R2 in Hx.
        replace t with t'; [apply (in_map fst) in Hin; exact Hin|]. symmetry. apply (Inj t v t' v' (or_introl eq_refl) (or_intror Hin)). congruence.
      + apply IH; [exact N2|intros t' v' Hin; apply (K t' v'); right; exact Hin|intros t1 v1 t2 v2 H1 H2; apply (Inj t1 v1 t2 v2); right; assumption].
    - intros q v. split.
      + intros Hin. apply in_map_iff in Hin as ([t w] & Ex & Hin). cbn [fst snd] in Ex. destruct (K t w Hin) as (q' & Pq & Eq & Rq). rewrite Rq in Ex. injection Ex as -> ->. rewrite <- (W q t Pq Eq). apply Q. exact Hin.
      + intros Hw. pose proof Hw as Hx. unfold wanted_for in Hx. apply last_from in Hx as (a & _ & Ea). destruct (effective a && same_range (fst a) q) eqn:Eb; [|discriminate].
        apply andb_prop in Eb as [Eb Ec]. apply same_range_eq in Ec. unfold effective in Eb. apply andb_prop in Eb as [Pq _]. rewrite Ec in Pq.
        assert (X : exists t, (let '(fr, fc, (lr, lc)) := q in cell_range m fr fc lr lc) = Some t /\ range_of t = Some q).
        { destruct q as [[fr fc] [lr lc]]. unfold proper_range in Pq. apply andb_prop in Pq as [P _]. apply andb_prop in P as [P _]. apply andb_prop in P as [P1 P2]. apply on_grid_lt in P1 as [? ?]. apply on_grid_lt in P2 as [? ?].
          destruct (range_text m fr fc lr lc) as (u & Eu & _ & _ & Ru); try assumption. exists u. split; assumption. }
        destruct X as (t & Eq & Rq). rewrite <- (W q t Pq Eq) in Hw. apply Q in Hw. apply in_map_iff. exists (t, v). cbn [fst snd]. rewrite Rq. split; [reflexivity|exact Hw].
  Qed.

  (** Each call's error: exactly when the range is not proper; building the
      validation fails exactly when a text is too long. *)
  Theorem C63_refused adds s a : Forall buildable adds -> dv_run [] adds = Some s ->
    (dv_build num_text dv_new (snd a) = None <-> existsb too_long (snd a) = true) /\
    (buildable a -> exists d t, dv_build num_text dv_new (snd a) = Some d /\
       (let '(fr, fc, (lr, lc)) := fst a in add_data_validation m s fr fc lr lc d) = Some (t, negb (proper_range (fst a)))).
  Proof.
    intros F E. split; [apply build_none|]. intros [T O]. destruct (run_inv adds F [] [] inv_new) as (s' & E' & S). assert (s' = s) by congruence. subst s'.
    destruct (step_inv s _ a S T O) as (d & e & t & B & Ea & He & _). exists d, t. split; [exact B|]. rewrite Ea, He. reflexivity.
  Qed.
End Validations.

(** A list given item by item: the items come back, if none has a comma (and there
    is at least one). *)
Lemma items_app item s r : ~ In 44 s -> items_loop item (doubled s ++ r) = items_loop (item ++ s) r.
Proof.
  revert item. induction s as [|c s IH]; intros item H; [rewrite app_nil_r; reflexivity|]. assert (Hs : ~ In 44 s) by (intros X; apply H; right; exact X).
  unfold doubled. cbn [flat_map]. fold (doubled s). destruct (N.eqb_spec c 34) as [->|E34].
  - cbn [app items_loop]. rewrite N.eqb_refl. rewrite IH by exact Hs. rewrite <- app_assoc. reflexivity.
  - cbn [app items_loop]. destruct (N.eqb_spec c 34); [congruence|]. destruct (N.eqb_spec c 44) as [->|]; [exfalso; apply H; left; reflexivity|]. rewrite IH by exact Hs. rewrite <- app_assoc. reflexivity.
Qed.
Theorem C63_list_items_partial num_text d l d' : l <> [] -> (forall s, In s l -> ~ In 44 s) -> dv_step num_text d (AllowListStrings l) = Some d' ->
  exists t, dv_check d' = IListSource t /\ list_items t = Some l.
Proof.
  intros Ne C E. cbn [dv_step] in E. cbv zeta in E. destruct (_ <? _) in E; [discriminate|]. injection E as <-. cbn [dv_set_rule dv_check]. eexists. split; [reflexivity|]. rewrite joined_eq. cbn [list_items].
  rewrite N.eqb_refl. unfold joined. destruct l as [|s l]; [congruence|]. assert (Cs : ~ In 44 s) by (apply C; left; reflexivity). assert (Cl : forall s, In s l -> ~ In 44 s) by (intros x Hx; apply C; right; exact Hx). clear C Ne.
  rewrite <- app_assoc. rewrite items_app by exact Cs. cbn [app]. revert s Cs. induction l as [|t l IH]; intros s Cs; [reflexivity|]. cbn [flat_map]. cbn [app items_loop]. change (44 =? 34) with false. rewrite N.eqb_refl.
  rewrite <- app_assoc. rewrite items_app by (apply Cl; left; reflexivity). cbn [app]. rewrite IH; [reflexivity|intros x Hx; apply Cl; right; exact Hx|apply Cl; left; reflexivity].
Qed.
(** An item with a comma is offered as two. *)
Theorem C63_list_commas_refuted num_text d a b c : length (joined [a ++ 44 :: b; c]) = length (joined [a; b; c]) /\
  dv_step num_text d (AllowListStrings [a ++ 44 :: b; c]) = dv_step num_text d (AllowListStrings [a; b; c]).
Proof.
  assert (E : joined [a ++ 44 :: b; c] = joined [a; b; c]).
  { unfold joined, doubled. cbn [flat_map]. rewrite flat_map_app. cbn [flat_map]. change (44 =? 34) with false. cbn [app]. rewrite <- !app_assoc. reflexivity. }
  split; [rewrite E; reflexivity|]. cbn [dv_step]. rewrite !joined_eq, E. reflexivity.
Qed.
(** An empty list is accepted and offers one empty item. *)
Theorem C63_empty_list_refuted num_text d : exists d' t, dv_step num_text d (AllowListStrings []) = Some d' /\ dv_check d' = IListSource t /\ list_items t = Some [[]].
Proof. eexists _, _. split; [reflexivity|]. split; reflexivity. Qed.

(** ** An example *)
Definition demo_adds : list dv_add :=
  [((0, 0, (9, 0)), [AllowNumber NWhole (DBetween (VInt (-5)) (VInt 10)); InputTitle (lit "Range"); ErrorStyle SWarning]);
   ((0, 1, (9, 1)), [AllowListStrings [lit "a"; lit "say " ++ [34; 98; 34]]; ShowDropdown false]);
   ((5, 0, (4, 0)), [AllowCustom (lit "=A1>0")]);
   ((2, 2, (2, 2)), [IgnoreBlank false]);
   ((0, 0, (9, 0)), [AllowNumber NDecimal (DGreaterThan (VFormula (lit "=$B$1"))); IgnoreBlank false; ErrorMessage (lit "no"); ErrorMessage []])].
Example C63_demo nt : Forall (buildable) demo_adds /\ Forall no_multi demo_adds /\
  wanted_for nt (0, 0, (9, 0)) demo_adds =
    Some {| q_type := lit "decimal"; q_operator := lit "greaterThan"; q_formula1 := Some (lit "$B$1"); q_formula2 := None; q_style := lit "stop"; q_blank := false; q_dropdown := true; q_input := true; q_error := true;
            q_input_title := []; q_input_message := []; q_error_title := []; q_error_message := [] |} /\
  option_map q_dropdown (wanted_for nt (0, 1, (9, 1)) demo_adds) = Some false /\ wanted_for nt (2, 2, (2, 2)) demo_adds = None /\ wanted_for nt (5, 0, (4, 0)) demo_adds = None.
Proof.
  split; [|split; [repeat constructor|repeat split]].
  assert (T : forall s, forallb (fun c => xml_char c && negb (c =? 9) && negb (c =? 13)) s = true -> attr_text s).
  { intros s H c Hc. rewrite forallb_forall in H. specialize (H c Hc). rewrite !andb_true_iff, !negb_true_iff, !N.eqb_neq in H. tauto. }
  repeat (constructor; [split; [reflexivity|repeat (constructor; [first [exact I|reflexivity|apply T; reflexivity|split; exact I|repeat constructor]|]); constructor]|]). constructor.
Qed.
Print Assumptions C63_data_validations.
Print Assumptions C63_by_range.
