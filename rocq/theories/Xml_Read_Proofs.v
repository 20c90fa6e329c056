(** Composition lemmas for the reader. *)
From Verif Require Import Base Xml_Spec Xml_Read.

Definition markup (s : str) : Prop := s = [] \/ exists r, s = 60 :: r.
Lemma markup_app a b : markup a -> markup b -> markup (a ++ b).
Proof. intros [->|[r ->]] H; [assumption|]. right. exists (r ++ b). reflexivity. Qed.
Lemma markup_lt r : markup (60 :: r). Proof. right. eauto. Qed.

(** [s] reads as the nodes [ns], whatever markup follows. *)
Definition lexes (s : str) (es : list event) : Prop :=
  markup s /\ forall rest out, markup rest -> lex (LText []) rest = Some out -> lex (LText []) (s ++ rest) = Some (es ++ out).
Definition tree (es : list event) (ns : list node) : Prop :=
  forall stack cur rest, build stack cur (es ++ rest) = build stack (rev ns ++ cur) rest.
Definition reads (s : str) (ns : list node) : Prop := exists es, lexes s es /\ tree es ns.

Lemma reads_nil : reads [] [].
Proof. exists []. split; [split; [left; reflexivity|auto]|]. intros stack cur rest. reflexivity. Qed.
Lemma reads_app a b ns ms : reads a ns -> reads b ms -> reads (a ++ b) (ns ++ ms).
Proof.
  intros (ea & [Ma La] & Ta) (eb & [Mb Lb] & Tb). exists (ea ++ eb). split; [split; [apply markup_app; assumption|]|].
  - intros rest out M H. rewrite <- !app_assoc. apply La; [apply markup_app; assumption|]. apply Lb; assumption.
  - intros stack cur rest. rewrite <- app_assoc, Ta, Tb, rev_app_distr, <- app_assoc. reflexivity.
Qed.
Lemma reads_cons a b n ms : reads a [n] -> reads b ms -> reads (a ++ b) (n :: ms).
Proof. intros A B. exact (reads_app a b [n] ms A B). Qed.
Lemma reads_doc s ns : reads s ns -> read_xml s = Some ns.
Proof.
  intros (es & [M L] & T). unfold read_xml. specialize (L [] [] (or_introl eq_refl) eq_refl). rewrite !app_nil_r in L. rewrite L.
  specialize (T [] [] []). rewrite !app_nil_r in T. rewrite T. cbn [build]. rewrite rev_involutive. reflexivity.
Qed.
Lemma reads_flat {A} (f : A -> str) (g : A -> list node) l : (forall x, In x l -> reads (f x) (g x)) -> reads (flat_map f l) (flat_map g l).
Proof.
  induction l as [|x l IH]; intros H; [apply reads_nil|]. cbn [flat_map]. apply reads_app; [apply H; left; reflexivity|].
  apply IH. intros. apply H. right. assumption.
Qed.

(** ** Attributes *)
Definition raw_attr (kv : str * str) : str := 32 :: fst kv ++ 61 :: 34 :: snd kv ++ [34].
Definition clean_value (v : str) : Prop := ~ In 34 v.
(** [v] is the raw text of an attribute whose value is [x]. *)
Definition attr_text (v x : str) : Prop := ~ In 34 v /\ parse_attr v = Some x.

Lemma name_no c n : good_name n = true -> In c n -> name_char c = true.
Proof. unfold good_name. destruct n; [discriminate|]. intros H. rewrite forallb_forall in H. apply H. Qed.
Lemma attrs_name n r : good_name n = true -> forall buf, read_attrs (AName buf) (n ++ 61 :: r) =
  if good_name (rev buf ++ n) then read_attrs (AEq (rev buf ++ n)) r else None.
Proof.
  intros G. assert (H : forall c, In c n -> c <> 61). { intros c Hc E. subst. apply (name_no 61 n G) in Hc. discriminate. }
  clear G. induction n as [|c n IH]; intros buf; cbn [app read_attrs].
  - rewrite N.eqb_refl, app_nil_r. reflexivity.
  - destruct (N.eqb_spec c 61) as [E|_]; [exfalso; apply (H c); [left; reflexivity|assumption]|].
    rewrite IH by (intros c' Hc; apply H; right; assumption). cbn [rev]. rewrite <- app_assoc. reflexivity.
Qed.
Lemma attrs_val n v r : ~ In 34 v -> forall buf, read_attrs (AVal n buf) (v ++ 34 :: r) =
  match parse_attr (rev buf ++ v), read_attrs ASpace r with
  | Some x, Some l => if existsb (fun p => str_eqb n (fst p)) l then None else Some ((n, x) :: l)
  | _, _ => None end.
Proof.
  induction v as [|c v IH]; intros H buf; cbn [app].
  - cbn [read_attrs]. rewrite N.eqb_refl, app_nil_r. reflexivity.
  - cbn [read_attrs]. destruct (N.eqb_spec c 34) as [E|_]; [exfalso; apply H; left; assumption|].
    rewrite IH by (intros Hc; apply H; right; assumption). cbn [rev]. rewrite <- app_assoc. reflexivity.
Qed.
Lemma read_attrs_ok l : NoDup (map (fun p => fst p) l) ->
  (forall p, In p l -> good_name (fst p) = true /\ exists x, attr_text (snd p) x) ->
  forall xs, Forall2 (fun p q => fst q = fst p /\ attr_text (snd p) (snd q)) l xs ->
  read_attrs ASpace (flat_map raw_attr l) = Some xs.
Proof.
  induction l as [|[k v] l IH]; intros ND H xs F; inversion F; subst; [reflexivity|].
  destruct y as [k' x]. cbn [fst snd] in H2. destruct H2 as [-> [H2 H3]].
  cbn [flat_map raw_attr app fst snd]. cbn [read_attrs]. rewrite N.eqb_refl.
  destruct (H (k, v)) as [G _]; [left; reflexivity|]. cbn [fst] in G.
  rewrite <- !app_assoc. cbn [app]. rewrite <- app_assoc. rewrite (attrs_name k _ G). cbn [rev app]. rewrite G. cbn [read_attrs]. rewrite N.eqb_refl.
  rewrite (attrs_val k v _ H2). cbn [rev app]. rewrite H3. inversion ND; subst.
  rewrite (IH H6 (fun p Hp => H p (or_intror Hp)) l' H4).
  destruct (existsb _ l') eqn:E; [|reflexivity]. exfalso. apply existsb_exists in E as ([k2 v2] & Hi & E). cbn [fst] in E. apply str_eqb_eq in E. subst k2.
  apply H5. clear - Hi H4. induction H4; [destruct Hi|]. cbn [map]. destruct Hi as [->|Hi]; [left; symmetry; apply H|right; auto].
Qed.

Lemma split_name_ok n r : forallb name_char n = true -> (r = [] \/ exists c r', r = c :: r' /\ name_char c = false) -> split_name (n ++ r) = (n, r).
Proof.
  induction n as [|c n IH]; cbn [app forallb].
  - intros _ [->|(c & r' & -> & E)]; [reflexivity|]. cbn [split_name]. rewrite E. reflexivity.
  - intros H R. apply andb_prop in H as [H1 H2]. cbn [split_name]. rewrite H1, (IH H2 R). reflexivity.
Qed.
Definition attrs_ok (l : list (str * str)) (xs : list (str * str)) : Prop :=
  NoDup (map (fun p => fst p) l) /\ (forall p, In p l -> good_name (fst p) = true) /\
  Forall2 (fun p q => fst q = fst p /\ attr_text (snd p) (snd q)) l xs.
Lemma read_open_ok n l xs : good_name n = true -> attrs_ok l xs -> read_open (n ++ flat_map raw_attr l) = Some (n, xs).
Proof.
  intros G (ND & Nm & F). unfold read_open. rewrite split_name_ok.
  - rewrite G. rewrite (read_attrs_ok l ND) with (xs := xs); [reflexivity| |assumption].
    intros p Hp. split; [apply Nm; assumption|]. clear - F Hp. induction F; [destruct Hp|]. destruct Hp as [<-|Hp]; [exists (snd y); apply H|auto].
  - unfold good_name in G. destruct n; [discriminate|assumption].
  - destruct l as [|p l]; [left; reflexivity|]. right. exists 32. eexists. split; [reflexivity|reflexivity].
Qed.

(** ** Tags *)
(** Inside a tag, quotes are balanced and '>' occurs only inside quotes. *)
Fixpoint tag_scan (q : bool) (s : str) : option bool :=
  match s with
  | [] => Some q
  | c :: r => if c =? 34 then tag_scan (negb q) r else if (c =? 62) && negb q then None else tag_scan q r
  end.
Lemma tag_scan_app s r : forall q, tag_scan q (s ++ r) = match tag_scan q s with Some q' => tag_scan q' r | None => None end.
Proof.
  induction s as [|c s IH]; intros q; [reflexivity|]. cbn [app tag_scan]. destruct (c =? 34); [apply IH|].
  destruct ((c =? 62) && negb q); [reflexivity|apply IH].
Qed.
Lemma lex_tag s rest : forall q buf, tag_scan q s = Some false ->
  lex (LTag q buf) (s ++ 62 :: rest) =
  match read_tag (rev buf ++ s), lex (LText []) rest with Some e, Some l => Some (e ++ l) | _, _ => None end.
Proof.
  induction s as [|c s IH]; intros q buf H; cbn [app].
  - cbn [tag_scan] in H. injection H as ->. cbn [lex]. rewrite app_nil_r. reflexivity.
  - cbn [tag_scan] in H. cbn [lex]. destruct (c =? 34).
    + rewrite IH by assumption. cbn [rev]. rewrite <- app_assoc. reflexivity.
    + destruct ((c =? 62) && negb q); [discriminate|]. rewrite IH by assumption. cbn [rev]. rewrite <- app_assoc. reflexivity.
Qed.
Lemma scan_name n : forallb name_char n = true -> tag_scan false n = Some false.
Proof.
  induction n as [|c n IH]; [reflexivity|]. cbn [forallb tag_scan]. intros H. apply andb_prop in H as [H1 H2].
  destruct (N.eqb_spec c 34) as [->|_]; [discriminate|]. destruct (N.eqb_spec c 62) as [->|_]; [discriminate|]. cbn [andb]. auto.
Qed.
Lemma scan_val v : ~ In 34 v -> tag_scan true v = Some true.
Proof.
  induction v as [|c v IH]; [reflexivity|]. cbn [tag_scan In]. intros H. destruct (N.eqb_spec c 34) as [->|_]; [tauto|].
  rewrite andb_false_r. apply IH. tauto.
Qed.
Lemma scan_attrs l : (forall p, In p l -> good_name (fst p) = true /\ ~ In 34 (snd p)) -> tag_scan false (flat_map raw_attr l) = Some false.
Proof.
  induction l as [|[k v] l IH]; intros H; [reflexivity|]. destruct (H (k, v)) as [G V]; [left; reflexivity|]. cbn [fst snd] in *.
  replace (flat_map raw_attr ((k, v) :: l)) with ([32] ++ k ++ [61; 34] ++ v ++ [34] ++ flat_map raw_attr l)
    by (cbn [flat_map raw_attr fst snd app]; rewrite <- !app_assoc; cbn [app]; rewrite <- !app_assoc; reflexivity).
  rewrite tag_scan_app. change (tag_scan false [32]) with (Some false). cbv iota.
  rewrite tag_scan_app, scan_name by (unfold good_name in G; destruct k; [discriminate|assumption]). cbv iota.
  rewrite tag_scan_app. change (tag_scan false [61; 34]) with (Some true). cbv iota.
  rewrite tag_scan_app, scan_val by assumption. cbv iota.
  rewrite tag_scan_app. change (tag_scan true [34]) with (Some false). cbv iota.
  apply IH. intros. apply H. right. assumption.
Qed.
Lemma attrs_scan l xs : attrs_ok l xs -> tag_scan false (flat_map raw_attr l) = Some false.
Proof.
  intros (_ & Nm & F). apply scan_attrs. intros p Hp. split; [apply Nm; assumption|].
  clear Nm. induction F; [destruct Hp|]. destruct Hp as [<-|Hp]; [apply H|auto].
Qed.
Lemma raw_attrs_last l : l <> [] -> exists b, rev (flat_map raw_attr l) = 34 :: b.
Proof.
  induction l as [|[k v] l IH]; [congruence|]. intros _. cbn [flat_map]. rewrite rev_app_distr.
  destruct l as [|p l'].
  - cbn [flat_map rev app]. unfold raw_attr. cbn [fst snd rev]. rewrite rev_app_distr. cbn [rev]. rewrite rev_app_distr. cbn [rev app].
    rewrite <- !app_assoc. eexists. reflexivity.
  - destruct IH as [b Hb]; [discriminate|]. rewrite Hb. eexists. reflexivity.
Qed.
Lemma good_name_no47 n c r : good_name n = true -> n = c :: r -> c <> 47.
Proof. intros G -> ->. discriminate. Qed.
Lemma rev_last_name n : good_name n = true -> exists c b, rev n = c :: b /\ c <> 47.
Proof.
  intros G. destruct (rev n) as [|c b] eqn:E.
  - apply (f_equal (@rev _)) in E. rewrite rev_involutive in E. subst. discriminate.
  - exists c, b. split; [reflexivity|]. intros ->. assert (H : In 47 n) by (apply in_rev; rewrite E; left; reflexivity).
    apply (name_no 47 n G) in H. discriminate.
Qed.
Lemma not47 {A} (c : N) (x y : A) : c <> 47 -> match c with 47 => x | _ => y end = y.
Proof. intros H. destruct c as [|p]; [reflexivity|]. do 6 (destruct p as [p|p|]; try reflexivity). congruence. Qed.
Lemma read_tag_start n l xs : good_name n = true -> attrs_ok l xs -> read_tag (n ++ flat_map raw_attr l) = Some [EStart n xs].
Proof.
  intros G A. pose proof (read_open_ok n l xs G A) as R.
  assert (L : exists c b, rev (n ++ flat_map raw_attr l) = c :: b /\ c <> 47).
  { rewrite rev_app_distr. destruct l as [|p l].
    - cbn [flat_map rev app]. apply rev_last_name. assumption.
    - destruct (raw_attrs_last (p :: l)) as [b Hb]; [discriminate|]. rewrite Hb. exists 34. eexists. split; [reflexivity|discriminate]. }
  destruct L as (c & b & E & N47).
  destruct (n ++ flat_map raw_attr l) as [|c0 s0] eqn:Es; [discriminate|].
  assert (N0 : c0 <> 47). { destruct n as [|cn n']; [discriminate|]. injection Es as <- _. apply (good_name_no47 _ _ _ G eq_refl). }
  unfold read_tag. rewrite not47 by assumption. rewrite E, not47 by assumption. rewrite R. reflexivity.
Qed.
Lemma read_tag_empty n l xs : good_name n = true -> attrs_ok l xs ->
  read_tag ((n ++ flat_map raw_attr l) ++ [47]) = Some [EStart n xs; EEnd n].
Proof.
  intros G A. pose proof (read_open_ok n l xs G A) as R.
  destruct (n ++ flat_map raw_attr l) as [|c0 s0] eqn:Es; [destruct n; discriminate|].
  assert (N0 : c0 <> 47). { destruct n as [|cn n']; [discriminate|]. injection Es as <- _. apply (good_name_no47 _ _ _ G eq_refl). }
  cbn [app]. unfold read_tag. rewrite not47 by assumption.
  change (c0 :: s0 ++ [47]) with ((c0 :: s0) ++ [47]). rewrite rev_app_distr. cbn [rev app].
  rewrite rev_app_distr, rev_involutive. cbn [rev app]. rewrite R. reflexivity.
Qed.
Lemma read_tag_end n : good_name n = true -> read_tag (47 :: n) = Some [EEnd n].
Proof. intros G. unfold read_tag. rewrite G. reflexivity. Qed.

(** The raw text of tags. *)
Definition open_tag (n : str) (l : list (str * str)) : str := 60 :: (n ++ flat_map raw_attr l) ++ [62].
Definition empty_tag (n : str) (l : list (str * str)) : str := 60 :: ((n ++ flat_map raw_attr l) ++ [47]) ++ [62].
Definition close_tag (n : str) : str := 60 :: 47 :: n ++ [62].

Lemma scan_open n l xs : good_name n = true -> attrs_ok l xs -> tag_scan false (n ++ flat_map raw_attr l) = Some false.
Proof.
  intros G A. rewrite tag_scan_app, scan_name by (unfold good_name in G; destruct n; [discriminate|assumption]).
  eapply attrs_scan. eassumption.
Qed.
Lemma lex_open n l xs rest out : good_name n = true -> attrs_ok l xs -> lex (LText []) rest = Some out ->
  lex (LText []) (open_tag n l ++ rest) = Some (EStart n xs :: out).
Proof.
  intros G A H. unfold open_tag. cbn [app]. cbn [lex]. rewrite N.eqb_refl. cbn [flush]. rewrite <- app_assoc. cbn [app].
  rewrite lex_tag by (eapply scan_open; eassumption). cbn [rev app]. rewrite (read_tag_start n l xs G A), H. reflexivity.
Qed.
Lemma lex_empty n l xs rest out : good_name n = true -> attrs_ok l xs -> lex (LText []) rest = Some out ->
  lex (LText []) (empty_tag n l ++ rest) = Some (EStart n xs :: EEnd n :: out).
Proof.
  intros G A H. unfold empty_tag. cbn [app]. cbn [lex]. rewrite N.eqb_refl. cbn [flush]. rewrite <- app_assoc. cbn [app].
  rewrite lex_tag by (rewrite tag_scan_app; erewrite scan_open by eassumption; reflexivity).
  cbn [rev app]. rewrite (read_tag_empty n l xs G A), H. reflexivity.
Qed.
Lemma lex_close n rest out : good_name n = true -> lex (LText []) rest = Some out ->
  lex (LText []) (close_tag n ++ rest) = Some (EEnd n :: out).
Proof.
  intros G H. replace (close_tag n ++ rest) with (60 :: (47 :: n) ++ 62 :: rest) by (unfold close_tag; cbn [app]; rewrite <- app_assoc; reflexivity).
  change (lex (LText []) (60 :: (47 :: n) ++ 62 :: rest)) with (lex (LTag false []) ((47 :: n) ++ 62 :: rest)).
  assert (S : tag_scan false (47 :: n) = Some false).
  { cbn [tag_scan]. change (47 =? 34) with false. change (47 =? 62) with false. cbn [andb]. apply scan_name. unfold good_name in G. destruct n; [discriminate|assumption]. }
  rewrite lex_tag by exact S. cbn [rev app]. rewrite (read_tag_end n G), H. reflexivity.
Qed.
Lemma lex_text t x rest out : ~ In 60 t -> t <> [] -> parse_text t = Some x -> markup rest -> lex (LText []) rest = Some out ->
  lex (LText []) (t ++ rest) = Some (EText x :: out).
Proof.
  intros H60 Hne P M H.
  assert (G : forall s buf, ~ In 60 s -> lex (LText buf) (s ++ rest) = lex (LText (rev s ++ buf)) rest).
  { induction s as [|c s IH]; intros buf Hs; [reflexivity|]. cbn [app lex]. destruct (N.eqb_spec c 60) as [->|_]; [exfalso; apply Hs; left; reflexivity|].
    rewrite IH by (intros Hc; apply Hs; right; assumption). cbn [rev]. rewrite <- app_assoc. reflexivity. }
  rewrite G by assumption. rewrite app_nil_r.
  assert (F : forall es, flush (rev t) es = match es with Some l => Some (EText x :: l) | None => None end).
  { intros es. unfold flush. destruct (rev t) as [|c b] eqn:E.
    - exfalso. apply Hne. apply (f_equal (@rev _)) in E. rewrite rev_involutive in E. assumption.
    - rewrite <- E, rev_involutive, P. destruct es; reflexivity. }
  destruct M as [->|[r ->]].
  - cbn [lex] in *. rewrite F. injection H as <-. reflexivity.
  - cbn [lex] in *. change (60 =? 60) with true in *. cbn [flush] in H. cbv iota in *. rewrite F, H. reflexivity.
Qed.

(** ** Elements *)
Lemma tree_elem n l es kids : tree es kids -> tree (EStart n l :: es ++ [EEnd n]) [Elem n l kids].
Proof.
  intros T stack cur rest. cbn [app build]. rewrite <- app_assoc, T. cbn [app build]. rewrite (proj2 (str_eqb_eq n n) eq_refl).
  rewrite app_nil_r, rev_involutive. reflexivity.
Qed.
Lemma reads_elem n l xs body kids : good_name n = true -> attrs_ok l xs -> reads body kids ->
  reads (open_tag n l ++ body ++ close_tag n) [Elem n xs kids].
Proof.
  intros G A (es & [M L] & T). exists (EStart n xs :: es ++ [EEnd n]). split; [split; [apply markup_lt|]|apply tree_elem; assumption].
  intros rest out Mr H. rewrite <- !app_assoc. rewrite (lex_open n l xs _ (es ++ EEnd n :: out) G A).
  - cbn [app]. rewrite <- app_assoc. reflexivity.
  - apply L; [apply markup_lt|]. apply lex_close; assumption.
Qed.
Lemma reads_empty n l xs : good_name n = true -> attrs_ok l xs -> reads (empty_tag n l) [Elem n xs []].
Proof.
  intros G A. exists [EStart n xs; EEnd n]. split; [split; [apply markup_lt|]|].
  - intros rest out Mr H. apply lex_empty; assumption.
  - exact (tree_elem n xs [] [] (fun stack cur rest => eq_refl)).
Qed.
Definition text_nodes (t x : str) : list node := match t with [] => [] | _ => [Txt x] end.
Lemma reads_leaf n l xs t x : good_name n = true -> attrs_ok l xs -> ~ In 60 t -> parse_text t = Some x ->
  reads (open_tag n l ++ t ++ close_tag n) [Elem n xs (text_nodes t x)].
Proof.
  intros G A H60 P. destruct t as [|c t'] eqn:Et.
  - cbn [text_nodes]. apply reads_elem; [assumption|assumption|apply reads_nil].
  - rewrite <- Et in *. exists (EStart n xs :: [EText x] ++ [EEnd n]). split; [split; [apply markup_lt|]|].
    + intros rest out Mr H. rewrite <- !app_assoc. rewrite (lex_open n l xs _ (EText x :: EEnd n :: out) G A); [reflexivity|].
      apply lex_text; [assumption|subst; discriminate|assumption|apply markup_lt|]. apply lex_close; assumption.
    + replace (text_nodes t x) with [Txt x] by (subst; reflexivity). apply tree_elem. intros stack cur rest. reflexivity.
Qed.
