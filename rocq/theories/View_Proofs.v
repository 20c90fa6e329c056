(** The calls of the settings: header codes, totality, and what the fields hold
    after any history. *)
From Verif Require Import Base F64 Ref_Model Ref_Spec Ref_Proofs Xml_Model Xml_Spec Xml_Proofs Xml_Read Xml_Read_Proofs Xml_Tree Fmt_Model Rich_Model Rich_Proofs
  Cells_Model SheetXml_Spec SheetXml_Proofs SheetXml_Proofs3 Doc_Spec Props_Ref View_Model View_Spec Part_Model Tag_Proofs Part_Proofs.

(** ** The eight replacements are one pass *)
Definition starts (p s : str) : bool := match strip_prefix p s with Some _ => true | None => false end.
(** A long code: an ampersand and a bracket, then no ampersand; a short one: an
    ampersand and a letter. *)
Definition code_ok (p : str * str) : Prop :=
  (exists w, fst p = 38 :: 91 :: w /\ forallb (fun c => negb (c =? 38)) w = true) /\ (exists c, snd p = [38; c] /\ c <> 38 /\ c <> 91).
Lemma codes_ok : Forall code_ok codes.
Proof. repeat (constructor; [split; [eexists; split; reflexivity|eexists; split; [reflexivity|split; discriminate]]|]). constructor. Qed.

Lemma strip_app p s r : strip_prefix p s = Some r -> s = p ++ r.
Proof. apply strip_prefix_some. Qed.
Lemma starts_app p r : strip_prefix p (p ++ r) = Some r.
Proof. induction p as [|c p IH]; [reflexivity|]. cbn [app strip_prefix]. rewrite N.eqb_refl. exact IH. Qed.
Lemma skipn_len {A} (p r : list A) : skipn (length p) (p ++ r) = r.
Proof. induction p; [reflexivity|assumption]. Qed.

Section Table.
  Variable T : list (str * str).
  Hypothesis TOK : Forall code_ok T.
  Lemma tok p : In p T -> code_ok p.
  Proof. exact (proj1 (Forall_forall _ _) TOK p). Qed.
  Let hit (s : str) := find (fun p => match strip_prefix (fst p) s with Some _ => true | None => false end) T.
  Lemma hit_some s p : hit s = Some p -> In p T /\ exists r, s = fst p ++ r.
  Proof.
    intros H. apply find_some in H as [I H]. split; [exact I|]. destruct (strip_prefix (fst p) s) as [r|] eqn:E; [|discriminate]. exists r. apply strip_app, E.
  Qed.
  Lemma hit_amp c s : c <> 38 -> hit (c :: s) = None.
  Proof.
    intros N. destruct (hit (c :: s)) as [p|] eqn:E; [|reflexivity]. exfalso. apply hit_some in E as (I & r & E). 
    destruct (tok p I) as [(w & Ew & _) _]. rewrite Ew in E. injection E as -> _. congruence.
  Qed.
  Lemma loop_stable f : forall g s, (length s < f)%nat -> (length s < g)%nat -> shorten_loop T f s = shorten_loop T g s.
  Proof.
    induction f as [|f IH]; intros g s F G; [lia|]. destruct g as [|g]; [lia|]. cbn [shorten_loop]. fold (hit s). destruct (hit s) as [[long abbr]|] eqn:E.
    - apply hit_some in E as (I & r & E). cbn [fst] in E. destruct (tok _ I) as [(w & Ew & _) _]. cbn [fst] in Ew.
      rewrite E, skipn_len. f_equal. assert (L : length s = (length long + length r)%nat) by (rewrite E; apply app_length). rewrite Ew in L. cbn [length] in L. apply IH; lia.
    - destruct s as [|c s]; [reflexivity|]. cbn [length] in *. f_equal. apply IH; lia.
  Qed.
  Definition one (s : str) : str := shorten_loop T (S (length s)) s.
  Lemma one_nil : one [] = [].
  Proof.
    unfold one. cbn [length shorten_loop]. fold (hit []). destruct (hit []) as [p|] eqn:E; [|reflexivity]. apply hit_some in E as (I & r & E).
    destruct (tok p I) as [(w & Ew & _) _]. rewrite Ew in E. discriminate.
  Qed.
  Lemma one_char c s : hit (c :: s) = None -> one (c :: s) = c :: one s.
  Proof. intros H. unfold one at 1. cbn [shorten_loop]. fold (hit (c :: s)). rewrite H. reflexivity. Qed.
  Lemma one_code p r : hit (fst p ++ r) = Some p -> one (fst p ++ r) = snd p ++ one r.
  Proof.
    intros H. unfold one at 1. cbn [shorten_loop]. fold (hit (fst p ++ r)). rewrite H. destruct p as [long abbr]. cbn [fst snd] in *. rewrite skipn_len. f_equal. unfold one.
    apply hit_some in H as [I _]. destruct (tok _ I) as [(w & Ew & _) _]. cbn [fst] in Ew. apply loop_stable; [|lia]. rewrite app_length, Ew. cbn [length]. lia.
  Qed.
  Lemma one_plain w : forallb (fun c => negb (c =? 38)) w = true -> forall r, one (w ++ r) = w ++ one r.
  Proof.
    induction w as [|c w IH]; intros W r; [reflexivity|]. cbn [forallb] in W. apply andb_prop in W as [Wc W]. cbn [app]. rewrite one_char; [f_equal; apply IH, W|].
    apply hit_amp. lia.
  Qed.
  (** A text without ampersands in front of the result was in front of the input. *)
  Lemma one_prefix w : forallb (fun c => negb (c =? 38)) w = true -> forall s t, one s = w ++ t -> exists u, s = w ++ u.
  Proof.
    induction w as [|c w IH]; intros W s t E; [exists s; reflexivity|]. cbn [forallb] in W. apply andb_prop in W as [Wc W]. destruct s as [|d s]; [rewrite one_nil in E; discriminate|].
    destruct (hit (d :: s)) as [p|] eqn:Hs.
    - pose proof (hit_some _ _ Hs) as (I & r & Er). rewrite Er in Hs, E. rewrite one_code in E by exact Hs. destruct (tok p I) as [_ (x & Ex & _)]. rewrite Ex in E.
      cbn [app] in E. injection E as E _. subst c. discriminate Wc.
    - rewrite one_char in E by exact Hs. cbn [app] in E. injection E as -> E. destruct (IH W s t E) as [u ->]. exists u. reflexivity.
  Qed.
End Table.

Lemma replace_loop_stable old new f : (old <> []) -> forall g s, (length s < f)%nat -> (length s < g)%nat -> replace_loop f old new s = replace_loop g old new s.
Proof.
  intros O. induction f as [|f IH]; intros g s F G; [lia|]. destruct g as [|g]; [lia|]. cbn [replace_loop]. destruct (strip_prefix old s) as [r|] eqn:E.
  - apply strip_app in E. f_equal. assert (L : length s = (length old + length r)%nat) by (rewrite E; apply app_length). destruct old; [congruence|]. cbn [length] in L. apply IH; lia.
  - destruct s as [|c s]; [reflexivity|]. cbn [length] in *. f_equal. apply IH; lia.
Qed.
Lemma replace_hit old new r : old <> [] -> replace old new (old ++ r) = new ++ replace old new r.
Proof.
  intros O. unfold replace at 1. cbn [replace_loop]. rewrite starts_app. f_equal. unfold replace. apply replace_loop_stable; [exact O| |lia]. rewrite app_length. destruct old; [congruence|]. cbn [length]. lia.
Qed.
Lemma replace_miss old new c r : strip_prefix old (c :: r) = None -> replace old new (c :: r) = c :: replace old new r.
Proof. intros H. unfold replace. cbn [replace_loop]. rewrite H. reflexivity. Qed.

(** Replacing one more code after the others is the pass with that code added. *)
Lemma one_more T p s : Forall code_ok T -> code_ok p -> replace (fst p) (snd p) (one T s) = one (T ++ [p]) s.
Proof.
  intros HT HP. assert (HTP : Forall code_ok (T ++ [p])) by (apply Forall_app; split; [exact HT|constructor; [exact HP|constructor]]).
  pose proof HP as [(w & Ew & Hw) (x & Ex & X1 & X2)]. assert (Nn : fst p <> []) by (rewrite Ew; discriminate).
  assert (B : forall n s, (length s <= n)%nat -> replace (fst p) (snd p) (one T s) = one (T ++ [p]) s).
  2: { apply (B (length s)). lia. }
  clear s. induction n as [|n IH]; intros s L.
  { destruct s; [|cbn in L; lia]. rewrite !one_nil by assumption. unfold replace. cbn [replace_loop length]. rewrite Ew. reflexivity. }
  destruct s as [|c s]; [apply IH; cbn; lia|]. cbn [length] in L.
  destruct (find (fun q => match strip_prefix (fst q) (c :: s) with Some _ => true | None => false end) T) as [q|] eqn:Hq.
  - pose proof (hit_some T _ _ Hq) as (I & r & Er). assert (Hq2 : find (fun q => match strip_prefix (fst q) (c :: s) with Some _ => true | None => false end) (T ++ [p]) = Some q).
    { clear - Hq. induction T as [|y T IH]; [discriminate|]. cbn [find app] in *. destruct (strip_prefix (fst y) (c :: s)); [exact Hq|apply IH, Hq]. }
    rewrite Er in Hq, Hq2 |- *. rewrite (one_code T HT q r Hq), (one_code (T ++ [p]) HTP q r Hq2). pose proof HT as HT'. rewrite Forall_forall in HT'. destruct (HT' q I) as [(w' & Ew' & _) (x' & Ex' & Y1 & Y2)].
    rewrite Ex'. cbn [app]. rewrite replace_miss.
    2: { rewrite Ew. cbn [strip_prefix]. rewrite N.eqb_refl. destruct (91 =? x') eqn:Z; [lia|reflexivity]. }
    rewrite replace_miss.
    2: { rewrite Ew. cbn [strip_prefix]. destruct (38 =? x') eqn:Z; [lia|reflexivity]. }
    do 2 f_equal. apply IH. assert (L2 : length (c :: s) = (length (fst q) + length r)%nat) by (rewrite Er; apply app_length). rewrite Ew' in L2. cbn [length] in L2. lia.
  - assert (Hp : find (fun q => match strip_prefix (fst q) (c :: s) with Some _ => true | None => false end) (T ++ [p]) = if starts (fst p) (c :: s) then Some p else None).
    { clear - Hq. unfold starts. induction T as [|y T IH]; cbn [find app] in *; [destruct (strip_prefix (fst p) (c :: s)); reflexivity|]. destruct (strip_prefix (fst y) (c :: s)); [discriminate|apply IH, Hq]. }
    unfold starts in Hp. destruct (strip_prefix (fst p) (c :: s)) as [r|] eqn:Sp.
    + apply strip_app in Sp. assert (Et : one T (c :: s) = fst p ++ one T r).
      { rewrite Sp. rewrite Ew in Sp |- *. cbn [app] in Sp |- *. injection Sp as Ec Es. subst c. rewrite <- Es at 1. rewrite one_char by exact Hq. f_equal.
        rewrite Es. rewrite one_char by (apply hit_amp; [exact HT|discriminate]). f_equal. apply one_plain; assumption. }
      rewrite Et, replace_hit by exact Nn. rewrite Sp in Hp |- *. rewrite (one_code (T ++ [p]) HTP p r Hp). f_equal. apply IH.
      assert (L2 : length (c :: s) = (length (fst p) + length r)%nat) by (rewrite Sp; apply app_length). rewrite Ew in L2. cbn [length] in L2. lia.
    + rewrite (one_char T c s Hq), (one_char (T ++ [p]) c s Hp). rewrite replace_miss; [f_equal; apply IH; lia|].
      destruct (strip_prefix (fst p) (c :: one T s)) as [r|] eqn:Q; [|reflexivity]. exfalso. apply strip_app in Q. rewrite Ew in Q. cbn [app] in Q. injection Q as -> Q.
      change (91 :: w ++ r) with ((91 :: w) ++ r) in Q. apply one_prefix in Q as [u Q]; [|exact HT|exact Hw].
      rewrite Q, Ew in Sp. cbn [app strip_prefix] in Sp. rewrite !N.eqb_refl in Sp. change (strip_prefix w (w ++ u)) with (strip_prefix w (w ++ u)) in Sp. rewrite starts_app in Sp. discriminate.
Qed.
Lemma one_empty s : one [] s = s.
Proof. unfold one. generalize (S (length s)). intros n. revert s. induction n as [|n IH]; intros s; [reflexivity|]. cbn [shorten_loop find]. destruct s; [reflexivity|]. f_equal. apply IH. Qed.
Lemma hf_shorten s : hf_expand s = shorten s.
Proof.
  change (shorten s) with (one codes s). unfold hf_expand.
  assert (G : forall l T, Forall code_ok (T ++ l) -> fold_left (fun t p => replace (fst p) (snd p) t) l (one T s) = one (T ++ l) s).
  { induction l as [|p l IH]; intros T H; [rewrite app_nil_r; reflexivity|]. cbn [fold_left]. apply Forall_app in H as [H1 H2]. inversion H2; subst.
    rewrite one_more by assumption. rewrite IH; rewrite <- app_assoc; [reflexivity|]. apply Forall_app; split; assumption. }
  rewrite <- (one_empty s) at 1. apply (G hf_table []). apply codes_ok.
Qed.
Lemma replace_all (P : N -> bool) old new s : forallb P new = true -> forallb P s = true -> forallb P (replace old new s) = true.
Proof.
  intros Hn. unfold replace. generalize (S (length s)). intros n. revert s. induction n as [|n IH]; intros s Hs; [exact Hs|]. cbn [replace_loop]. destruct (strip_prefix old s) as [r|] eqn:E.
  - apply strip_app in E. subst s. rewrite forallb_app in Hs |- *. apply andb_prop in Hs as [_ Hs]. rewrite Hn, (IH r Hs). reflexivity.
  - destruct s as [|c s]; [reflexivity|]. cbn [forallb] in *. apply andb_prop in Hs as [-> Hs]. apply IH, Hs.
Qed.
Lemma hf_doc s : doc_text s -> doc_text (hf_expand s).
Proof.
  unfold doc_text, hf_expand. assert (G : forall l t, Forall (fun p => forallb (fun c => xml_char c && negb (c =? 13)) (snd p) = true) l ->
    forallb (fun c => xml_char c && negb (c =? 13)) t = true -> forallb (fun c => xml_char c && negb (c =? 13)) (fold_left (fun t p => replace (fst p) (snd p) t) l t) = true).
  { induction l as [|p l IH]; intros t H Ht; [exact Ht|]. inversion H; subst. cbn [fold_left]. apply IH; [assumption|]. apply replace_all; assumption. }
  apply G. repeat constructor.
Qed.
