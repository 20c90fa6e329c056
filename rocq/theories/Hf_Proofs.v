(** Header and footer pictures: the check of the text, the slots, the numbering. *)
From Verif Require Import Base Xml_Spec Xml_Read SheetXml_Spec Doc_Spec View_Spec Setup_Spec View_Proofs Note_Model Note_Spec Hf_Model Hf_Spec Filter_Proofs.
From Verif Require View_Model Styles_Proofs.

(** ** Splitting *)
Lemma split_nonempty a s : exists x l, split_mark a s = x :: l.
Proof.
  assert (H : forall n s, (length s <= n)%nat -> exists x l, split_mark a s = x :: l); [|exact (H (length s) s (le_n _))].
  clear s. induction n as [|n IH]; intros s L; destruct s as [|c r]; try (cbn; eauto; fail); [cbn in L; lia|].
  cbn [split_mark]. destruct r as [|d r']; [cbn; eauto|]. destruct (_ && _); [eauto|].
  destruct (IH (d :: r')) as (x & l & E); [cbn in *; lia|]. rewrite E. cbn. eauto.
Qed.
Lemma no_mark_nil a : ~ mark a []. Proof. intros (u & v & E). destruct u; discriminate. Qed.
Lemma no_mark_one a c : ~ mark a [c]. Proof. intros (u & v & E). destruct u as [|? [|? ?]]; discriminate. Qed.
Lemma mark_cons a c s : mark a s -> mark a (c :: s).
Proof. intros (u & v & ->). exists (c :: u), v. reflexivity. Qed.
Lemma mark_app a x s : mark a s -> mark a (x ++ s).
Proof. intros (u & v & ->). exists (x ++ u), v. rewrite <- app_assoc. reflexivity. Qed.
Lemma mark_app_l a x s : mark a x -> mark a (x ++ s).
Proof. intros (u & v & ->). exists u, (v ++ s). rewrite <- !app_assoc. reflexivity. Qed.
Lemma first_mark a : a <> 38 -> forall s, (~ mark a s /\ split_mark a s = [s]) \/
  (exists x y, s = x ++ [38; a] ++ y /\ ~ mark a x /\ split_mark a s = x :: split_mark a y).
Proof.
  intros Ha. assert (H : forall n s, (length s <= n)%nat -> (~ mark a s /\ split_mark a s = [s]) \/
    (exists x y, s = x ++ [38; a] ++ y /\ ~ mark a x /\ split_mark a s = x :: split_mark a y)); [|intros s; exact (H (length s) s (le_n _))].
  induction n as [|n IH]; intros s L; destruct s as [|c r]; try (left; split; [apply no_mark_nil|reflexivity]); [cbn in L; lia|].
  cbn [split_mark]. destruct r as [|d r'].
  - left. split; [apply no_mark_one|reflexivity].
  - destruct (N.eqb_spec c 38) as [->|Hc]; [destruct (N.eqb_spec d a) as [->|Hd]|]; cbn [andb].
    + right. exists [], r'. split; [reflexivity|]. split; [apply no_mark_nil|reflexivity].
    + assert (L' : (length (d :: r') <= n)%nat) by (cbn in *; lia). destruct (IH (d :: r') L') as [[M E]|(x & y & E & M & S)].
      * left. rewrite E. split; [|reflexivity]. intros (u & v & Q). destruct u as [|q u]; [cbn [app] in *; congruence|]. apply M. exists u, v. cbn [app] in *. congruence.
      * right. exists (38 :: x), y. split; [rewrite E; reflexivity|]. rewrite S. split; [|reflexivity]. intros (u & v & Q). destruct u as [|q u].
        -- cbn in Q. destruct x as [|z x]; [discriminate|]. cbn in E. congruence.
        -- apply M. exists u, v. cbn [app] in *. congruence.
    + assert (L' : (length (d :: r') <= n)%nat) by (cbn in *; lia). destruct (IH (d :: r') L') as [[M E]|(x & y & E & M & S)].
      * left. rewrite E. split; [|reflexivity]. intros (u & v & Q). destruct u as [|q u]; [cbn [app] in *; congruence|]. apply M. exists u, v. cbn [app] in *. congruence.
      * right. exists (c :: x), y. split; [rewrite E; reflexivity|]. rewrite S. split; [|reflexivity]. intros (u & v & Q). destruct u as [|q u].
        -- cbn in Q. congruence.
        -- apply M. exists u, v. cbn [app] in *. congruence.
Qed.
(** The piece before the first mark. *)
Lemma first_piece a : a <> 38 -> forall s, let x := hd [] (split_mark a s) in
  ~ mark a x /\ exists after, s = x ++ after /\ (after = [] \/ exists t, after = [38; a] ++ t).
Proof.
  intros Ha s. destruct (first_mark a Ha s) as [[M E]|(x & y & E & M & S)]; cbv zeta.
  - rewrite E. cbn [hd]. split; [exact M|]. exists []. rewrite app_nil_r. auto.
  - rewrite S. cbn [hd]. split; [exact M|]. exists ([38; a] ++ y). split; [exact E|]. right. exists y. reflexivity.
Qed.
Lemma prefix_nomark a x y : ~ mark a (x ++ y) -> ~ mark a x.
Proof. intros H M. apply H, mark_app_l, M. Qed.
Lemma suffix_nomark a x y : ~ mark a (x ++ y) -> ~ mark a y.
Proof. intros H M. apply H, mark_app, M. Qed.
Lemma mark_boundary a x c t : c <> a -> mark a (x ++ c :: t) -> mark a x \/ mark a (c :: t).
Proof.
  intros Hc (u & v & E). revert u E. induction x as [|z x IH]; intros u E; [right; exists u, v; exact E|].
  destruct u as [|q u].
  - cbn in E. destruct x as [|y x]; cbn in E; [congruence|]. left. exists [], x. cbn. congruence.
  - cbn in E. destruct (IH u) as [M|M]; [cbn; congruence|left; apply mark_cons, M|right; exact M].
Qed.
Lemma piece_unique a : a <> 38 -> forall x after, ~ mark a x -> (after = [] \/ exists t, after = [38; a] ++ t) -> hd [] (split_mark a (x ++ after)) = x.
Proof.
  intros Ha x after Mx [->|[t ->]].
  - rewrite app_nil_r. destruct (first_mark a Ha x) as [[_ E]|(u & v & E & _ & _)]; [rewrite E; reflexivity|]. exfalso. apply Mx. exists u, v. exact E.
  - revert Mx. assert (H : forall n x, (length x <= n)%nat -> ~ mark a x -> hd [] (split_mark a (x ++ [38; a] ++ t)) = x); [|intros Mx; exact (H (length x) x (le_n _) Mx)].
    clear x. induction n as [|n IH]; intros x L M; destruct x as [|c x]; try (cbn in L; lia).
    + cbn [app split_mark]. change (38 =? 38) with true. rewrite N.eqb_refl. reflexivity.
    + cbn [app split_mark]. change (38 =? 38) with true. rewrite N.eqb_refl. reflexivity.
    + destruct x as [|d x].
      * cbn [app]. change (split_mark a (c :: 38 :: a :: t)) with (if (c =? 38) && (38 =? a) then [] :: split_mark a (a :: t) else cons_head c (split_mark a (38 :: a :: t))).
        replace (38 =? a) with false by (symmetry; apply N.eqb_neq; congruence). rewrite andb_false_r.
        change (split_mark a (38 :: a :: t)) with (if (38 =? 38) && (a =? a) then [] :: split_mark a t else cons_head 38 (split_mark a (a :: t))).
        change (38 =? 38) with true. rewrite N.eqb_refl. reflexivity.
      * assert (IHx := IH (d :: x) ltac:(cbn in *; lia) (fun K => M (mark_cons a c _ K))). cbn [app] in *.
        change (split_mark a (c :: d :: x ++ 38 :: a :: t)) with (if (c =? 38) && (d =? a) then [] :: split_mark a (x ++ 38 :: a :: t) else cons_head c (split_mark a (d :: x ++ 38 :: a :: t))).
        destruct ((c =? 38) && (d =? a)) eqn:B.
        { exfalso. apply M. exists [], x. cbn. rewrite andb_true_iff, !N.eqb_eq in B. destruct B as [-> ->]. reflexivity. }
        destruct (split_nonempty a (d :: x ++ 38 :: a :: t)) as (z & l & E). rewrite E in *. cbn [hd cons_head] in *. congruence.
Qed.
(** Cutting at one kind of mark behind a piece free of it. *)
Lemma piece_extends a : a <> 38 -> forall x y, ~ mark a x -> (y = [] \/ exists c t, y = 38 :: c :: t) ->
  exists y1, hd [] (split_mark a (x ++ y)) = x ++ y1 /\ exists y2, y = y1 ++ y2 /\ (y2 = [] \/ exists t, y2 = [38; a] ++ t) /\ ~ mark a y1.
Proof.
  intros Ha x y Mx Hy. destruct (first_piece a Ha (x ++ y)) as [M (after & E & A)]. set (p := hd [] (split_mark a (x ++ y))) in *.
  assert (K : exists y1, p = x ++ y1).
  { apply app_eq_app in E as (w & [[Ex E]|[Ep E]]); [|exists w; exact Ep].
    destruct w as [|u w]; [exists []; rewrite app_nil_r in *; congruence|]. exfalso. destruct A as [->|[t ->]]; [destruct w; discriminate|].
    destruct w as [|v w].
    - destruct Hy as [->|(c & t' & ->)]; cbn in E; [congruence|]. assert (38 = a) by congruence. congruence.
    - apply Mx. rewrite Ex. exists p, w. assert (u = 38) by (cbn in E; congruence). assert (v = a) by (cbn in E; congruence). cbn [app]. congruence. }
  destruct K as [y1 Ey]. exists y1. split; [exact Ey|]. rewrite Ey, <- app_assoc in E. apply app_inv_head in E. exists after. split; [exact E|]. split; [exact A|].
  rewrite Ey in M. exact (suffix_nomark a x y1 M).
Qed.

(** ** The check is exactly: the only section of that kind has a picture code *)
Lemma contains_picture s : str_contains (lit "&[Picture]") s || str_contains (lit "&G") s = true <-> picture_code s.
Proof.
  unfold picture_code. rewrite orb_true_iff, !contains_iff. split.
  - intros [(u & v & E)|(u & v & E)]; exists u, v; auto.
  - intros (u & v & [E|E]); [right|left]; exists u, v; exact E.
Qed.
Lemma verify_iff a b c s : a <> 38 -> b <> 38 -> c <> 38 -> b <> c ->
  verify_section a b c s = true <-> exists before sec after, s = before ++ [38; a] ++ sec ++ after /\ ~ mark a before /\ ~ mark a (sec ++ after) /\
    (~ mark b sec /\ ~ mark c sec) /\ (after = [] \/ exists x t, (x = b \/ x = c) /\ after = [38; x] ++ t) /\ picture_code sec.
Proof.
  intros Ha Hb Hc Hbc. unfold verify_section. split.
  - destruct (first_mark a Ha s) as [[M E]|(x & y & E & M & S)]; [rewrite E; discriminate|]. rewrite S.
    destruct (first_mark a Ha y) as [[M2 E2]|(x2 & y2 & E2 & M2 & S2)].
    2:{ rewrite S2. destruct (split_nonempty a y2) as (z & l & ->). discriminate. }
    rewrite E2. intros H. apply contains_picture in H. destruct (first_piece b Hb y) as [Mb (w & Ew & Aw)].
    destruct (first_piece c Hc (hd [] (split_mark b y))) as [Mc (w' & Ew' & Aw')].
    set (p := hd [] (split_mark b y)) in *. set (q := hd [] (split_mark c p)) in *. exists x, q, (w' ++ w).
    assert (Ey : y = q ++ w' ++ w) by (rewrite app_assoc, <- Ew'; exact Ew).
    split; [rewrite <- Ey; exact E|]. split; [exact M|]. split; [rewrite <- Ey; exact M2|]. split; [split; [rewrite Ew' in Mb; exact (prefix_nomark _ _ _ Mb)|exact Mc]|].
    split; [|exact H]. destruct Aw' as [->|[t ->]]; [|right; exists c, (t ++ w); rewrite <- app_assoc; auto].
    destruct Aw as [->|[t ->]]; [left; reflexivity|right; exists b, t; auto].
  - intros (before & sec & after & E & M & M2 & [Mb Mc] & A & P). subst s.
    assert (S : split_mark a (before ++ [38; a] ++ sec ++ after) = [before; sec ++ after]).
    { destruct (first_mark a Ha (before ++ [38; a] ++ sec ++ after)) as [[M3 _]|(x & y & E3 & M3 & S3)]; [exfalso; apply M3; exists before, (sec ++ after); reflexivity|].
      rewrite S3. assert (X := piece_unique a Ha before _ M (or_intror (ex_intro _ (sec ++ after) eq_refl))). rewrite S3 in X. cbn [hd] in X. subst x.
      apply app_inv_head in E3. assert (y = sec ++ after) by (cbn [app] in E3; congruence). subst y.
      destruct (first_mark a Ha (sec ++ after)) as [[_ E4]|(u & v & E4 & _ & _)]; [rewrite E4; reflexivity|]. exfalso. apply M2. exists u, v. exact E4. }
    rewrite S. apply contains_picture. assert (Q : hd [] (split_mark c (hd [] (split_mark b (sec ++ after)))) = sec); [|rewrite Q; exact P].
    destruct A as [->|(x & t & [->| ->] & ->)].
    + rewrite (piece_unique b Hb sec [] Mb) by auto. rewrite <- (app_nil_r sec) at 1. apply (piece_unique c Hc sec [] Mc). auto.
    + rewrite (piece_unique b Hb sec _ Mb) by (right; exists t; reflexivity). rewrite <- (app_nil_r sec) at 1. apply (piece_unique c Hc sec [] Mc). auto.
    + destruct (piece_extends b Hb sec ([38; c] ++ t) Mb) as (y1 & E1 & y2 & E2 & A2 & M1); [right; exists c, t; reflexivity|]. rewrite E1.
      apply (piece_unique c Hc sec y1 Mc). destruct y1 as [|z1 [|z2 y1]]; [auto| |].
      * exfalso. cbn [app] in E2. destruct A2 as [->|[t' ->]]; [discriminate|]. cbn [app] in E2. congruence.
      * right. exists y1. cbn [app] in E2. cbn [app]. congruence.
Qed.
Lemma verify_spec s p : verify_header_footer_image s p = true <-> exists sec, section_text p s sec /\ picture_code sec.
Proof.
  assert (H : forall a b c, (p = HLeft /\ a = 76 /\ b = 67 /\ c = 82) \/ (p = HRight /\ a = 82 /\ b = 67 /\ c = 76) \/ (p = HCenter /\ a = 67 /\ b = 76 /\ c = 82) ->
    verify_section a b c s = true <-> exists sec, section_text p s sec /\ picture_code sec).
  { intros a b c H. assert (L : letter p = a /\ In a section_letters /\ In b section_letters /\ In c section_letters /\ (forall x, In x section_letters -> x = a \/ x = b \/ x = c) /\ a <> 38 /\ b <> 38 /\ c <> 38 /\ b <> c).
    { unfold section_letters. cbn [In]. destruct H as [(-> & -> & -> & ->)|[(-> & -> & -> & ->)|(-> & -> & -> & ->)]]; (split; [reflexivity|]); repeat split; try lia; intros x [Hx|[Hx|[Hx|[]]]]; auto. }
    destruct L as (L1 & La & Lb & Lc & L2 & Ha & Hb & Hc & Hbc). rewrite (verify_iff a b c s Ha Hb Hc Hbc). unfold section_text. rewrite L1. split.
    - intros (before & sec & after & E & M & M2 & [Mb Mc] & A & P). exists sec. split; [|exact P]. exists before, after. split; [exact E|]. split; [exact M|]. split; [exact M2|].
      split; [intros x Hx; destruct (L2 x Hx) as [->|[->| ->]]; [exact (prefix_nomark _ _ _ M2)|exact Mb|exact Mc]|].
      destruct A as [A|(x & t & Hx & A)]; [left; exact A|right; exists x, t]. split; [destruct Hx as [->| ->]; assumption|exact A].
    - intros (sec & (before & after & E & M & M2 & Ms & A) & P). exists before, sec, after. split; [exact E|]. split; [exact M|]. split; [exact M2|].
      split; [split; apply Ms; assumption|]. split; [|exact P]. destruct A as [A|(x & t & Hx & A)]; [left; exact A|right; exists x, t].
      split; [|exact A]. destruct (L2 x Hx) as [->|[->| ->]]; auto. exfalso. apply M2. rewrite A. apply mark_app. exists [], t. reflexivity. }
  unfold verify_header_footer_image. destruct p; apply H; tauto.
Qed.

(** ** The pictures after a history *)
Definition slot (header : bool) (p : hpos) : nat := if header then pos_index p else (3 + pos_index p)%nat.
Lemma nth_error_skipn_add {A} n k (l : list A) : nth_error (skipn n l) k = nth_error l (n + k).
Proof. revert l. induction n as [|n IH]; intros l; [reflexivity|]. destruct l as [|x l]; [destruct k; reflexivity|]. cbn [skipn Nat.add nth_error]. apply IH. Qed.
Lemma set_nth_length {A} i (v : A) l : (i < length l)%nat -> length (set_nth i v l) = length l.
Proof. intros H. unfold set_nth. rewrite app_length, firstn_length. cbn [length]. rewrite skipn_length. lia. Qed.
Lemma set_nth_same {A} i (v : A) l : (i < length l)%nat -> nth_error (set_nth i v l) i = Some v.
Proof. intros H. unfold set_nth. rewrite nth_error_app2; rewrite firstn_length; [|lia]. replace (i - Nat.min i (length l))%nat with 0%nat by lia. reflexivity. Qed.
Lemma set_nth_other {A} i j (v : A) l : (i < length l)%nat -> i <> j -> nth_error (set_nth i v l) j = nth_error l j.
Proof.
  intros H Hij. unfold set_nth. destruct (Nat.lt_ge_cases j i) as [L|L].
  - rewrite nth_error_app1 by (rewrite firstn_length; lia). clear Hij. revert i j H L. induction l as [|x l IH]; intros i j H L; [cbn in H; lia|]. destruct i as [|i]; [lia|]. destruct j as [|j]; [reflexivity|].
    cbn [firstn nth_error]. apply IH; cbn in *; lia.
  - rewrite nth_error_app2 by (rewrite firstn_length; lia). rewrite firstn_length. replace (Nat.min i (length l)) with i by lia.
    destruct (j - i)%nat as [|k] eqn:E; [lia|]. cbn [nth_error]. assert (Ej : j = (S i + k)%nat) by lia. rewrite Ej. rewrite <- nth_error_skipn_add. reflexivity.
Qed.
Lemma slot_lt header p : (slot header p < 6)%nat. Proof. destruct header, p; cbn; lia. Qed.
Lemma slot_inj h p h' p' : slot h p = slot h' p' -> h = h' /\ p = p'.
Proof. destruct h, p, h', p'; cbn; intros; try discriminate; auto. Qed.
Lemma hrun_snoc s ops o : hrun s (ops ++ [o]) = fst (hstep (hrun s ops) o).
Proof. unfold hrun. rewrite fold_left_app. reflexivity. Qed.
Lemma history ops : let s := hrun hsheet_new ops in
  h_header s = text_after true (rev ops) /\ h_footer s = text_after false (rev ops) /\ length (h_pics s) = 6%nat /\
  forall header p, exists x, nth_error (h_pics s) (slot header p) = Some (option_map (fun i => (header, p, i)) x) /\ picture_after header p (rev ops) x.
Proof.
  induction ops as [|o ops IH] using rev_ind.
  - cbn. repeat (split; [reflexivity|]). intros header p. exists None. split; [destruct header, p; reflexivity|constructor].
  - cbv zeta in *. rewrite hrun_snoc, rev_app_distr. set (s := hrun hsheet_new ops) in *. clearbody s. destruct IH as (I1 & I2 & I3 & I4). cbn [rev app].
    destruct o as [b t|b q i]; cbn [hstep text_after].
    + assert (K : forall header p, exists x, nth_error (h_pics s) (slot header p) = Some (option_map (fun i => (header, p, i)) x) /\ picture_after header p (HText b t :: rev ops) x).
      { intros header p. destruct (I4 header p) as (x & E & P). exists x. split; [exact E|]. apply pa_other; [discriminate|exact P]. }
      unfold of_text. rewrite hf_shorten, N.ltb_antisym. destruct (N.of_nat (length (shorten t)) <=? 255); cbn [negb fst]; rewrite ?andb_true_r, ?andb_false_r; [|auto].
      destruct b; cbn [Bool.eqb h_header h_footer h_pics]; auto.
    + cbn [of_text]. destruct (verify_header_footer_image (if b then h_header s else h_footer s) q) eqn:V; cbn [negb fst].
      * cbn [h_header h_footer h_pics]. split; [exact I1|]. split; [exact I2|]. assert (L := slot_lt b q). unfold slot in L. split; [rewrite set_nth_length; [exact I3|rewrite I3; exact L]|].
        assert (V2 : exists sec, section_text q (text_after b (rev ops)) sec /\ picture_code sec).
        { apply verify_spec. destruct b; congruence. }
        intros header p. destruct (Nat.eq_dec (slot b q) (slot header p)) as [E|E].
        -- apply slot_inj in E as E2. destruct E2 as [<- <-]. exists (Some i). split; [apply set_nth_same; rewrite I3; exact L|]. apply pa_set. exact V2.
        -- destruct (I4 header p) as (x & E2 & P). exists x. split; [etransitivity; [|exact E2]; apply set_nth_other; [rewrite I3; exact L|exact E]|].
           apply pa_other; [|exact P]. intros j Hj. apply E. congruence.
      * split; [exact I1|]. split; [exact I2|]. split; [exact I3|]. intros header p. destruct (I4 header p) as (x & E2 & P). exists x. split; [exact E2|].
        assert (D : (b = header /\ q = p) \/ ~ (b = header /\ q = p)) by (destruct b, header, q, p; try (left; split; reflexivity); right; intros [? ?]; congruence).
        destruct D as [[-> ->]|D].
        -- apply pa_refused; [|exact P]. intros V2. apply verify_spec in V2. destruct header; congruence.
        -- apply pa_other; [|exact P]. intros j Hj. apply D. split; congruence.
Qed.

(** ** The numbering *)
Lemma index_some h l k : index_of h l = Some k -> nth_error l (N.to_nat k) = Some h.
Proof.
  revert k. induction l as [|x l IH]; intros k; [discriminate|]. cbn [index_of]. destruct (str_eqb x h) eqn:E.
  - intros Q. injection Q as <-. apply str_eqb_eq in E. subst. reflexivity.
  - destruct (index_of h l) as [j|]; [|discriminate]. cbn [option_map]. intros Q. injection Q as <-. rewrite N2Nat.inj_succ. cbn [nth_error]. apply IH. reflexivity.
Qed.
Lemma index_none h l : index_of h l = None -> ~ In h l.
Proof.
  induction l as [|x l IH]; [auto|]. cbn [index_of In]. destruct (str_eqb x h) eqn:E; [discriminate|]. destruct (index_of h l); [discriminate|].
  intros _ [->|H]; [rewrite str_eqb_refl in E; discriminate|]. exact (IH eq_refl H).
Qed.
Lemma number_in_spec h l k l' : number_in h l = (k, l') -> (exists more, l' = l ++ more) /\ nth_error l' (N.to_nat k) = Some h /\ (NoDup l -> NoDup l').
Proof.
  unfold number_in. destruct (index_of h l) as [j|] eqn:E; intros Q; injection Q as <- <-.
  - split; [exists []; symmetry; apply app_nil_r|]. split; [apply index_some, E|auto].
  - split; [eauto|]. split; [rewrite Nat2N.id, nth_error_app2, Nat.sub_diag; [reflexivity|lia]|]. intros Nd. apply index_none in E.
    apply Styles_Proofs.nodup_snoc; assumption.
Qed.
