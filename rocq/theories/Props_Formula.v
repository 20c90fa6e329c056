(** C14: preparing a formula only strips its decoration and inserts prefixes. *)
From Verif Require Import Base Formula_Model Formula_Spec.

(** The prefix a known function needs. *)
Definition prefix_of (w : str) : str :=
  match future_functions w with
  | Some 2 => lit "_xlfn._xlws."
  | Some _ => lit "_xlfn."
  | None => []
  end.
Definition insertion (before after : str) : str :=
  match call_at before after with Some w => prefix_of w | None => [] end.
Definition dynamic_name (w : str) : bool :=
  match future_functions w with Some k => 0 <? k | None => false end.

Lemma name_char_eq c : is_function_char c = name_char c.
Proof. reflexivity. Qed.

Lemma prefix_for_eq w : prefix_for w = (prefix_of w, dynamic_name w).
Proof.
  unfold prefix_for, prefix_of, dynamic_name. destruct (future_functions w) as [[|[[]|[]|]]|]; reflexivity.
Qed.

Lemma quotes_snoc b c : in_literal (b ++ [c]) = if c =? 34 then negb (in_literal b) else in_literal b.
Proof.
  unfold in_literal, quotes. rewrite filter_app, app_length. cbn [filter].
  rewrite (N.eqb_sym 34 c). destruct (c =? 34); cbn [length].
  - rewrite Nat.add_1_r, Nat.odd_succ, <- Nat.negb_odd. reflexivity.
  - rewrite Nat.add_0_r. reflexivity.
Qed.

Lemma inside_snoc b c : inside_name (b ++ [c]) = name_char c.
Proof. unfold inside_name. rewrite rev_app_distr. reflexivity. Qed.

Lemma name_here_run w c z : forallb name_char w = true -> name_char c = false -> name_here (w ++ c :: z) = (w, c :: z).
Proof.
  intros Hw Hc. induction w as [|x w IH]; cbn [name_here app].
  - rewrite Hc. reflexivity.
  - cbn [forallb] in Hw. apply andb_true_iff in Hw. destruct Hw as [-> Hw]. rewrite (IH Hw). reflexivity.
Qed.
Lemma name_here_end w : forallb name_char w = true -> name_here w = (w, []).
Proof.
  intros Hw. induction w as [|x w IH]; cbn [name_here]; [reflexivity|].
  cbn [forallb] in Hw. apply andb_true_iff in Hw. destruct Hw as [-> Hw]. rewrite (IH Hw). reflexivity.
Qed.

(** Whether a dynamic function is called somewhere from here on. *)
Fixpoint calls_dynamic (before after : str) : bool :=
  match after with
  | [] => false
  | c :: r => match call_at before after with Some w => dynamic_name w | None => false end
              || calls_dynamic (before ++ [c]) r
  end.

Lemma call_off before after : in_literal before = true \/ inside_name before = true -> call_at before after = None.
Proof. unfold call_at. intros [-> | ->]; [reflexivity|rewrite orb_true_r; reflexivity]. Qed.

Lemma call_on b0 w c z :
  in_literal b0 = false -> inside_name b0 = false -> w <> [] -> forallb name_char w = true -> name_char c = false ->
  call_at b0 (w ++ c :: z) = if c =? 40 then Some w else None.
Proof.
  intros H1 H2 H3 H4 H5. unfold call_at. rewrite H1, H2, (name_here_run _ _ _ H4 H5). cbn [orb].
  destruct w as [|x w]; [congruence|].
  destruct (N.eqb_spec c 40) as [->|Hn]; [reflexivity|].
  destruct c as [|p]; [reflexivity|]. do 6 (try destruct p as [p|p|]; try reflexivity). congruence.
Qed.

Lemma call_none_nochar b c r : name_char c = false -> call_at b (c :: r) = None.
Proof.
  intros H. unfold call_at. cbn [name_here]. rewrite H. destruct (in_literal b || inside_name b); reflexivity.
Qed.

Lemma nfalse : name_char 34 = false. Proof. reflexivity. Qed.

(** The scanner against the positional specification. *)
Lemma scan_spec after :
  (forall before q, in_literal before = q -> (q = true \/ inside_name before = false) ->
     ~ (exists b1 z, after = b1 ++ 34 :: z /\ in_literal (before ++ b1) = false /\ inside_name (before ++ b1) = true) ->
     escape_loop after None q = (spread insertion before after, calls_dynamic before after)) /\
  (forall b0 t, in_literal b0 = false -> in_literal (b0 ++ rev t) = false -> inside_name b0 = false -> t <> [] -> forallb name_char (rev t) = true ->
     ~ (exists b1 z, after = b1 ++ 34 :: z /\ in_literal (b0 ++ rev t ++ b1) = false /\ inside_name (b0 ++ rev t ++ b1) = true) ->
     escape_loop after (Some t) false =
       (match call_at b0 (rev t ++ after) with Some w => prefix_of w | None => [] end
          ++ rev t ++ spread insertion (b0 ++ rev t) after,
        match call_at b0 (rev t ++ after) with Some w => dynamic_name w | None => false end
          || calls_dynamic (b0 ++ rev t) after)).
Proof.
  induction after as [|c r [IHn IHs]]; split.
  - intros before q _ _ _. reflexivity.
  - intros b0 t H1 H1' H2 H3 H4 _. cbn [escape_loop spread calls_dynamic]. rewrite app_nil_r.
    unfold call_at. rewrite H1, H2, (name_here_end _ H4). cbn [orb].
    destruct (rev t) eqn:E; rewrite ?app_nil_r; reflexivity.
  - intros before q Hq Hi Hno. cbn [escape_loop spread calls_dynamic].
    assert (Hno' : ~ (exists b1 z, r = b1 ++ 34 :: z /\ in_literal ((before ++ [c]) ++ b1) = false /\ inside_name ((before ++ [c]) ++ b1) = true)).
    { intros (b1 & z & -> & A & B). apply Hno. exists (c :: b1), z. rewrite <- app_assoc in A, B. auto. }
    pose proof (quotes_snoc before c) as HQ. pose proof (inside_snoc before c) as HI.
    destruct (N.eqb_spec c 34) as [->|Hc].
    + destruct q; cbn [negb].
      * (* closing quote *)
        rewrite name_char_eq, nfalse, (IHn (before ++ [34]) false).
        -- unfold insertion at 2. rewrite call_off by auto. reflexivity.
        -- rewrite HQ, Hq. reflexivity.
        -- right. rewrite HI. reflexivity.
        -- assumption.
      * cbn [option_map]. rewrite (IHn (before ++ [34]) true).
        -- unfold insertion at 2. rewrite call_none_nochar by reflexivity. reflexivity.
        -- rewrite HQ, Hq. reflexivity.
        -- auto.
        -- assumption.
    + destruct q.
      * cbn [option_map]. rewrite (IHn (before ++ [c]) true).
        -- unfold insertion at 2. rewrite call_off by auto. reflexivity.
        -- rewrite HQ. assumption.
        -- auto.
        -- assumption.
      * destruct Hi as [Hi|Hi]; [discriminate|]. rewrite name_char_eq.
        destruct (name_char c) eqn:Ec.
        -- rewrite (IHs before [c]); cbn [rev app].
           ++ unfold insertion at 2. cbn [app]. reflexivity.
           ++ assumption.
           ++ rewrite HQ. assumption.
           ++ assumption.
           ++ discriminate.
           ++ cbn [forallb]. rewrite Ec. reflexivity.
           ++ intros (b1 & z & A & B & C). apply Hno'. exists b1, z. rewrite <- app_assoc. cbn [app] in *. auto.
        -- rewrite (IHn (before ++ [c]) false).
           ++ unfold insertion at 2. rewrite call_none_nochar by assumption. reflexivity.
           ++ rewrite HQ. assumption.
           ++ auto.
           ++ assumption.
  - intros b0 t H1 H1' H2 H3 H4 Hno.
    assert (Hin : inside_name (b0 ++ rev t) = true).
    { destruct t as [|x t]; [congruence|]. cbn [rev] in *. rewrite app_assoc, inside_snoc.
      rewrite forallb_app in H4. apply andb_true_iff in H4. destruct H4 as [_ H4]. cbn [forallb] in H4.
      rewrite andb_true_r in H4. assumption. }
    assert (Hc : c <> 34).
    { intros ->. apply Hno. exists [], r. rewrite app_nil_r. auto. }
    cbn [escape_loop]. destruct (N.eqb_spec c 34) as [|_]; [congruence|]. rewrite name_char_eq.
    assert (Hoff : call_at (b0 ++ rev t) (c :: r) = None) by (apply call_off; auto).
    cbn [spread calls_dynamic]. unfold insertion at 1. rewrite Hoff. cbn [app orb].
    destruct (name_char c) eqn:Ec.
    + rewrite (IHs b0 (c :: t)); cbn [rev].
      * rewrite <- !app_assoc. reflexivity.
      * assumption.
      * rewrite app_assoc, quotes_snoc. destruct (N.eqb_spec c 34); [congruence|assumption].
      * assumption.
      * discriminate.
      * rewrite forallb_app, H4. cbn [forallb]. rewrite Ec. reflexivity.
      * intros (b1 & z & -> & B & C). apply Hno. exists (c :: b1), z. rewrite <- !app_assoc in B, C. auto.
    + rewrite (call_on b0 (rev t) c r); try assumption.
      2:{ intros E. apply (f_equal (@rev N)) in E. rewrite rev_involutive in E. cbn in E. congruence. }
      rewrite (IHn ((b0 ++ rev t) ++ [c]) false).
      * destruct (c =? 40); [rewrite prefix_for_eq|]; reflexivity.
      * rewrite quotes_snoc. destruct (N.eqb_spec c 34); [congruence|assumption].
      * right. rewrite inside_snoc. assumption.
      * intros (b1 & z & -> & B & C). apply Hno. exists (c :: b1), z. rewrite <- !app_assoc in B, C. auto.
Qed.

Lemma escape_spec f : ~ quote_after_name f -> escape_formula f = (spread insertion [] f, calls_dynamic [] f).
Proof.
  intros H. apply (proj1 (scan_spec f)); [reflexivity|right; reflexivity|].
  intros (b & z & A & B & C). apply H. exists b, z. auto.
Qed.

(** ** Stripping *)
Lemma strip_first_cases c s : (s = c :: strip_first c s) \/ (strip_first c s = s /\ forall r, s <> c :: r).
Proof.
  destruct s as [|x r]; cbn [strip_first]; [right; split; [reflexivity|discriminate]|].
  destruct (N.eqb_spec x c) as [->|Hn]; [left; reflexivity|right; split; [reflexivity|congruence]].
Qed.
Lemma strip_last_cases c s : (s = strip_last c s ++ [c]) \/ (strip_last c s = s /\ forall r, s <> r ++ [c]).
Proof.
  unfold strip_last. destruct (rev s) as [|x r] eqn:E.
  - apply (f_equal (@rev N)) in E. rewrite rev_involutive in E. subst s. right. split; [reflexivity|].
    intros r H. destruct r; discriminate.
  - apply (f_equal (@rev N)) in E. rewrite rev_involutive in E. cbn [rev] in E.
    destruct (N.eqb_spec x c) as [->|Hn]; [left; assumption|right; split; [reflexivity|]].
    intros r' H. rewrite H in E. apply app_inj_tail in E. destruct E; congruence.
Qed.

Definition undecorate (s : str) : str := strip_last 125 (strip_first 61 (strip_first 123 s)).

Lemma undecorate_stripped s : stripped s (undecorate s).
Proof.
  unfold undecorate.
  destruct (strip_first_cases 123 s) as [E1|[E1 N1]];
  destruct (strip_first_cases 61 (strip_first 123 s)) as [E2|[E2 N2]];
  destruct (strip_last_cases 125 (strip_first 61 (strip_first 123 s))) as [E3|[E3 N3]];
  set (s1 := strip_first 123 s) in *; set (s2 := strip_first 61 s1) in *; set (s3 := strip_last 125 s2) in *.
  - replace s with ([123] ++ [61] ++ s3 ++ [125]) by (cbn [app]; congruence). constructor; auto; discriminate.
  - replace s with ([123] ++ [61] ++ s3 ++ []) by (cbn [app]; rewrite app_nil_r; congruence).
    constructor; auto; try discriminate. intros _ r. rewrite E3. apply N3.
  - replace s with ([123] ++ [] ++ s3 ++ [125]) by (cbn [app]; congruence).
    constructor; auto; try discriminate. intros _ r. rewrite <- E3, E2. apply N2.
  - replace s with ([123] ++ [] ++ s3 ++ []) by (cbn [app]; rewrite app_nil_r; congruence).
    constructor; auto; try discriminate.
    + intros _ r. rewrite app_nil_r, E3, E2. apply N2.
    + intros _ r. rewrite E3. apply N3.
  - replace s with ([] ++ [61] ++ s3 ++ [125]) by (cbn [app]; congruence).
    constructor; auto; discriminate.
  - replace s with ([] ++ [61] ++ s3 ++ []) by (cbn [app]; rewrite app_nil_r; congruence).
    constructor; auto; try discriminate.
    intros _ r. rewrite E3. apply N3.
  - replace s with ([] ++ [] ++ s3 ++ [125]) by (cbn [app]; congruence).
    constructor; auto; try discriminate.
    + intros _ r. cbn [app]. rewrite <- E3, E2, E1. apply N1.
    + intros _ r. rewrite <- E3, E2. apply N2.
  - replace s with ([] ++ [] ++ s3 ++ []) by (cbn [app]; rewrite app_nil_r; congruence).
    constructor; auto.
    + intros _ r. cbn [app]. rewrite app_nil_r, E3, E2, E1. apply N1.
    + intros _ r. rewrite app_nil_r, E3, E2. apply N2.
    + intros _ r. rewrite E3. apply N3.
Qed.

Lemma strip_first_no c s : (forall r, s <> c :: r) -> strip_first c s = s.
Proof.
  destruct s as [|x r]; intros H; [reflexivity|]. cbn [strip_first].
  destruct (N.eqb_spec x c) as [->|]; [destruct (H r eq_refl)|reflexivity].
Qed.
Lemma strip_last_no c s : (forall r, s <> r ++ [c]) -> strip_last c s = s.
Proof. intros H. destruct (strip_last_cases c s) as [E|[E _]]; [destruct (H _ E)|exact E]. Qed.
Lemma strip_last_snoc c s : strip_last c (s ++ [c]) = s.
Proof. unfold strip_last. rewrite rev_app_distr. cbn [rev app]. rewrite N.eqb_refl, rev_involutive. reflexivity. Qed.

Lemma stripped_undecorate s body : stripped s body -> undecorate s = body.
Proof.
  intros [o e c b Ho He Hc No Ne Nc]. unfold undecorate.
  assert (E1 : strip_first 123 (o ++ e ++ b ++ c) = e ++ b ++ c).
  { destruct Ho as [->| ->]; [apply strip_first_no; intros r; cbn [app]; apply No; reflexivity|reflexivity]. }
  rewrite E1.
  assert (E2 : strip_first 61 (e ++ b ++ c) = b ++ c).
  { destruct He as [->| ->]; [apply strip_first_no; intros r; cbn [app]; apply Ne; reflexivity|reflexivity]. }
  rewrite E2.
  destruct Hc as [->| ->].
  - rewrite app_nil_r. apply strip_last_no. apply Nc. reflexivity.
  - apply strip_last_snoc.
Qed.

Lemma new_of text body : stripped text body ->
  formula_new text = if str_contains (lit "_xlfn.") body then (body, copy_loop body None false) else escape_formula body.
Proof. intros H. rewrite <- (stripped_undecorate _ _ H). reflexivity. Qed.

(** ** The theorems *)

(** Every formula text has exactly one undecorated body: at most an opening
    brace, an equals sign and a closing brace are taken off. *)
Theorem C14_decoration_unique : forall text, exists! body, stripped text body.
Proof.
  intros text. exists (undecorate text). split; [apply undecorate_stripped|].
  intros b H. apply stripped_undecorate. assumption.
Qed.

(** A formula that already carries the prefixes is stored as it is. *)
Theorem C14_prefixed_unchanged : forall text body,
  stripped text body -> str_contains (lit "_xlfn.") body = true -> fst (formula_new text) = body.
Proof. intros text body H E. rewrite (new_of _ _ H), E. reflexivity. Qed.

(** Otherwise exactly the calls of known functions outside string literals get
    their prefix, and every character of the body is kept in place. *)
Theorem C14_prefixes_inserted_partial : forall text body,
  stripped text body -> str_contains (lit "_xlfn.") body = false -> ~ quote_after_name body ->
  fst (formula_new text) = spread insertion [] body.
Proof. intros text body H E Hq. rewrite (new_of _ _ H), E, (escape_spec _ Hq). reflexivity. Qed.

Lemma calls_dynamic_spec after before :
  calls_dynamic before after = true <->
  exists b1 a1 w, after = b1 ++ a1 /\ call_at (before ++ b1) a1 = Some w /\ dynamic_name w = true.
Proof.
  revert before; induction after as [|c r IH]; intros before; cbn [calls_dynamic].
  - split; [discriminate|]. intros (b1 & a1 & w & E & A & _). destruct b1, a1; try discriminate.
    unfold call_at in A. cbn [name_here] in A. destruct (_ || _); discriminate.
  - rewrite orb_true_iff, IH. split.
    + intros [H|(b1 & a1 & w & -> & A & B)].
      * destruct (call_at before (c :: r)) as [w|] eqn:E; [|discriminate].
        exists [], (c :: r), w. rewrite app_nil_r. auto.
      * exists (c :: b1), a1, w. rewrite <- app_assoc in A. auto.
    + intros (b1 & a1 & w & E & A & B). destruct b1 as [|x b1].
      * cbn [app] in E. subst a1. rewrite app_nil_r in A. rewrite A. auto.
      * cbn [app] in E. injection E as <- ->. right. exists b1, a1, w. rewrite <- app_assoc. auto.
Qed.

(** The formula is treated as a dynamic-array formula exactly when it calls a
    dynamic function outside string literals. *)
Theorem C14_dynamic_iff_partial : forall text body,
  stripped text body -> str_contains (lit "_xlfn.") body = false -> ~ quote_after_name body ->
  (snd (formula_new text) = true <->
   exists before after w k, body = before ++ after /\ call_at before after = Some w /\ future_functions w = Some k /\ k <> 0).
Proof.
  intros text body H E Hq. rewrite (new_of _ _ H), E, (escape_spec _ Hq). cbn [snd].
  rewrite calls_dynamic_spec. split.
  - intros (b & a & w & A & B & C). unfold dynamic_name in C. destruct (future_functions w) as [k|] eqn:F; [|discriminate].
    exists b, a, w, k. repeat split; try assumption. apply N.ltb_lt in C. lia.
  - intros (b & a & w & k & A & B & C & D). exists b, a, w. repeat split; try assumption.
    unfold dynamic_name. rewrite C. apply N.ltb_lt. lia.
Qed.

(** ** Deleting the prefixes *)
Lemma insertion_cases b a : insertion b a = [] \/
  ((insertion b a = lit "_xlfn." \/ insertion b a = lit "_xlfn._xlws.") /\ exists c r, a = c :: r /\ name_char c = true).
Proof.
  unfold insertion. destruct (call_at b a) as [w|] eqn:E; [|auto].
  assert (H : exists c r, a = c :: r /\ name_char c = true).
  { unfold call_at in E. destruct (in_literal b || inside_name b); [discriminate|].
    destruct a as [|c r]; [discriminate|]. exists c, r. split; [reflexivity|]. cbn [name_here] in E.
    destruct (name_char c); [reflexivity|discriminate]. }
  unfold prefix_of. destruct (future_functions w) as [[|[[]|[]|]]|]; auto.
Qed.

Lemma spread_head p : forall b r z, forallb (fun c => negb (c =? 95)) p = true ->
  spread insertion b r = p ++ z -> exists z', r = p ++ z'.
Proof.
  induction p as [|x p IH]; intros b r z Hp H; [exists r; reflexivity|].
  cbn [forallb] in Hp. apply andb_true_iff in Hp. destruct Hp as [Hx Hp].
  destruct r as [|c r]; cbn [spread] in H; [discriminate|].
  destruct (insertion_cases b (c :: r)) as [E|[[E|E] _]]; rewrite E in H; cbn [app] in H.
  - injection H as <- H. destruct (IH _ _ _ Hp H) as [z' ->]. exists z'. reflexivity.
  - injection H as <- H. discriminate.
  - injection H as <- H. discriminate.
Qed.

Lemma strip_prefix_none p s : (forall r, s <> p ++ r) -> strip_prefix p s = None.
Proof. intros H. destruct (strip_prefix p s) as [r|] eqn:E; [|reflexivity]. apply strip_prefix_some in E. destruct (H r E). Qed.

Lemma contains_cons p c r : str_contains p (c :: r) = false -> (forall z, c :: r <> p ++ z) /\ str_contains p r = false.
Proof.
  cbn [str_contains]. rewrite orb_false_iff. intros [A B]. split; [|assumption].
  intros z E. assert (H : starts_with p (c :: r) = true) by (apply starts_with_true; eauto). congruence.
Qed.

Lemma no_prefix b c r z : str_contains (lit "_xlfn.") (c :: r) = false -> c :: spread insertion b r <> lit "_xlfn." ++ z.
Proof.
  intros H E. apply contains_cons in H. destruct H as [H _].
  change (lit "_xlfn." ++ z) with (95 :: (lit "xlfn." ++ z)) in E.
  assert (E1 : c = 95) by congruence. assert (E2 : spread insertion b r = lit "xlfn." ++ z) by congruence. subst c.
  destruct (spread_head (lit "xlfn.") _ _ _ eq_refl E2) as [z' ->]. apply (H z'). reflexivity.
Qed.

Lemma delete_spread after : forall before fuel, (length (spread insertion before after) <= fuel)%nat ->
  str_contains (lit "_xlfn.") after = false -> without_prefixes fuel (spread insertion before after) = after.
Proof.
  induction after as [|c r IH]; intros before fuel Hf Hno; [destruct fuel; reflexivity|].
  assert (Hc : forall fuel, (length (c :: spread insertion (before ++ [c]) r) <= fuel)%nat ->
               without_prefixes fuel (c :: spread insertion (before ++ [c]) r) = c :: r).
  { clear fuel Hf. intros [|fuel] Hf; [cbn in Hf; lia|]. cbn [without_prefixes].
    rewrite !strip_prefix_none.
    - f_equal. apply IH; [cbn [length] in Hf; lia|]. apply contains_cons in Hno. tauto.
    - intros z. apply no_prefix. assumption.
    - intros z E. apply (no_prefix (before ++ [c]) c r (lit "_xlws." ++ z) Hno). exact E. }
  cbn [spread] in *. destruct (insertion_cases before (c :: r)) as [E|[[E|E] (c' & r' & Ec & Hn)]]; rewrite E in *.
  - apply Hc. assumption.
  - injection Ec as <- <-. destruct fuel as [|fuel]; [cbn in Hf; lia|]. cbn [without_prefixes].
    rewrite strip_prefix_none.
    2:{ intros z E'. change (lit "_xlfn._xlws." ++ z) with (lit "_xlfn." ++ 95 :: lit "xlws." ++ z) in E'.
        apply app_inv_head in E'. assert (E1 : c = 95) by congruence. subst c. discriminate. }
    rewrite (proj2 (strip_prefix_some (lit "_xlfn.") _ _) eq_refl). apply Hc. rewrite app_length in Hf. cbn [length lit map list_ascii_of_string] in *. lia.
  - injection Ec as <- <-. destruct fuel as [|fuel]; [cbn in Hf; lia|]. cbn [without_prefixes].
    rewrite (proj2 (strip_prefix_some (lit "_xlfn._xlws.") _ _) eq_refl). apply Hc. rewrite app_length in Hf. cbn [length lit map list_ascii_of_string] in *. lia.
Qed.

(** Deleting the prefixes from the stored text recovers the user's formula. *)
Theorem C14_prefixes_removable_partial : forall text body,
  stripped text body -> str_contains (lit "_xlfn.") body = false -> ~ quote_after_name body ->
  delete_prefixes (fst (formula_new text)) = body.
Proof.
  intros text body H E Hq. rewrite (C14_prefixes_inserted_partial _ _ H E Hq). apply delete_spread; [reflexivity|assumption].
Qed.

Lemma spread_clean after : forall before, str_contains (lit "_xlfn.") (spread insertion before after) = false ->
  spread insertion before after = after.
Proof.
  induction after as [|c r IH]; intros before H; [reflexivity|]. cbn [spread] in *.
  destruct (insertion_cases before (c :: r)) as [E|[[E|E] _]]; rewrite E in *; cbn [app].
  - f_equal. apply IH. apply contains_cons in H. tauto.
  - exfalso. cbn [app] in H. apply contains_cons in H. destruct H as [H _]. eapply H. reflexivity.
  - exfalso. cbn [app] in H. apply contains_cons in H. destruct H as [H _]. eapply (H (lit "_xlws." ++ _)). reflexivity.
Qed.

(** Preparing a stored formula again does not change it (unless it still looks
    decorated). *)
Theorem C14_idempotent_partial : forall text body stored,
  stripped text body -> ~ quote_after_name body -> stored = fst (formula_new text) -> stripped stored stored ->
  fst (formula_new stored) = stored.
Proof.
  intros text body stored H Hq Es Hs. destruct (str_contains (lit "_xlfn.") stored) eqn:Ec.
  - exact (C14_prefixed_unchanged _ _ Hs Ec).
  - destruct (str_contains (lit "_xlfn.") body) eqn:Eb.
    + rewrite (C14_prefixed_unchanged _ _ H Eb) in Es. congruence.
    + rewrite (C14_prefixes_inserted_partial _ _ H Eb Hq) in Es. rewrite Es in Ec. apply spread_clean in Ec.
      rewrite Ec in Es. subst stored. rewrite (C14_prefixes_inserted_partial _ _ Hs Eb Hq). exact Ec.
Qed.

(** In table columns '@' outside string literals becomes "[#This Row],"; nothing
    else changes. *)
Theorem C14_this_row : forall f,
  escape_table_functions f =
    each (fun before c => if negb (in_literal before) && (c =? 64) then lit "[#This Row]," else [c]) [] f.
Proof.
  intros f. set (g := fun before c => _).
  assert (Hg : forall b c, g b c = if negb (in_literal b) && (c =? 64) then lit "[#This Row]," else [c]) by reflexivity.
  clearbody g.
  assert (H : forall after before, table_loop after (in_literal before) = each g before after).
  { induction after as [|c r IH]; intros before; [reflexivity|]. cbn [table_loop each].
    rewrite <- (quotes_snoc before c), IH, Hg, (quotes_snoc before c).
    destruct (N.eqb_spec c 34) as [->|Hc].
    - destruct (in_literal before); reflexivity.
    - destruct (in_literal before); cbn [negb andb]; [reflexivity|]. destruct (c =? 64); reflexivity. }
  unfold escape_table_functions. destruct (has_char 64 f) eqn:E; [exact (H f [])|].
  assert (K : forall after before, has_char 64 after = false -> each g before after = after).
  { induction after as [|c r IH]; intros before K; [reflexivity|]. cbn [each]. cbn [has_char existsb] in K.
    apply orb_false_iff in K. destruct K as [K1 K2]. rewrite (IH _ K2). rewrite Hg, N.eqb_sym, K1, andb_false_r. reflexivity. }
  symmetry. apply K. assumption.
Qed.

(** ** What does not hold *)

(** A double quote after a name character, as in a reference to a sheet whose name has one,
    makes the text up to the next quote appear twice. *)
Theorem C14_refuted_quote_after_name : exists text,
  stripped text text /\ str_contains (lit "_xlfn.") text = false /\ delete_prefixes (fst (formula_new text)) <> text.
Proof.
  exists [39; 65; 34; 66; 34; 39; 33; 67; 49].
  split; [|split; [reflexivity|vm_compute; discriminate]].
  exact (undecorate_stripped [39; 65; 34; 66; 34; 39; 33; 67; 49]).
Qed.

(** A formula that ends in an array constant loses its closing brace. *)
Theorem C14_refuted_array_constant : fst (formula_new (lit "={1,2,3}")) = lit "{1,2,3".
Proof. vm_compute. reflexivity. Qed.

(** The name in front of which a prefix is inserted need not be the name of the
    function called: lower-case letters and '_' do not count. *)
Theorem C14_refuted_user_function : fst (formula_new (lit "=My_DAYS(A1)")) = lit "My__xlfn.DAYS(A1)".
Proof. vm_compute. reflexivity. Qed.

(** Quoted sheet names are not string literals for the scanner. *)
Theorem C14_refuted_sheet_name : fst (formula_new (lit "='DAYS(x)'!A1")) = lit "'_xlfn.DAYS(x)'!A1".
Proof. vm_compute. reflexivity. Qed.

(** ** Non-vacuity *)
Example C14_example :
  let text := lit "{=SORT(A1,""DAYS(""&STDEV.S(B1:B9))}" in
  let body := lit "SORT(A1,""DAYS(""&STDEV.S(B1:B9))" in
  stripped text body /\ str_contains (lit "_xlfn.") body = false /\ ~ quote_after_name body /\
  formula_new text = (lit "_xlfn._xlws.SORT(A1,""DAYS(""&_xlfn.STDEV.S(B1:B9))", true).
Proof.
  cbv zeta. split; [exact (undecorate_stripped _)|]. split; [reflexivity|]. split; [|vm_compute; reflexivity].
  intros (b & z & E & A & B).
  assert (K : forall n, nth_error (lit "SORT(A1,""DAYS(""&STDEV.S(B1:B9))") n = Some 34 -> n = 8%nat \/ n = 14%nat).
  { intros n. do 33 (destruct n as [|n]; [cbn; intros H; first [discriminate|auto]|]). destruct n; discriminate. }
  specialize (K (length b)). rewrite E in K. rewrite nth_error_app2, Nat.sub_diag in K by lia.
  assert (L : firstn (length b) (lit "SORT(A1,""DAYS(""&STDEV.S(B1:B9))") = b).
  { rewrite E. rewrite firstn_app, Nat.sub_diag, firstn_all. cbn [firstn]. apply app_nil_r. }
  destruct (K eq_refl) as [K'|K']; rewrite K' in L; rewrite <- L in A, B; discriminate.
Qed.
