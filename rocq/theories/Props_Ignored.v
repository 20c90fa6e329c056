(** C62: the cells whose errors are ignored. *)
From Verif Require Import Base F64 Ref_Model Ref_Spec Ref_Proofs Xml_Model Xml_Spec Xml_Proofs Xml_Read Xml_Read_Proofs Xml_Tree Fmt_Model Rich_Model Rich_Proofs
  Cells_Model SheetXml_Spec SheetXml_Proofs SheetXml_Proofs3 Doc_Spec View_Model View_Spec Setup_Spec Part_Model Tag_Proofs Part_Proofs Props_Part View_Hist Part_Groups.

(** ** Specification *)
(** Attribute names of CT_IgnoredError (ECMA-376 part 1, 18.3.1.50). *)
Definition schema_name (k : ignore_kind) : string :=
  match k with
  | NumberStoredAsText => "numberStoredAsText" | FormulaError => "evalError" | FormulaDiffers => "formula"
  | FormulaOmitsCells => "formulaRange" | UnlockedCellsWithFormula => "unlockedFormula"
  | InconsistentColumnFormula => "calculatedColumn" | FormulaRefersToEmptyCells => "emptyCellReference"
  | DataValidationError => "listDataValidation" | TwoDigitTextYear => "twoDigitTextYear"
  end%string.
(** The words of a text, separated by blanks. *)
Fixpoint words_loop (w s : str) : list str :=
  match s with [] => [w] | c :: r => if c =? 32 then w :: words_loop [] r else words_loop (w ++ [c]) r end.
Definition words (s : str) : list str := words_loop [] s.
(** The ranges under which the part says that errors of that kind are ignored. *)
Definition ranges_of (n : node) : option (list (N * N * (N * N))) := bind (attr "sqref" (attrs_of n)) (fun t => read_all range_of (words t)).
Definition ignored_ranges (k : ignore_kind) (root : node) : option (list (N * N * (N * N))) :=
  let entries := flat_map kids_of (kids_named "ignoredErrors" (kids_of root)) in
  bind (read_all ranges_of (filter (fun n => is_elem "ignoredError" n && flag_of (schema_name k) (attrs_of n)) entries)) (fun l => Some (concat l)).
(** A call: the kind of error and the first and last cell. *)
Definition call := (ignore_kind * (N * N * (N * N)))%type.
Definition range_eqb (a b : N * N * (N * N)) : bool :=
  let '(a1, a2, (a3, a4)) := a in let '(b1, b2, (b3, b4)) := b in (a1 =? b1) && (a2 =? b2) && (a3 =? b3) && (a4 =? b4).
Definition proper (q : N * N * (N * N)) : bool :=
  let '(fr, fc, (lr, lc)) := q in on_grid fr fc && on_grid lr lc && (fr <=? lr) && (fc <=? lc).
(** The calls that are accepted: proper ranges, each range only once. *)
Fixpoint accepted (before : list (N * N * (N * N))) (calls : list call) : list call :=
  match calls with
  | [] => []
  | (k, q) :: r => if proper q && negb (existsb (range_eqb q) before) then (k, q) :: accepted (q :: before) r else accepted before r
  end.
Definition of_kind (k : ignore_kind) (l : list call) : list (N * N * (N * N)) := map snd (filter (fun c => String.eqb (schema_name (fst c)) (schema_name k)) l).

(** ** The code *)
Section Ignored.
  Variable num_text : f64 -> str.
  Variable m : ovf.
  Hypothesis plain_numbers : forall x, forallb simple (num_text x) = true.
  (** The calls of ignore_error (14612) and ignore_error_range in turn. *)
  Fixpoint ignore_run (s : ignored) (calls : list call) : option ignored :=
    match calls with
    | [] => Some s
    | (k, (fr, fc, (lr, lc))) :: r => p <- ignore_error_range m s fr fc lr lc k ;; ignore_run (fst p) r
    end.

  Definition no_blank (t : str) : Prop := forallb (fun c => negb (c =? 32)) t = true.
  Lemma range_no_blank fr fc lr lc t : fr < ROW_MAX -> fc < COL_MAX -> lr < ROW_MAX -> lc < COL_MAX -> cell_range m fr fc lr lc = Some t -> no_blank t.
  Proof.
    unfold ROW_MAX, COL_MAX. intros A B C D.
    assert (X : forall r c, r < 1048576 -> c < 16384 -> exists t, row_col_to_cell m r c = Some t /\ no_blank t).
    { intros r c Hr Hc. assert (A' : r < 2 ^ 32 - 1) by (change (2 ^ 32 - 1) with 4294967295; lia). assert (B' : c < 65535) by lia.
      destruct (row_col_to_cell_text m r c A' B') as (nm & En & Ez & _). destruct (column_number_to_name_spec m c B') as (nm2 & En2 & U & _ ).
      assert (nm2 = nm) by congruence. subst nm2. exists (nm ++ dec (r + 1)). split; [exact Ez|]. unfold no_blank. rewrite forallb_app. apply andb_true_iff. split.
      - apply upper_simple in U. apply forallb_forall. intros x Hx. rewrite forallb_forall in U. specialize (U x Hx). unfold simple, is_ascii_upper, is_ascii_lower, is_ascii_digit in U. lia.
      - pose proof (dec_simple (r + 1)) as S. apply forallb_forall. intros x Hx. rewrite forallb_forall in S. specialize (S x Hx). unfold simple, is_ascii_upper, is_ascii_lower, is_ascii_digit in S. lia. }
    destruct (X fr fc A B) as (a & Ea & Na). destruct (X lr lc C D) as (b & Eb & Nb). unfold cell_range. rewrite Ea, Eb. cbv beta iota delta [obind]. intros E. injection E as <-.
    destruct (str_eqb a b); [exact Na|]. unfold no_blank in *. rewrite forallb_app. cbn [forallb]. rewrite Na, Nb. reflexivity.
  Qed.
  Lemma words_plain t : no_blank t -> forall w, words_loop w t = [w ++ t].
  Proof.
    unfold no_blank. induction t as [|c t IH]; intros H w; [cbn; rewrite app_nil_r; reflexivity|]. cbn [forallb] in H. apply andb_prop in H as [Hc H]. cbn [words_loop].
    destruct (c =? 32); [discriminate|]. rewrite IH by exact H. rewrite <- app_assoc. reflexivity.
  Qed.
  Lemma words_app t u : no_blank u -> words (t ++ lit " " ++ u) = words t ++ [u].
  Proof.
    intros H. unfold words. generalize (@nil N). induction t as [|c t IH]; intros w.
    - cbn [app words_loop]. change (lit " ") with [32]. cbn [app words_loop]. rewrite N.eqb_refl. rewrite words_plain by exact H. reflexivity.
    - cbn [app words_loop]. destruct (c =? 32); [cbn [app]; f_equal|]; apply IH.
  Qed.

  Definition entry (k : ignore_kind) (s : ignored) : option str := match find (fun p => ignore_eqb k (fst p)) (ig_ranges s) with Some p => Some (snd p) | None => None end.
  Definition flat (q : N * N * (N * N)) : N * N * N * N := let '(a, b, (c, d)) := q in (a, b, c, d).
  Record state_ok (s : ignored) (acc : list call) : Prop := {
    st_cells : ig_cells s = map flat (rev (map snd acc));
    st_entries : forall k, match entry k s with
                 | None => of_kind k acc = []
                 | Some t => attr_ok t /\ read_all range_of (words t) = Some (of_kind k acc)
                 end }.
  Lemma eqb_kind a b : ignore_eqb a b = String.eqb (schema_name a) (schema_name b). Proof. destruct a, b; reflexivity. Qed.
  Lemma eqb_true a b : ignore_eqb a b = true -> a = b. Proof. destruct a, b; try reflexivity; discriminate. Qed.
  Lemma entry_add k range l j : match find (fun p => ignore_eqb j (fst p)) (ig_add k range l) with Some p => Some (snd p) | None => None end =
    if ignore_eqb j k then Some (match find (fun p => ignore_eqb k (fst p)) l with Some p => snd p ++ lit " " ++ range | None => range end)
    else match find (fun p => ignore_eqb j (fst p)) l with Some p => Some (snd p) | None => None end.
  Proof.
    induction l as [|[k' t] l IH]; [cbn [ig_add find fst]; destruct (ignore_eqb j k); reflexivity|]. cbn [ig_add find fst].
    destruct (ignore_eqb k k') eqn:E.
    - cbn [find fst]. apply eqb_true in E. subst k'. destruct (ignore_eqb j k); reflexivity.
    - cbn [find fst]. destruct (ignore_eqb j k') eqn:F; [|exact IH]. apply eqb_true in F. subst k'.
      destruct (ignore_eqb j k) eqn:G; [apply eqb_true in G; subst k; destruct j; discriminate E|reflexivity].
  Qed.
  Lemma read_all_app {A B} (f : A -> option B) a b x y : read_all f a = Some x -> read_all f b = Some y -> read_all f (a ++ b) = Some (x ++ y).
  Proof.
    revert x. induction a as [|c a IH]; intros x Ha Hb; [cbn in Ha; assert (x = []) by congruence; subst; exact Hb|]. cbn [read_all app] in *. destruct (f c) as [v|]; [|discriminate]. cbn [bind] in *.
    destruct (read_all f a) as [u|]; [|discriminate]. cbn [bind] in *. assert (x = v :: u) by congruence. subst x. rewrite (IH u eq_refl Hb). reflexivity.
  Qed.
  Lemma seen_cells s acc q : state_ok s acc -> existsb (quad_eqb (flat q)) (ig_cells s) = existsb (range_eqb q) (rev (map snd acc)).
  Proof.
    intros []. rewrite st_cells0. generalize (rev (map snd acc)). intros l. induction l as [|p l IH]; [reflexivity|]. cbn [map existsb]. rewrite IH. f_equal.
    destruct q as [[a b] [c d]], p as [[a' b'] [c' d']]. reflexivity.
  Qed.
  Lemma step_ignored s acc k q : state_ok s acc -> exists t e, (let '(fr, fc, (lr, lc)) := q in ignore_error_range m s fr fc lr lc k) = Some (t, e) /\
    e = negb (proper q && negb (existsb (range_eqb q) (rev (map snd acc)))) /\ state_ok t (if e then acc else acc ++ [(k, q)]).
  Proof.
    intros S. destruct q as [[fr fc] [lr lc]]. unfold ignore_error_range, proper. change check_dimensions_only with on_grid.
    destruct (on_grid fr fc) eqn:A, (on_grid lr lc) eqn:B; cbn [negb orb andb]; try (exists s, true; repeat split; apply S).
    destruct (N.ltb_spec lr fr); cbn [orb].
    { exists s, true. destruct (N.leb_spec fr lr); [lia|]. repeat split; apply S. }
    destruct (N.ltb_spec lc fc); cbn [orb].
    { exists s, true. destruct (N.leb_spec fc lc); [lia|]. rewrite andb_false_r. repeat split; apply S. }
    destruct (N.leb_spec fr lr); [|lia]. destruct (N.leb_spec fc lc); [|lia]. cbn [andb].
    apply on_grid_lt in A as [A1 A2]. apply on_grid_lt in B as [B1 B2]. destruct (range_text m fr fc lr lc A1 A2 B1 B2) as (t & Et & At & _ & Rt). rewrite Et. cbn [obind].
    change (fr, fc, lr, lc) with (flat (fr, fc, (lr, lc))). rewrite (seen_cells s acc (fr, fc, (lr, lc)) S). destruct (existsb (range_eqb (fr, fc, (lr, lc))) (rev (map snd acc))) eqn:X.
    { exists s, true. repeat split; apply S. }
    eexists _, false. split; [reflexivity|]. split; [reflexivity|]. pose proof (range_no_blank fr fc lr lc t A1 A2 B1 B2 Et) as Nb. constructor; cbn [ig_cells].
    - rewrite map_app, rev_app_distr. cbn [map rev app]. rewrite (st_cells s acc S). reflexivity.
    - intros j. unfold entry. cbn [ig_ranges]. rewrite entry_add. pose proof (st_entries s acc S j) as HE. unfold entry in HE.
      assert (Ok : of_kind j (acc ++ [(k, (fr, fc, (lr, lc)))]) = of_kind j acc ++ (if ignore_eqb j k then [(fr, fc, (lr, lc))] else [])).
      { unfold of_kind. rewrite filter_app, map_app. f_equal. cbn [filter fst]. rewrite eqb_kind, String.eqb_sym. destruct (String.eqb (schema_name j) (schema_name k)); reflexivity. }
      rewrite Ok. destruct (ignore_eqb j k) eqn:J.
      + apply eqb_true in J. subst j. destruct (find (fun p => ignore_eqb k (fst p)) (ig_ranges s)) as [p|].
        * destruct HE as [HE1 HE2]. split.
          { unfold attr_ok in *. rewrite !forallb_app. rewrite HE1, At. reflexivity. }
          rewrite words_app by exact Nb. apply read_all_app; [exact HE2|]. cbn [read_all]. rewrite Rt. reflexivity.
        * rewrite HE. split; [exact At|]. unfold words. rewrite words_plain by exact Nb. cbn [app read_all]. rewrite Rt. reflexivity.
      + destruct (find (fun p => ignore_eqb j (fst p)) (ig_ranges s)) as [p|]; rewrite app_nil_r; exact HE.
  Qed.
  Lemma run_ignored calls : forall s acc, state_ok s acc -> exists t, ignore_run s calls = Some t /\ state_ok t (acc ++ accepted (rev (map snd acc)) calls).
  Proof.
    induction calls as [|[k q] r IH]; intros s acc S; [exists s; split; [reflexivity|cbn; rewrite app_nil_r; exact S]|].
    destruct (step_ignored s acc k q S) as (t & e & E & He & St). cbn [ignore_run accepted]. destruct q as [[fr fc] [lr lc]]. rewrite E. cbn [obind fst].
    destruct (proper (fr, fc, (lr, lc)) && negb (existsb (range_eqb (fr, fc, (lr, lc))) (rev (map snd acc)))); cbn [negb] in He; subst e.
    - destruct (IH t _ St) as (u & Eu & Su). exists u. split; [exact Eu|]. rewrite map_app, rev_app_distr in Su. cbn [map rev app snd] in Su. rewrite <- app_assoc in Su. exact Su.
    - apply IH. exact St.
  Qed.

  (** The entries written for the kinds. *)
  Lemma ignored_entries s acc : state_ok s acc -> ignored_ok (ignored_out s).
  Proof.
    intros S. unfold ignored_ok, ignored_out. apply Forall_forall. intros p Hp. apply in_flat_map in Hp as (k & _ & Hp). unfold ig_get in Hp.
    pose proof (st_entries s acc S k) as H. unfold entry in H. destruct (find _ (ig_ranges s)) as [x|]; [|destruct Hp]. destruct Hp as [<-|[]]. cbn [fst snd]. split; [exists k; reflexivity|apply H].
  Qed.
  Lemma out_nodes s : flat_map kids_of (map node_of (ignored_xml (ignored_out s))) =
    flat_map (fun k => map (fun t => Elem (lit "ignoredError") [(lit "sqref", t); (lit (ignore_name k), lit "1")] []) (match entry k s with Some t => [t] | None => [] end)) ignore_kinds.
  Proof.
    unfold ignored_xml, wrap. assert (G : forall l : list (string * str), flat_map kids_of (map node_of match map (fun p => WEmpty (lit "ignoredError") [(lit "sqref", snd p); (lit (fst p), lit "1")]) l with [] => [] | _ => [WElem (lit "ignoredErrors") [] (map (fun p => WEmpty (lit "ignoredError") [(lit "sqref", snd p); (lit (fst p), lit "1")]) l)] end) =
      map (fun p => Elem (lit "ignoredError") [(lit "sqref", snd p); (lit (fst p), lit "1")] []) l).
    { intros [|p l]; [reflexivity|]. cbn [map flat_map node_of kids_of app]. rewrite app_nil_r. f_equal. rewrite map_map. reflexivity. }
    rewrite G. unfold ignored_out. induction ignore_kinds as [|k ks IH]; [reflexivity|]. cbn [flat_map]. rewrite map_app, IH. f_equal. unfold ig_get, entry. destruct (find _ (ig_ranges s)); reflexivity.
  Qed.
  Lemma read_kind s acc k : state_ok s acc -> k <> TwoDigitTextYear ->
    bind (read_all ranges_of (filter (fun n => is_elem "ignoredError" n && flag_of (schema_name k) (attrs_of n)) (flat_map kids_of (map node_of (ignored_xml (ignored_out s)))))) (fun l => Some (concat l)) = Some (of_kind k acc).
  Proof.
    intros S Nk. rewrite out_nodes. pose proof (st_entries s acc S k) as Hk.
    assert (F : forall j, filter (fun n => is_elem "ignoredError" n && flag_of (schema_name k) (attrs_of n)) (map (fun t => Elem (lit "ignoredError") [(lit "sqref", t); (lit (ignore_name j), lit "1")] []) (match entry j s with Some t => [t] | None => [] end)) =
      if ignore_eqb j k then map (fun t => Elem (lit "ignoredError") [(lit "sqref", t); (lit (ignore_name j), lit "1")] []) (match entry j s with Some t => [t] | None => [] end) else []).
    { intros j. destruct (entry j s) as [t|]; [|destruct (ignore_eqb j k); reflexivity]. cbn [map filter attrs_of]. unfold flag_of. rewrite !attr_cons, attr_nil.
      destruct k; try congruence; destruct j; reflexivity. }
    assert (G : filter (fun n => is_elem "ignoredError" n && flag_of (schema_name k) (attrs_of n)) (flat_map (fun j => map (fun t => Elem (lit "ignoredError") [(lit "sqref", t); (lit (ignore_name j), lit "1")] []) (match entry j s with Some t => [t] | None => [] end)) ignore_kinds) =
      map (fun t => Elem (lit "ignoredError") [(lit "sqref", t); (lit (ignore_name k), lit "1")] []) (match entry k s with Some t => [t] | None => [] end)).
    { unfold ignore_kinds. cbn [flat_map]. rewrite !filter_app, !F. destruct k; cbn -[map lit entry]; rewrite ?app_nil_r; try reflexivity. }
    rewrite G. destruct (entry k s) as [t|].
    - destruct Hk as [_ Hk]. cbn [map read_all]. unfold ranges_of. cbn [attrs_of]. rewrite attr_cons. cbn [String.eqb Ascii.eqb Bool.eqb bind]. rewrite Hk. cbn [bind concat]. rewrite app_nil_r. reflexivity.
    - rewrite Hk. reflexivity.
  Qed.

  (** C62: no call panics, and the ranges the part gives for a kind of error are
      those of the accepted calls, in their order; but for two-digit years. *)
  Theorem C62_ignored_errors_partial calls : exists s, ignore_run ignored_new calls = Some s /\
    forall i, n_ignored i = ignored_out s -> sections_ok i -> both_extensions i = false ->
      exists text root, worksheet_text num_text m i = Some text /\ read_document text = Some root /\
        forall k, k <> TwoDigitTextYear -> ignored_ranges k root = Some (of_kind k (accepted [] calls)).
  Proof.
    assert (S0 : state_ok ignored_new []) by (constructor; [reflexivity|intros; reflexivity]).
    destruct (run_ignored calls ignored_new [] S0) as (s & E & S). cbn [map rev app] in S. exists s. split; [exact E|]. intros i Hi Ok B.
    destruct (worksheet_section num_text m plain_numbers i Ok B) as (text & root & Et & R & _ & _ & _ & _ & _ & _ & _ & _ & K & _). exists text, root. split; [exact Et|]. split; [exact R|].
    intros k Nk. unfold ignored_ranges. cbv zeta. rewrite K, Hi. apply (read_kind s _ k S Nk).
  Qed.
  (** The assumption on the other sections includes the entries: they are always
      well formed. *)
  Theorem C62_entries_well_formed calls s : ignore_run ignored_new calls = Some s -> ignored_ok (ignored_out s).
  Proof.
    intros E. assert (S0 : state_ok ignored_new []) by (constructor; [reflexivity|intros; reflexivity]).
    destruct (run_ignored calls ignored_new [] S0) as (t & Et & S). assert (t = s) by congruence. subst t. exact (ignored_entries s _ S).
  Qed.
  (** Two-digit years are never ignored: the attribute is written with a capital
      letter, which is not the name the schema gives. *)
  Theorem C62_two_digit_years_refuted calls s : ignore_run ignored_new calls = Some s ->
    forall i, n_ignored i = ignored_out s -> sections_ok i -> both_extensions i = false ->
      exists text root, worksheet_text num_text m i = Some text /\ read_document text = Some root /\ ignored_ranges TwoDigitTextYear root = Some [].
  Proof.
    intros E i Hi Ok B. destruct (worksheet_section num_text m plain_numbers i Ok B) as (text & root & Et & R & _ & _ & _ & _ & _ & _ & _ & _ & K & _). exists text, root. split; [exact Et|]. split; [exact R|].
    unfold ignored_ranges. cbv zeta. rewrite K, Hi, out_nodes.
    assert (F : forall l, filter (fun n => is_elem "ignoredError" n && flag_of (schema_name TwoDigitTextYear) (attrs_of n)) (flat_map (fun j => map (fun t => Elem (lit "ignoredError") [(lit "sqref", t); (lit (ignore_name j), lit "1")] []) (match entry j s with Some t => [t] | None => [] end)) l) = []).
    { induction l as [|j l IH]; [reflexivity|]. cbn [flat_map]. rewrite filter_app, IH, app_nil_r. destruct (entry j s); [|reflexivity]. cbn [map filter attrs_of]. unfold flag_of. rewrite !attr_cons, attr_nil. destruct j; reflexivity. }
    rewrite F. reflexivity.
  Qed.
  (** Each call's error: exactly when the range is not proper or was given before. *)
  Theorem C62_refused_calls calls s k q : ignore_run ignored_new calls = Some s ->
    exists t, (let '(fr, fc, (lr, lc)) := q in ignore_error_range m s fr fc lr lc k) = Some (t, negb (proper q && negb (existsb (range_eqb q) (map snd (accepted [] calls))))).
  Proof.
    intros E. assert (S0 : state_ok ignored_new []) by (constructor; [reflexivity|intros; reflexivity]).
    destruct (run_ignored calls ignored_new [] S0) as (s' & Es & S). assert (s' = s) by congruence. subst s'. cbn [map rev app] in S.
    destruct (step_ignored s _ k q S) as (t & e & Et & He & _). exists t. rewrite Et, He. do 3 f_equal. f_equal. f_equal.
    generalize (map snd (accepted [] calls)). intros l. induction l as [|x l IH]; [reflexivity|]. cbn [rev existsb]. rewrite existsb_app, IH. cbn [existsb]. rewrite orb_false_r. apply orb_comm.
  Qed.
End Ignored.
Example C62_calls : let calls := [(FormulaError, (0, 0, (4, 1))); (NumberStoredAsText, (7, 7, (7, 7))); (FormulaError, (9, 2, (9, 2))); (FormulaDiffers, (0, 0, (4, 1))); (FormulaError, (5, 5, (4, 5)))] in
  of_kind FormulaError (accepted [] calls) = [(0, 0, (4, 1)); (9, 2, (9, 2))] /\ of_kind NumberStoredAsText (accepted [] calls) = [(7, 7, (7, 7))] /\ of_kind FormulaDiffers (accepted [] calls) = [].
Proof. repeat split. Qed.
Print Assumptions C62_ignored_errors_partial.
