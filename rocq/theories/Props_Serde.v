(** C83-C86: serializing structs to a worksheet. *)
From Verif Require Import Base SMap F64 Fmt_Model Sst_Model Cells_Model Cells_Spec Sheet_Model Geom_Model Props_Cells Serde_Model Serde_Spec Serde_Proofs Serde_Proofs2.

Section Lower.
(** [str::to_lowercase] is arbitrary. *)
Variable lower : str -> str.

(** ** C83 *)

(** Any history of header calls, serialized records, other calls on the worksheet
    and saves, when all of them succeed, leaves the worksheet exactly as the calls
    a user would make by hand would. *)
Theorem C83_serializing_is_writing_by_hand_partial sh calls es s' :
  all_events calls = Some es -> succeeds lower (ser_new sh) calls = Some s' ->
  perform lower sh (all_by_hand [] es) = Some (se_sheet s', None).
Proof. intros E H. exact (proj1 (history_is lower calls es [] (ser_new sh) s' E (tracks_new sh) H)). Qed.

(** After such a history, serializing records never panics; it makes the calls
    of each record in order and stops at the first that fails, with its error. *)
Theorem C83_stops_at_the_first_error_partial sh calls es s' v rs :
  all_events calls = Some es -> succeeds lower (ser_new sh) calls = Some s' -> records v = Some rs ->
  exists s1 e, call_step lower (Serialize v) s' = Some (s1, option_map SdSheet e) /\
    perform lower (se_sheet s') (all_by_hand (rev es) (map record_event rs)) = Some (se_sheet s1, e).
Proof.
  intros E H R. destruct (history_is lower calls es [] (ser_new sh) s' E (tracks_new sh) H) as [_ T]. rewrite app_nil_r in T.
  destruct (made_value lower v rs R (rev es) s' T) as (s1 & y & A & B & _). exists s1, y. split; [exact A|exact B].
Qed.

(** The records of the struct [n], out of a list of records. *)
Definition records_named (n : str) (rs : list (str * list (str * entry))) : list (list (str * entry)) :=
  map snd (filter (fun r => str_eqb (fst r) n) rs).
Lemma named_is n rs : flat_map (of_struct n) (map record_event rs) = records_named n rs.
Proof.
  unfold records_named. induction rs as [|[m fs] rs IH]; [reflexivity|]. cbn [map flat_map record_event of_struct fst snd filter].
  destruct (str_eqb m n); cbn [map app snd]; rewrite IH; reflexivity.
Qed.
Lemma are_records rs : Forall is_record (map record_event rs).
Proof. induction rs; constructor; [exact I|assumption]. Qed.

(** Headers followed by serialized values, on a new worksheet, in the saved file:
    the k-th record of the struct is in the k-th row below the headers (or from
    the row given, when headers are hidden), each field in the column of its
    header, with its value; each header has its text; the headers are in
    consecutive columns, and nothing else is in the sheet. *)
Theorem C83_records_in_file_partial hc h vs rs s' t g :
  all_events (hc :: map Serialize vs) = Some (EvHeading h :: map record_event rs) ->
  succeeds lower (ser_new (sheet_new ws_standard)) (hc :: map Serialize vs) = Some s' ->
  let file := shown (sheet_rows (cells (se_sheet s')) t g) in
  (forall k fs f x i c v, nth_error (records_named (h_name h) rs) k = Some fs -> NoDup (map fst fs) -> In (f, x) fs ->
     place f 0 (h_columns h) = Some (i, c) -> entry_value x = Some v ->
     exists style, file (first_record h + N.of_nat k) (h_col h + i) = [(v, style)]) /\
  (forall i c, h_shown h = true -> nth_error (h_columns h) i = Some c -> co_header c <> [] ->
     exists style, file (h_row h) (h_col h + N.of_nat i) = [(VText (co_header c), style)]) /\
  (forall r c, ~ (h_row h <= r < first_record h + N.of_nat (length (records_named (h_name h) rs)) /\
                  h_col h <= c < h_col h + N.of_nat (length (h_columns h))) -> file r c = []).
Proof.
  intros E H. pose proof (C83_serializing_is_writing_by_hand_partial _ _ _ _ E H) as P. intros file. unfold file.
  rewrite <- named_is. split; [|split].
  - intros k fs f x i c v. apply (record_shown lower h _ _ (are_records rs) P).
  - intros i c. apply (header_shown lower h _ _ (are_records rs) P).
  - intros r c. apply (outside_empty lower h _ _ (are_records rs) P).
Qed.

(** ** C84 *)

(** The dimensions reported for a struct: from its header row and column to the
    row of its last record and the column of its last header. *)
Theorem C84_dimensions_partial sh calls es s' n :
  all_events calls = Some es -> succeeds lower (ser_new sh) calls = Some s' ->
  get_dimensions n s' =
  match area_of n (rev es) with
  | None => Some None
  | Some (h, k) => if first_record h + k =? 0 then None
                   else Some (Some (h_row h, h_col h, first_record h + k - 1, last_column h))
  end.
Proof.
  intros E H. destruct (history_is lower calls es [] (ser_new sh) s' E (tracks_new sh) H) as [_ T]. rewrite app_nil_r in T. specialize (T n).
  unfold get_dimensions. destruct (area_of n (rev es)) as [[h k]|]; [|rewrite T; reflexivity].
  destruct T as (a & -> & A1 & A2 & A3 & A4 & _). rewrite A1, A2, A3, A4. reflexivity.
Qed.
(** Those of one field: the rows of the struct, the column of the field. *)
Theorem C84_column_dimensions_partial sh calls es s' n f :
  all_events calls = Some es -> succeeds lower (ser_new sh) calls = Some s' ->
  get_column_dimensions n f s' =
  match area_of n (rev es) with
  | None => Some None
  | Some (h, k) =>
    match place f 0 (h_columns h) with
    | None => Some None
    | Some (i, _) => if first_record h + k =? 0 then None
                     else Some (Some (h_row h, h_col h + i, first_record h + k - 1, h_col h + i))
    end
  end.
Proof.
  intros E H. destruct (history_is lower calls es [] (ser_new sh) s' E (tracks_new sh) H) as [_ T]. rewrite app_nil_r in T. specialize (T n).
  unfold get_column_dimensions. destruct (area_of n (rev es)) as [[h k]|]; [|rewrite T; reflexivity].
  destruct T as (a & -> & A1 & A2 & A3 & A4 & _ & A6). specialize (A6 f). destruct (hm_get f (a_fields a)) as [x|], (place f 0 (h_columns h)) as [[i c]|]; try discriminate; [|reflexivity].
  assert (F : fl_col x = h_col h + i) by (unfold found, placed in A6; cbn [option_map fst snd] in A6; congruence).
  rewrite A1, A3, F. reflexivity.
Qed.
(** With visible headers the dimensions always exist, and the last row is not
    before the header row. *)
Theorem C84_shown_headers_have_dimensions sh calls es s' n h k :
  all_events calls = Some es -> succeeds lower (ser_new sh) calls = Some s' -> area_of n (rev es) = Some (h, k) -> h_shown h = true ->
  get_dimensions n s' = Some (Some (h_row h, h_col h, h_row h + k, last_column h)).
Proof.
  intros E H A S. rewrite (C84_dimensions_partial sh calls es s' n E H), A. unfold first_record. rewrite S.
  replace (h_row h + 1 + k =? 0) with false by (symmetry; apply N.eqb_neq; lia). replace (h_row h + 1 + k - 1) with (h_row h + k) by lia. reflexivity.
Qed.

(** ** C85 *)
Definition outside (row col : N) : Prop := Ref_Model.ROW_MAX <= row \/ Ref_Model.COL_MAX <= col.
Lemma outside_is row col : outside row col -> check_dimensions_only row col = false.
Proof.
  intros [H|H]; unfold check_dimensions_only; apply andb_false_iff; [left|right]; apply N.ltb_ge; exact H.
Qed.
Definition header_call (c : call) (row col : N) : Prop :=
  (exists v f, c = Headers row col v f) \/ (exists v o, c = HeadersWith row col v o) \/ (exists n l f, c = HeadersFor row col n l f) \/
  (exists n l o, c = HeadersForWith row col n l o) \/ (exists o, c = HeadersSet row col o).
Lemma custom_outside row col o s : outside row col -> store_custom_headers lower row col o s = Some (s, Some (SdSheet (SE RowColumnLimit))).
Proof. intros H. unfold store_custom_headers. rewrite (outside_is _ _ H). reflexivity. Qed.
(** Headers whose first cell is outside the worksheet are rejected, and nothing
    changes. *)
Theorem C85_headers_outside_the_sheet_partial c row col s : header_call c row col -> outside row col ->
  exists e, call_step lower c s = Some (s, Some e).
Proof.
  intros H O. destruct H as [(v & f & ->)|[(v & o & ->)|[(n & l & f & ->)|[(n & l & o & ->)|(o & ->)]]]]; cbn [call_step]; unfold store_headers, store_headers_with;
    repeat match goal with |- context [if ?b then _ else _] => destruct b end; rewrite ?custom_outside by exact O; eauto.
Qed.
Lemma custom_parameter row col o s s' : store_custom_headers lower row col o s = Some (s', Some SdParameter) -> s' = s.
Proof.
  unfold store_custom_headers. destruct (negb _); [intros [=]|]. destruct (o_struct o); [intros [= ->]; reflexivity|]. destruct (o_headers o); [intros [= ->]; reflexivity|].
  destruct (store_columns _ _ _ _ _ _ _ _) as [[[[w [e|]] fs] mc]|]; [intros [=]| |intros [=]].
  set (x := match hm_get _ _ with Some a => _ | None => _ end). assert (P : forall s1 e, x = Some (s1, Some e) -> e <> SdParameter).
  { intros s1 e. unfold x. destruct (hm_get _ _) as [a|]; [|discriminate]. destruct (a_table a); [|discriminate]. unfold write_area_table. destruct (_ =? _); [discriminate|].
    unfold on_sheet. destruct (add_table _ _ _ _ _ _ _) as [[y [z|]]|]; cbn [option_map]; intros [=]; subst; discriminate. }
  destruct x as [[s1 [e|]]|]; cbn [and_then done]; intros [= <- E]. subst. destruct (P _ _ eq_refl eq_refl).
Qed.
(** So are headers for a struct without a name or fields, and options for a field
    the struct does not have: a parameter error never changes anything. *)
Theorem C85_parameter_errors_change_nothing c s s' : call_step lower c s = Some (s', Some SdParameter) ->
  (exists row col, header_call c row col) -> s' = s.
Proof.
  intros H (row & col & [(v & f & ->)|[(v & o & ->)|[(n & l & f & ->)|[(n & l & o & ->)|(o & ->)]]]]); cbn [call_step] in H; unfold store_headers, store_headers_with in H;
    repeat match type of H with context [if negb ?b then _ else _] => destruct b; cbn [negb] in H end;
    try (injection H; congruence); apply custom_parameter in H; exact H.
Qed.
Theorem C85_unknown_field_rejected row col n fields o s f : In f (map fst (customs o)) -> ~ In f fields ->
  call_step lower (HeadersForWith row col n fields o) s = Some (s, Some SdParameter).
Proof.
  intros H1 H2. cbn [call_step]. unfold store_headers_with. destruct (forallb _ _) eqn:E; [|reflexivity]. exfalso. rewrite forallb_forall in E.
  apply in_map_iff in H1 as (x & <- & Hx). assert (Hi : In (field_of x) (o_headers (options_of o))) by (rewrite options_headers; apply in_map; exact Hx).
  specialize (E _ Hi). apply existsb_exists in E as (y & Hy & E). rewrite field_of_name in E. cbn [snd] in Hy. revert E. destruct (str_eqb_spec (fst x) y) as [Exy|]; [|discriminate]. intros _. rewrite Exy in H2. exact (H2 Hy).
Qed.
Theorem C85_nameless_or_empty_struct_rejected row col n fields f s : row < Ref_Model.ROW_MAX -> col < Ref_Model.COL_MAX -> n = [] \/ fields = [] ->
  call_step lower (HeadersFor row col n fields f) s = Some (s, Some SdParameter).
Proof.
  intros Hr Hc H. cbn [call_step]. unfold store_headers, store_custom_headers. cbn [o_struct o_headers fst snd].
  replace (check_dimensions_only row col) with true. 2: { symmetry. unfold check_dimensions_only. apply andb_true_iff. split; apply N.ltb_lt; assumption. }
  cbn [negb]. destruct H as [->| ->]; [reflexivity|]. destruct n; reflexivity.
Qed.

(** ** C86 *)

(** The range of the table due for a struct. *)
Definition table_range (past : list event) (n : str) : list (rng * (bool * bool * bool)) :=
  match area_of n past, table_due n past with
  | Some (h, k), Some t =>
    [({| r0 := h_row h; c0 := h_col h; r1 := first_record h + k - 1 + (if t_total t then 1 else 0); c1 := last_column h |},
      (t_header t, t_total t, t_autofilter t))]
  | _, _ => []
  end.
Definition table_facts (t : tbl) : rng * (bool * bool * bool) := (t_range t, (t_header t, t_total t, t_autofilter t)).
Lemma table_made s fr fc lr lc t s' : add_table lower s fr fc lr lc t = Some (s', None) ->
  map table_facts (tables s') = map table_facts (tables s) ++ [({| r0 := fr; c0 := fc; r1 := lr; c1 := lc |}, (t_header t, t_total t, t_autofilter t))].
Proof.
  unfold add_table. destruct (_ || _); [intros [=]|]. destruct (_ || _); [intros [=]|]. destruct (_ && _); [intros [=]|]. cbv zeta.
  destruct (name_columns _ _ _ _) as [cols|]; [|intros [=]]. destruct (_ && _); [intros [=]|]. destruct (table_columns _ _ _ _ _ _) as [w [e|]]; [intros [=]|].
  cbn [tables with_cells tclaims filter_cells t_autofilter t_total t_header]. destruct (claim_cells _ _ _ _) as [|l|l]; [intros [=]|intros [=]|].
  destruct (if t_autofilter t then _ else _) as [fl [|]]; [|intros [=]]. intros H. assert (E : s' = with_tables (with_cells s w)
     {| ranges := ranges (tclaims s) ++ [{| r0 := fr; c0 := fc; r1 := lr; c1 := lc |}]; owner := l |}
     (tables s ++ [{| t_columns := cols; t_name := t_name t; t_header := t_header t; t_total := t_total t; t_autofilter := t_autofilter t; t_serde := t_serde t; t_range := {| r0 := fr; c0 := fc; r1 := lr; c1 := lc |} |}]) fl)
    by (cbn [t_header t_total t_autofilter] in H; congruence).
  subst s'. cbn [with_tables tables]. rewrite map_app. reflexivity.
Qed.
(** Saving adds the tables asked for, in the order in which the structs are
    visited: each covers its headers and records, and its total row if it has
    one. *)
Theorem C86_tables_at_save_partial sh calls es s order s' :
  all_events calls = Some es -> succeeds lower (ser_new sh) calls = Some s -> call_step lower (Save order) s = Some (s', None) ->
  map table_facts (tables (se_sheet s')) = map table_facts (tables (se_sheet s)) ++ flat_map (table_range (rev es)) order.
Proof.
  intros E H Sv. destruct (history_is lower calls es [] (ser_new sh) s E (tracks_new sh) H) as [_ T]. rewrite app_nil_r in T.
  destruct (call_is lower (Save order) [EvSave order] (rev es) s s' eq_refl T Sv) as [P _]. cbn [all_by_hand by_hand] in P. rewrite app_nil_r in P.
  clear - P. revert P. generalize (se_sheet s) as a. induction order as [|n order IH]; intros a; cbn [flat_map].
  - cbn [perform]. intros P. injection P as ->. rewrite app_nil_r. reflexivity.
  - rewrite perform_app. destruct (perform lower a (table_ops (rev es) n)) as [[b [e|]]|] eqn:Eb; try discriminate. intros P. rewrite (IH b P), app_assoc. f_equal.
    unfold table_ops, table_range in *. destruct (area_of n (rev es)) as [[h k]|]; [|injection Eb as <-; rewrite app_nil_r; reflexivity].
    destruct (table_due n (rev es)) as [t|]; [|injection Eb as <-; rewrite app_nil_r; reflexivity]. cbn [perform sstep] in Eb.
    destruct (add_table _ _ _ _ _ _ _) as [[x [e|]]|] eqn:Ex; try discriminate. injection Eb as <-. exact (table_made _ _ _ _ _ _ _ Ex).
Qed.
(** A second save adds none. *)
Theorem C86_saving_again_adds_nothing s order s1 order2 :
  call_step lower (Save order) s = Some (s1, None) ->
  exists s2, call_step lower (Save order2) s1 = Some (s2, None) /\ se_sheet s2 = se_sheet s1.
Proof.
  cbn [call_step]. unfold store_tables. destruct (existsb _ _); [discriminate|]. intros H.
  assert (S : forall l x y, write_tables lower l x = Some (y, None) -> se_structs y = se_structs x).
  { induction l as [|[a t] l IH]; intros x y; cbn [write_tables]; [intros [= ->]; reflexivity|]. unfold write_area_table. destruct (_ =? _); [discriminate|].
    unfold on_sheet. destruct (add_table _ _ _ _ _ _ _) as [[z [e|]]|]; cbn [option_map and_then]; try discriminate. intros W. rewrite (IH _ _ W). reflexivity. }
  apply S in H. assert (P : pending_tables order2 s1 = []).
  { unfold pending_tables. rewrite H. cbn [take_tables with_structs se_structs]. induction order2 as [|n l IH]; [reflexivity|]. cbn [flat_map]. rewrite IH, app_nil_r, hm_get_map.
    destruct (hm_get n (se_structs s)); reflexivity. }
  rewrite P. cbn [existsb write_tables]. eexists. split; reflexivity.
Qed.
End Lower.

(** ** Examples and refutations *)
Section Examples.
Let lower : str -> str := map ascii_lower.
Let fresh := ser_new (sheet_new ws_standard).
Let cell (s : ser) (p : N * N) := map fst (shown (sheet_rows (cells (se_sheet s)) sst_new (fun i => i)) (fst p) (snd p)).
Let Produce : str := lit "Produce".
Let produce (fruit : str) (cost : Z) : Serde_Model.value := SVStruct Produce [(lit "fruit", SVStr fruit); (lit "cost", SVInt cost)].
Let plain_table : tbl := {| t_columns := []; t_name := []; t_header := true; t_total := false; t_autofilter := true; t_serde := false;
                            t_range := {| r0 := 0; c0 := 0; r1 := 0; c1 := 0 |} |}.

(** The headers of a struct, two records one by one and two in a sequence,
    between them a record of a struct without headers. *)
Example C83_meets :
  let calls := [Headers 2 1 (produce [] 0%Z) format_default; Serialize (produce (lit "Peach") 5%Z);
                Serialize (SVStruct (lit "Other") [(lit "fruit", SVStr (lit "x"))]);
                Serialize (SVSeq [produce (lit "Plum") 7%Z; produce (lit "Pear") 9%Z])] in
  match succeeds lower fresh calls, all_events calls with
  | Some s, Some (EvHeading h :: _) =>
    map (cell s) [(2, 1); (2, 2); (3, 1); (3, 2); (4, 1); (4, 2); (5, 1); (5, 2); (6, 1)] =
      [[VText (lit "fruit")]; [VText (lit "cost")]; [VText (lit "Peach")]; [VNumber (f_of_N 5)]; [VText (lit "Plum")]; [VNumber (f_of_N 7)];
       [VText (lit "Pear")]; [VNumber (f_of_N 9)]; []] /\
    get_dimensions Produce s = Some (Some (2, 1, 5, 2)) /\ get_column_dimensions Produce (lit "cost") s = Some (Some (2, 2, 5, 2)) /\
    place (lit "cost") 0 (h_columns h) = Some (1, plain_column (lit "cost"))
  | _, _ => False
  end.
Proof. vm_compute. repeat split; reflexivity. Qed.
(** Custom options: a renamed column, a skipped one, a hidden header row. *)
Example C83_custom_meets :
  let o := [OCustom [(lit "cost", [FRename (lit "Price")]); (lit "fruit", [FSkip true])]] in
  match succeeds lower fresh [HeadersWith 0 0 (produce [] 0%Z) o; Serialize (produce (lit "Plum") 3%Z)],
        succeeds lower fresh [HeadersFor 0 0 Produce [lit "fruit"; lit "cost"] format_default;
                              HeadersForWith 4 3 Produce [lit "fruit"; lit "cost"] (OHideHeaders true :: o); Serialize (produce (lit "Plum") 3%Z)] with
  | Some s, Some s2 =>
    map (cell s) [(0, 0); (0, 1); (1, 0); (1, 1)] = [[VText (lit "Price")]; []; [VNumber (f_of_N 3)]; []] /\
    map (cell s2) [(0, 0); (0, 1); (1, 0); (4, 3); (5, 3)] = [[VText (lit "fruit")]; [VText (lit "cost")]; []; [VNumber (f_of_N 3)]; []] /\
    get_dimensions Produce s2 = Some (Some (4, 3, 4, 3))
  | _, _ => False
  end.
Proof. vm_compute. repeat split; reflexivity. Qed.
(** Running out of rows: the records before the end are written. *)
Example C83_stops_meets :
  match succeeds lower fresh [Headers 1048574 0 (produce [] 0%Z) format_default] with
  | Some s => match call_step lower (Serialize (SVSeq [produce (lit "Plum") 7%Z; produce (lit "Pear") 9%Z])) s with
              | Some (s1, e) => e = Some (SdSheet (SE RowColumnLimit)) /\ map (cell s1) [(1048575, 0); (1048575, 1)] = [[VText (lit "Plum")]; [VNumber (f_of_N 7)]]
              | None => False end
  | None => False
  end.
Proof. vm_compute. split; reflexivity. Qed.

(** REFUTED: a record with a struct as a field loses the fields after it: their
    values are looked up in the inner struct. *)
Theorem C83_refuted_fields_after_a_nested_struct_are_lost : exists v s,
  v = SVStruct Produce [(lit "fruit", SVStr (lit "Plum")); (lit "origin", SVStruct (lit "Place") [(lit "town", SVStr (lit "Ghent"))]); (lit "cost", SVInt 3%Z)] /\
  succeeds lower fresh [HeadersFor 0 0 Produce [lit "fruit"; lit "origin"; lit "cost"] format_default; Serialize v] = Some s /\
  map (cell s) [(1, 0); (1, 1); (1, 2)] = [[VText (lit "Plum")]; []; []].
Proof. do 2 eexists. split; [reflexivity|]. split; [vm_compute; reflexivity|]. vm_compute. reflexivity. Qed.
(** REFUTED: of a field that is a sequence or a tuple only the last element is
    kept (they are all written to one cell), and likewise for a map. *)
Theorem C83_refuted_a_sequence_field_keeps_its_last_element : exists s,
  succeeds lower fresh [HeadersFor 0 0 Produce [lit "fruit"; lit "cost"] format_default;
    Serialize (SVStruct Produce [(lit "fruit", SVSeq [SVInt 1%Z; SVInt 2%Z; SVInt 3%Z]); (lit "cost", SVMap [(SVStr (lit "k"), SVStr (lit "v"))])])] = Some s /\
  map (cell s) [(1, 0); (1, 1); (2, 0); (1, 2)] = [[VNumber (f_of_N 3)]; [VText (lit "v")]; []; []].
Proof. eexists. split; [vm_compute; reflexivity|]. vm_compute. reflexivity. Qed.
(** REFUTED: a value that is not a record, serialized by itself, overwrites the
    last cell written by the record before it. *)
Theorem C83_refuted_a_bare_value_overwrites_the_last_field : exists s,
  succeeds lower fresh [Headers 0 0 (produce [] 0%Z) format_default; Serialize (produce (lit "Plum") 3%Z); Serialize (SVInt 99%Z)] = Some s /\
  map (cell s) [(1, 0); (1, 1)] = [[VText (lit "Plum")]; [VNumber (f_of_N 99)]].
Proof. eexists. split; [vm_compute; reflexivity|]. vm_compute. reflexivity. Qed.
(** REFUTED: a record of a struct for which there are no headers is dropped
    without an error. *)
Theorem C83_refuted_records_without_headers_vanish : exists s,
  succeeds lower fresh [Serialize (produce (lit "Plum") 3%Z)] = Some s /\ data (cells (se_sheet s)) = [].
Proof. eexists. split; [vm_compute; reflexivity|]. reflexivity. Qed.
(** REFUTED: integers beyond 2^53 are changed. *)
Theorem C83_refuted_large_integers_change : exists a b s,
  a <> b /\ succeeds lower fresh [Headers 0 0 (produce [] 0%Z) format_default; Serialize (produce [] a); Serialize (produce [] b)] = Some s /\
  cell s (1, 1) = cell s (2, 1).
Proof. exists 9007199254740992%Z, 9007199254740993%Z. eexists. split; [discriminate|]. split; [vm_compute; reflexivity|]. vm_compute. reflexivity. Qed.

(** REFUTED: hidden headers at row 0 and no record yet: asking for the dimensions
    panics; elsewhere the last row is before the first. *)
Theorem C84_refuted_no_records_under_hidden_headers : exists s s1,
  succeeds lower fresh [HeadersForWith 0 0 Produce [lit "fruit"] [OHideHeaders true]] = Some s /\ get_dimensions Produce s = None /\
  succeeds lower fresh [HeadersForWith 5 0 Produce [lit "fruit"] [OHideHeaders true]] = Some s1 /\ get_dimensions Produce s1 = Some (Some (5, 0, 4, 0)).
Proof. do 2 eexists. split; [vm_compute; reflexivity|]. split; [reflexivity|]. split; [vm_compute; reflexivity|]. reflexivity. Qed.

(** A parameter error for each reason. *)
Example C85_meets :
  let o := [OCustom [(lit "weight", [])]] in
  call_step lower (HeadersForWith 0 0 Produce [lit "fruit"] o) fresh = Some (fresh, Some SdParameter) /\
  call_step lower (HeadersFor 0 0 Produce [] format_default) fresh = Some (fresh, Some SdParameter) /\
  call_step lower (HeadersSet 0 0 [OCustom [(lit "a", [])]]) fresh = Some (fresh, Some SdParameter) /\
  call_step lower (HeadersFor 1048576 0 Produce [lit "fruit"] format_default) fresh = Some (fresh, Some (SdSheet (SE RowColumnLimit))).
Proof. vm_compute. repeat split; reflexivity. Qed.
(** REFUTED: headers that run out of columns are rejected, but the first of them
    have been written. *)
Theorem C85_refuted_rejected_headers_are_partly_written : exists s,
  call_step lower (HeadersFor 0 16383 Produce [lit "fruit"; lit "cost"] format_default) fresh = Some (s, Some (SdSheet (SE RowColumnLimit))) /\
  cell s (0, 16383) = [VText (lit "fruit")].
Proof. eexists. split; [vm_compute; reflexivity|]. vm_compute. reflexivity. Qed.

(** A table with a total row from serialized data. *)
Example C86_meets :
  let total := {| t_columns := []; t_name := []; t_header := true; t_total := true; t_autofilter := true; t_serde := false; t_range := {| r0 := 0; c0 := 0; r1 := 0; c1 := 0 |} |} in
  match succeeds lower fresh [HeadersWith 1 1 (produce [] 0%Z) [OTable total]; Serialize (produce (lit "Plum") 3%Z); Serialize (produce (lit "Pear") 4%Z);
                              HeadersFor 1 5 (lit "Other") [lit "x"] format_default; Save [lit "Other"; Produce]; Save [Produce; lit "Other"]] with
  | Some s => map table_facts (tables (se_sheet s)) = [({| r0 := 1; c0 := 1; r1 := 4; c1 := 2 |}, (true, true, true))] /\
              map (map tc_name) (map t_columns (tables (se_sheet s))) = [[lit "fruit"; lit "cost"]]
  | None => False
  end.
Proof. vm_compute. split; reflexivity. Qed.
(** REFUTED: a table over headers without a record makes the save fail, and the
    next save succeeds with the table silently gone. *)
Theorem C86_refuted_table_without_records_is_lost : exists s s1 s2,
  succeeds lower fresh [HeadersForWith 0 0 Produce [lit "fruit"] [OTable plain_table]] = Some s /\
  call_step lower (Save [Produce]) s = Some (s1, Some (SdSheet STableRows)) /\
  call_step lower (Save [Produce]) s1 = Some (s2, None) /\ tables (se_sheet s2) = [].
Proof. do 3 eexists. split; [vm_compute; reflexivity|]. split; [vm_compute; reflexivity|]. split; [vm_compute; reflexivity|]. reflexivity. Qed.
(** REFUTED: records serialized after a save are below the table, not in it. *)
Theorem C86_refuted_records_after_a_save_are_outside : exists s,
  succeeds lower fresh [HeadersForWith 0 0 Produce [lit "fruit"; lit "cost"] [OTable plain_table]; Serialize (produce (lit "Plum") 3%Z); Save [Produce];
                        Serialize (produce (lit "Pear") 4%Z); Save [Produce]] = Some s /\
  map t_range (tables (se_sheet s)) = [{| r0 := 0; c0 := 0; r1 := 1; c1 := 1 |}] /\ cell s (2, 0) = [VText (lit "Pear")].
Proof. eexists. split; [vm_compute; reflexivity|]. split; [reflexivity|]. vm_compute. reflexivity. Qed.
(** REFUTED: the order of the tables (and with it their ids and default names)
    is that of a HashMap: two runs of one program differ. *)
Theorem C86_refuted_order_of_tables : exists s s1 s2,
  succeeds lower fresh [HeadersForWith 0 0 Produce [lit "fruit"; lit "cost"] [OTable plain_table]; Serialize (produce (lit "Plum") 3%Z);
                        HeadersForWith 0 5 (lit "Other") [lit "x"] [OTable plain_table]; Serialize (SVStruct (lit "Other") [(lit "x", SVInt 1%Z)])] = Some s /\
  call_step lower (Save [Produce; lit "Other"]) s = Some (s1, None) /\ call_step lower (Save [lit "Other"; Produce]) s = Some (s2, None) /\
  map t_range (tables (se_sheet s1)) = [{| r0 := 0; c0 := 0; r1 := 1; c1 := 1 |}; {| r0 := 0; c0 := 5; r1 := 1; c1 := 5 |}] /\
  map t_range (tables (se_sheet s2)) = [{| r0 := 0; c0 := 5; r1 := 1; c1 := 5 |}; {| r0 := 0; c0 := 0; r1 := 1; c1 := 1 |}].
Proof. do 3 eexists. split; [vm_compute; reflexivity|]. split; [vm_compute; reflexivity|]. split; [vm_compute; reflexivity|]. split; reflexivity. Qed.
(** REFUTED: two columns with the same header are accepted and fail at save. *)
Theorem C86_refuted_equal_headers_fail_at_save : exists s s1,
  succeeds lower fresh [HeadersForWith 0 0 Produce [lit "fruit"; lit "cost"] [OTable plain_table; OCustom [(lit "cost", [FRename (lit "Fruit")])]];
                        Serialize (produce (lit "Plum") 3%Z)] = Some s /\
  call_step lower (Save [Produce]) s = Some (s1, Some (SdSheet STableColumnName)).
Proof. do 2 eexists. split; [vm_compute; reflexivity|]. vm_compute. reflexivity. Qed.
End Examples.

Print Assumptions C83_serializing_is_writing_by_hand_partial.
Print Assumptions C83_records_in_file_partial.
Print Assumptions C86_tables_at_save_partial.
Print Assumptions C86_refuted_order_of_tables.
