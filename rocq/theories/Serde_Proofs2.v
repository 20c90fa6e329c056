(** Serialized records and their headers as the saved file shows them. *)
From Verif Require Import Base SMap F64 Fmt_Model Sst_Model Cells_Model Cells_Spec Cells_Inv Cells_Proofs Cells_Proofs2 Cells_Save Cells_Hist Sheet_Model
  Geom_Model Props_Cells Serde_Model Serde_Spec Serde_Proofs.

(** ** Successful calls on cells *)
Lemma all_ok : forall ops w w', write_all w ops = (w', None) -> w' = run w ops /\
  forall pre o post, ops = pre ++ o :: post -> snd (step (run w pre) o) = None.
Proof.
  induction ops as [|o ops IH]; intros w w' H; cbn [write_all] in H.
  - injection H as <-. split; [reflexivity|]. intros [|? ?] ? ?; discriminate.
  - destruct (step w o) as [w1 [e|]] eqn:E; [discriminate|]. destruct (IH _ _ H) as [-> S]. rewrite run_cons, E. split; [reflexivity|].
    intros [|a pre] o' post Hs; cbn [app] in Hs; injection Hs as <- Hs; [cbn [run fold_left]; rewrite E; reflexivity|]. rewrite run_cons, E. exact (S pre o' post Hs).
Qed.
Lemma quiet_after : forall ops w r c, Forall (fun o => alters o r c = false) ops -> undisturbed w ops r c.
Proof. induction ops as [|o ops IH]; intros w r c F; [exact I|]. split; [left; exact (Forall_inv F)|]. apply IH. exact (Forall_inv_tail F). Qed.
Lemma quiet_all : forall ops w r c, Forall (fun o => touches o r c = false) ops -> untouched w ops r c.
Proof. induction ops as [|o ops IH]; intros w r c F; [exact I|]. split; [left; exact (Forall_inv F)|]. apply IH. exact (Forall_inv_tail F). Qed.

(** ** The calls of a heading followed by records *)
Definition cell_op (row col : N) (e : entry) (f : option Format) : list op :=
  match e with EBool b => [WriteBool row col b f] | ENumber x => [WriteNumber row col x f] | EText s => [WriteString row col s f] | ENothing => [] end.
Lemma cell_op_is row col e f : entry_ops row col e f = map SCell (cell_op row col e f). Proof. destruct e; reflexivity. Qed.
Definition field_cell (h : heading) (k : N) (x : str * entry) : list op :=
  match place (fst x) 0 (h_columns h) with
  | Some (i, c) => cell_op (first_record h + k) (h_col h + i) (snd x) (co_value_format c)
  | None => [] end.
Definition of_struct (n : str) (e : event) : list (list (str * entry)) :=
  match e with EvRecord m fs => if str_eqb m n then [fs] else [] | _ => [] end.
Fixpoint rows_of (h : heading) (k : N) (l : list (list (str * entry))) : list op :=
  match l with [] => [] | fs :: r => flat_map (field_cell h k) fs ++ rows_of h (k + 1) r end.
Definition is_record (e : event) : Prop := match e with EvRecord _ _ => True | _ => False end.

Lemma map_flat {A B C} (f : A -> list B) (g : B -> C) l : map g (flat_map f l) = flat_map (fun x => map g (f x)) l.
Proof. induction l as [|x l IH]; [reflexivity|]. cbn [flat_map]. rewrite map_app, IH. reflexivity. Qed.
Lemma area_records h : forall past, Forall is_record past -> exists k, area_of (h_name h) (past ++ [EvHeading h]) = Some (h, k).
Proof.
  induction past as [|e past IH]; intros F; cbn [app area_of]; [rewrite str_eqb_refl; eauto|]. destruct (IH (Forall_inv_tail F)) as [k E].
  destruct e; try destruct (Forall_inv F). cbn [area_of]. rewrite E. eauto.
Qed.
Lemma area_elsewhere h n : forall past, n <> h_name h -> Forall is_record past -> area_of n (past ++ [EvHeading h]) = None.
Proof.
  induction past as [|e past IH]; intros Hn F; cbn [app area_of]; [destruct (str_eqb_spec (h_name h) n); [congruence|reflexivity]|].
  destruct e; try destruct (Forall_inv F). cbn [area_of]. rewrite (IH Hn (Forall_inv_tail F)). reflexivity.
Qed.
Lemma rows_are h : forall es past k, Forall is_record past -> Forall is_record es -> area_of (h_name h) (past ++ [EvHeading h]) = Some (h, k) ->
  all_by_hand (past ++ [EvHeading h]) es = map SCell (rows_of h k (flat_map (of_struct (h_name h)) es)).
Proof.
  induction es as [|e es IH]; intros past k P F A; [reflexivity|]. pose proof (Forall_inv F) as Fe. pose proof (Forall_inv_tail F) as Fs. clear F.
  destruct e as [|n fs| |]; try destruct Fe. cbn [all_by_hand by_hand flat_map of_struct]. change (EvRecord n fs :: past ++ [EvHeading h]) with ((EvRecord n fs :: past) ++ [EvHeading h]).
  assert (P' : Forall is_record (EvRecord n fs :: past)) by (constructor; [exact I|exact P]).
  destruct (str_eqb_spec n (h_name h)) as [->|N1].
  - rewrite (IH _ (k + 1) P' Fs) by (cbn [app area_of]; rewrite A, str_eqb_refl; reflexivity). cbn [app rows_of]. rewrite map_app. f_equal.
    unfold record_ops. rewrite A, map_flat. apply flat_map_ext. intros x. unfold field_cell. destruct (place _ _ _) as [[i c]|]; [apply cell_op_is|reflexivity].
  - rewrite (IH _ k P' Fs). 2: { cbn [app area_of]. rewrite A. destruct (str_eqb_spec n (h_name h)); [congruence|reflexivity]. }
    unfold record_ops. rewrite (area_elsewhere h n past N1 P). reflexivity.
Qed.

Fixpoint head_ops (h : heading) (i : N) (l : list column) : list op :=
  match l with
  | [] => []
  | c :: r =>
    (match co_width c with
       | Some (WCharacters x) => [SetColumnWidth (h_col h + i) x false]
       | Some (WPixels n) => [SetColumnWidth (h_col h + i) (pixels_to_width n) false]
       | None => [] end ++
       match co_column_format c with Some f => [SetColumnFormat (h_col h + i) f] | None => [] end ++
       (if h_shown h
        then [WriteString (h_row h) (h_col h + i) (co_header c)
                (match co_header_format c with Some f => Some f | None => h_format h end)]
        else [])) ++ head_ops h (i + 1) r
  end.
Lemma head_is h : forall l i, heading_ops h i l = map SCell (head_ops h i l).
Proof. induction l as [|c l IH]; intros i; [reflexivity|]. cbn [heading_ops head_ops]. rewrite IH, <- (map_app SCell). reflexivity. Qed.

(** Where these calls write. *)
Definition at_row (lo hi : N) (o : op) : Prop := forall r c, touches o r c = true -> lo <= r < hi.
Definition at_cols (lo hi : N) (o : op) : Prop := forall r c, touches o r c = true -> lo <= c < hi.
Lemma here_true a b r c : here a b r c = true -> r = a /\ c = b.
Proof. unfold here. intros H. apply andb_prop in H as [H1 H2]. apply N.eqb_eq in H1, H2. auto. Qed.
Lemma cell_op_at row col e f o r c : In o (cell_op row col e f) -> touches o r c = true -> r = row /\ c = col.
Proof. destruct e; cbn [cell_op In]; intros []; subst; try contradiction; cbn [touches alters]; intros H; exact (here_true _ _ _ _ H). Qed.
Lemma place_bound name : forall l i j c, place name i l = Some (j, c) -> i <= j < i + N.of_nat (length l) /\ co_field c = name.
Proof.
  induction l as [|x l IH]; intros i j c; cbn [place]; [discriminate|]. destruct (place name (i + 1) l) as [[j' c']|] eqn:E.
  - intros [= <- <-]. apply IH in E as [E1 E2]. cbn [length]. split; [lia|exact E2].
  - destruct (str_eqb_spec (co_field x) name); [|discriminate]. intros [= <- <-]. cbn [length]. split; [lia|assumption].
Qed.
Lemma place_inj a b : forall l i j c d, place a i l = Some (j, c) -> place b i l = Some (j, d) -> a = b.
Proof.
  induction l as [|x l IH]; intros i j c d; cbn [place]; [discriminate|]. destruct (place a (i + 1) l) as [[j1 c1]|] eqn:E1, (place b (i + 1) l) as [[j2 c2]|] eqn:E2.
  - intros [= <- <-] [= <- <-]. eapply IH; eassumption.
  - intros [= <- <-]. destruct (str_eqb _ b); [|discriminate]. intros [= <- <-]. apply place_bound in E1. lia.
  - destruct (str_eqb _ a); [|discriminate]. intros [= <- <-] [= <- <-]. apply place_bound in E2. lia.
  - destruct (str_eqb_spec (co_field x) a); [|discriminate]. intros [= <- <-]. destruct (str_eqb_spec (co_field x) b); [|discriminate]. intros _. congruence.
Qed.
Lemma fields_at h k fs o r c : In o (flat_map (field_cell h k) fs) -> touches o r c = true ->
  r = first_record h + k /\ h_col h <= c < h_col h + N.of_nat (length (h_columns h)) /\ exists x i d, In x fs /\ place (fst x) 0 (h_columns h) = Some (i, d) /\ c = h_col h + i.
Proof.
  intros H T. apply in_flat_map in H as (x & Hx & H). unfold field_cell in H. destruct (place _ _ _) as [[i d]|] eqn:P; [|destruct H].
  apply (cell_op_at _ _ _ _ _ r c H) in T as [-> ->]. pose proof (place_bound _ _ _ _ _ P). split; [reflexivity|]. split; [lia|]. exists x, i, d. auto.
Qed.
Lemma rows_at h : forall l k o r c, In o (rows_of h k l) -> touches o r c = true ->
  first_record h + k <= r < first_record h + k + N.of_nat (length l) /\ h_col h <= c < h_col h + N.of_nat (length (h_columns h)).
Proof.
  induction l as [|fs l IH]; intros k o r c H T; [destruct H|]. cbn [rows_of] in H. apply in_app_or in H as [H|H].
  - destruct (fields_at _ _ _ _ _ _ H T) as (-> & C & _). cbn [length]. lia.
  - apply (IH _ _ r c) in H; [|exact T]. cbn [length]. lia.
Qed.
Lemma head_at h : forall l i o r c, In o (head_ops h i l) -> touches o r c = true -> h_shown h = true /\ r = h_row h /\ h_col h + i <= c < h_col h + i + N.of_nat (length l).
Proof.
  induction l as [|x l IH]; intros i o r c H T; [destruct H|]. cbn [head_ops] in H. apply in_app_or in H as [H|H].
  - apply in_app_or in H as [H|H]; [destruct (co_width x) as [[]|]; try destruct H as [<-|[]]; try destruct H; discriminate|].
    apply in_app_or in H as [H|H]; [destruct (co_column_format x); [destruct H as [<-|[]]; discriminate|destruct H]|].
    destruct (h_shown h); [|destruct H]. destruct H as [<-|[]]. cbn [touches alters] in T. apply here_true in T as [-> ->]. cbn [length]. split; [reflexivity|]. lia.
  - apply (IH _ _ r c) in H; [|exact T]. cbn [length]. destruct H as (H1 & H2 & H3). split; [exact H1|]. split; [exact H2|]. lia.
Qed.
Lemma not_touched o r c : ~ (touches o r c = true) -> touches o r c = false. Proof. destruct (touches o r c); congruence. Qed.
Lemma alters_touches o r c : touches o r c = false -> alters o r c = false.
Proof. destruct o; cbn [touches alters]; intros H; first [exact H|reflexivity]. Qed.

(** One record of many. *)
Lemma rows_split h : forall l k j fs, nth_error l j = Some fs -> exists A B, rows_of h k l = A ++ flat_map (field_cell h (k + N.of_nat j)) fs ++ B /\
  forall o r c, In o B -> touches o r c = true -> first_record h + k + N.of_nat j < r.
Proof.
  induction l as [|x l IH]; intros k [|j] fs H; try discriminate.
  - injection H as ->. exists [], (rows_of h (k + 1) l). cbn [app rows_of]. replace (k + N.of_nat 0) with k by lia. split; [reflexivity|].
    intros o r c Ho T. apply (rows_at _ _ _ _ r c) in Ho; [|exact T]. lia.
  - cbn [nth_error] in H. destruct (IH (k + 1) j fs H) as (A & B & E & Q). exists (flat_map (field_cell h k) x ++ A), B. cbn [rows_of]. rewrite E, <- app_assoc.
    replace (k + 1 + N.of_nat j) with (k + N.of_nat (S j)) by lia. split; [reflexivity|]. intros o r c Ho T. pose proof (Q o r c Ho T). lia.
Qed.
Lemma flat_split {A B} (f : A -> list B) x l : In x l -> exists a b, l = a ++ x :: b /\ flat_map f l = flat_map f a ++ f x ++ flat_map f b.
Proof.
  intros H. apply in_split in H as (a & b & ->). exists a, b. split; [reflexivity|]. rewrite flat_map_app. reflexivity.
Qed.
Lemma head_split h : forall l i j x, nth_error l j = Some x -> h_shown h = true -> exists A B f,
  head_ops h i l = A ++ WriteString (h_row h) (h_col h + i + N.of_nat j) (co_header x) f :: B /\
  forall o r c, In o B -> touches o r c = true -> h_col h + i + N.of_nat j < c.
Proof.
  induction l as [|y l IH]; intros i [|j] x H S; try discriminate; cbn [head_ops].
  - injection H as ->. rewrite S. rewrite !app_assoc. rewrite <- app_assoc. cbn [app].
    match goal with |- context [?a ++ WriteString _ _ _ ?f :: ?b] => exists a, b, f end. replace (h_col h + i + N.of_nat 0) with (h_col h + i) by lia. split; [reflexivity|].
    intros o r c Ho T. apply (head_at _ _ _ _ r c) in Ho; [|exact T]. lia.
  - cbn [nth_error] in H. destruct (IH (i + 1) j x H S) as (A & B & f & E & Q). rewrite E. rewrite app_assoc.
    match goal with |- context [?a ++ WriteString _ _ _ ?f :: ?b] => exists a, b, f end. replace (h_col h + i + N.of_nat (Datatypes.S j)) with (h_col h + (i + 1) + N.of_nat j) by lia. split; [reflexivity|].
    exact Q.
Qed.

(** ** The file *)
Section File.
Variables (ops : list op) (w : ws).
Hypothesis Done : write_all ws_standard ops = (w, None).
Lemma in_file pre o post r c v t g : ops = pre ++ o :: post -> (forall w, writes w o r c = Some v) -> v <> VBlank ->
  Forall (fun o => touches o r c = false) post -> exists style, shown (sheet_rows w t g) r c = [(v, style)].
Proof.
  intros E W V Q. destruct (all_ok _ _ _ Done) as [-> S]. specialize (S pre o post E). rewrite E.
  destruct (step (run ws_standard pre) o) as [w1 e] eqn:St. cbn [snd] in S. subst e.
  apply (C15_last_write_wins pre o post w1 r c v t g St (W _) V). apply quiet_after. eapply Forall_impl; [|exact Q]. intros a. apply alters_touches.
Qed.
Lemma not_in_file r c t g : Forall (fun o => touches o r c = false) ops -> shown (sheet_rows w t g) r c = [].
Proof. intros F. destruct (all_ok _ _ _ Done) as [-> _]. apply C15_untouched_cell_is_absent. apply quiet_all. exact F. Qed.
End File.

Lemma entry_written row col e f v : entry_value e = Some v -> exists o, cell_op row col e f = [o] /\ v <> VBlank /\ forall w, writes w o row col = Some v.
Proof.
  assert (H : here row col row col = true) by (unfold here; rewrite !N.eqb_refl; reflexivity).
  destruct e as [b|x|[|a s]|]; cbn [entry_value cell_op]; try discriminate.
  - intros [= <-]. eexists. split; [reflexivity|]. split; [discriminate|]. intros w. cbn [writes]. rewrite H. reflexivity.
  - destruct (is_finite x) eqn:Fx; [|discriminate]. intros [= <-]. eexists. split; [reflexivity|]. split; [discriminate|]. intros w. cbn [writes]. rewrite H.
    destruct x; try discriminate; reflexivity.
  - intros [= <-]. eexists. split; [reflexivity|]. split; [discriminate|]. intros w. cbn [writes]. rewrite H. destruct f; reflexivity.
Qed.

Section Area.
Variables (lower : str -> str) (h : heading) (es : list event) (s' : sheet).
Hypothesis Recs : Forall is_record es.
Hypothesis Done : perform lower (sheet_new ws_standard) (all_by_hand [] (EvHeading h :: es)) = Some (s', None).
Let rs := flat_map (of_struct (h_name h)) es.
Let ops := head_ops h 0 (h_columns h) ++ rows_of h 0 rs.
Lemma written_cells : write_all ws_standard ops = (cells s', None).
Proof.
  pose proof Done as D. cbn [all_by_hand by_hand] in D. change [EvHeading h] with ([] ++ [EvHeading h]) in D.
  unfold table_ops in D. cbn [area_of] in D. rewrite app_nil_r in D. rewrite head_is in D.
  rewrite (rows_are h es [] 0) in D; [|constructor|exact Recs|cbn [app area_of]; rewrite str_eqb_refl; reflexivity].
  rewrite <- map_app in D. change (perform lower (with_cells (sheet_new ws_standard) ws_standard) (map SCell ops) = Some (s', None)) in D.
  rewrite perform_cells in D. unfold lift in D. destruct (write_all ws_standard ops) as [w [e|]]; cbn [fst snd option_map] in D; [discriminate|].
  injection D as <-. reflexivity.
Qed.
Lemma record_shown k fs f x i c v t g : nth_error rs k = Some fs -> NoDup (map fst fs) -> In (f, x) fs -> place f 0 (h_columns h) = Some (i, c) -> entry_value x = Some v ->
  exists style, shown (sheet_rows (cells s') t g) (first_record h + N.of_nat k) (h_col h + i) = [(v, style)].
Proof.
  intros Hk ND Hx P V. destruct (rows_split h rs 0 k fs Hk) as (A & B & E & Q). rewrite N.add_0_l in E.
  destruct (flat_split (field_cell h (N.of_nat k)) (f, x) fs Hx) as (a & b & Ef & Es).
  destruct (entry_written (first_record h + N.of_nat k) (h_col h + i) x (co_value_format c) v V) as (o & Eo & Vb & W).
  assert (F : field_cell h (N.of_nat k) (f, x) = [o]) by (unfold field_cell; cbn [fst snd]; rewrite P; exact Eo).
  rewrite F in Es. rewrite Es in E.
  apply (in_file ops (cells s') written_cells (head_ops h 0 (h_columns h) ++ A ++ flat_map (field_cell h (N.of_nat k)) a) o (flat_map (field_cell h (N.of_nat k)) b ++ B)); [|exact W|exact Vb|].
  - unfold ops. rewrite E, <- !app_assoc. reflexivity.
  - apply Forall_app. split; apply Forall_forall; intros o' Ho; apply not_touched; intros T.
    + destruct (fields_at _ _ _ _ _ _ Ho T) as (_ & _ & y & j & d & Hy & Py & Ej). assert (j = i) by lia. subst j.
      rewrite Ef, map_app in ND. cbn [map fst] in ND. apply NoDup_remove_2 in ND. apply ND. apply in_or_app. right. rewrite (place_inj _ _ _ _ _ _ _ P Py). apply in_map. exact Hy.
    + pose proof (Q o' _ _ Ho T). lia.
Qed.
Lemma header_shown i c t g : h_shown h = true -> nth_error (h_columns h) i = Some c -> co_header c <> [] ->
  exists style, shown (sheet_rows (cells s') t g) (h_row h) (h_col h + N.of_nat i) = [(VText (co_header c), style)].
Proof.
  intros S Hi Hc. destruct (head_split h (h_columns h) 0 i c Hi S) as (A & B & f & E & Q). rewrite N.add_0_r in E, Q.
  apply (in_file ops (cells s') written_cells A (WriteString (h_row h) (h_col h + N.of_nat i) (co_header c) f) (B ++ rows_of h 0 rs)).
  - unfold ops. rewrite E, <- app_assoc. reflexivity.
  - intros w. cbn [writes]. unfold here. rewrite !N.eqb_refl. cbn [andb]. unfold text_value. destruct (co_header c); [congruence|]. destruct f; reflexivity.
  - discriminate.
  - apply Forall_app. split; apply Forall_forall; intros o Ho; apply not_touched; intros T.
    + pose proof (Q o _ _ Ho T). lia.
    + apply (rows_at _ _ _ _ _ _ Ho) in T. unfold first_record in T. rewrite S in T. lia.
Qed.
Lemma outside_empty r c t g :
  ~ (h_row h <= r < first_record h + N.of_nat (length rs) /\ h_col h <= c < h_col h + N.of_nat (length (h_columns h))) ->
  shown (sheet_rows (cells s') t g) r c = [].
Proof.
  intros O. apply (not_in_file ops (cells s') written_cells). apply Forall_app. split; apply Forall_forall; intros o Ho; apply not_touched; intros T.
  - destruct (head_at _ _ _ _ _ _ Ho T) as (S & -> & C). apply O. unfold first_record. rewrite S. lia.
  - apply (rows_at _ _ _ _ _ _ Ho) in T. apply O. unfold first_record in *. destruct (h_shown h); lia.
Qed.
End Area.
