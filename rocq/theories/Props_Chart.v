(** C78-C81: what a chart part says, read back. *)
From Verif Require Import Base F64 Xml_Model Xml_Spec Xml_Proofs Xml_Read Xml_Read_Proofs Xml_Tree Fmt_Model Rich_Model Rich_Proofs SheetXml_Spec SheetXml_Proofs SheetXml_Proofs3 Doc_Model Doc_Spec Props_Doc Tag_Proofs Part_Proofs
  CF_Spec CF_Model CF_Build CF_Read Ref_Model Ref_Proofs Ref_Spec Quote_Proofs Note_Spec Note_Proofs Note_Proofs2 Note_Proofs4 Note_Proofs5 Cache_Model Spark_Model Spark_Spec Dml_Model Dml_Spec Dml_Proofs Draw_Model Draw_Proofs Draw_Proofs3
  Chart_Model Chart_Series Chart_Axis Chart_Whole Chart_Spec Chart_Spec2 Chart_Spec3 Chart_Spec4 Chart_Proofs Chart_Proofs2 Chart_Proofs3 Chart_Proofs4 Chart_Proofs5 Chart_Proofs6 Chart_Proofs7 Chart_Proofs8 Chart_Proofs9 Chart_Proofs10.
From Verif Require Color_Spec Props_Spark Xml_Spec Note_Proofs3 Draw_Proofs2.
From Coq Require Import Permutation.

Section Env.
Variable E : env.
Hypothesis Env : env_ok E.
Notation asked_ser := (asked_ser (e_num E) (e_parses E) (e_cache E)).
Notation asked_groups := (asked_groups (e_num E) (e_parses E) (e_cache E)).
Notation asked_pair := (asked_pair (e_num E) (e_parses E) (e_cache E)).
Notation asked_axes := (asked_axes (e_num E) (e_parses E) (e_cache E)).
Notation asked_plot := (asked_plot (e_num E) (e_parses E) (e_cache E)).
Notation asked_chart := (asked_chart (e_num E) (e_parses E) (e_cache E)).
Notation chart_good := (chart_ready (quotable E)).
(** The part that is written for a chart, with the chart combined with it if any; the first time it is saved. *)
Definition chart_file (sheet protected : bool) (id : N) (k : kind) (l : list chart_op) (comb : option (kind * list chart_op)) : str := document (written_chart E sheet protected id k l comb).
Definition other_calls (comb : option (kind * list chart_op)) : list (list series_op) := match comb with Some (k2, l2) => series_calls k2 l2 | None => [] end.
Definition all_series (d : drawn) : list ser := flat_map gr_series (pl_groups (dr_plot d)).

(** ** C81: everything *)
Theorem C81_chart_reads_back_partial sheet protected id k l comb : chart_good k l -> joined_ready E comb ->
  exists root, read_document (chart_file sheet protected id k l comb) = Some root /\ read_chart root = Some (asked_chart sheet protected id k l comb).
Proof.
  intros G J. destruct (chart_reads E Env sheet protected id k l comb G J) as [W R]. exists (node_of (written_chart E sheet protected id k l comb)). split; [apply document_reads; exact W|exact R].
Qed.

(** ** C79: the series *)
Lemma numbered_app {A} first (a b : list A) : numbered_from first (a ++ b) = numbered_from first a ++ numbered_from (first + N.of_nat (length a)) b.
Proof.
  revert first. induction a as [|x a IH]; intros first; [cbn [app length]; replace (first + N.of_nat 0) with first by lia; reflexivity|]. cbn [app]. rewrite !numbered_cons, IH. cbn [app length]. do 2 f_equal. f_equal. lia.
Qed.
Lemma groups_series k l ids ids2 first : flat_map gr_series (asked_groups k l ids ids2 first) = map (fun p => asked_ser k (fst p) (snd p)) (numbered_from first (written (series_calls k l))).
Proof.
  unfold Chart_Spec4.asked_groups, written. cbv zeta. rewrite flat_map_app, numbered_app, map_app. f_equal.
  - destruct (front (series_calls k l)) as [|s r]; [reflexivity|]. cbn [unless_empty flat_map Chart_Spec4.asked_group gr_series]. apply app_nil_r.
  - destruct (back (series_calls k l)) as [|s r]; [reflexivity|]. cbn [unless_empty flat_map Chart_Spec4.asked_group gr_series]. apply app_nil_r.
Qed.
Lemma nth_numbered {A} (l : list A) : forall first i a, nth_error l i = Some a -> nth_error (numbered_from first l) i = Some (first + N.of_nat i, a).
Proof.
  induction l as [|x l IH]; intros first i a H; [destruct i; discriminate|]. rewrite numbered_cons. destruct i as [|i]; cbn [nth_error] in *; [injection H as ->; do 2 f_equal; lia|]. rewrite (IH (first + 1) i a H). do 2 f_equal. lia.
Qed.
Lemma length_written {A} (p : A -> bool) l : length (filter (fun s => negb (p s)) l ++ filter p l) = length l.
Proof. rewrite app_length. induction l as [|a l IH]; [reflexivity|]. cbn [filter]. destruct (p a); cbn [negb length]; lia. Qed.
Lemma all_asked sheet protected id k l comb : all_series (asked_chart sheet protected id k l comb) =
  map (fun p => asked_ser k (fst p) (snd p)) (numbered_from 0 (written (series_calls k l))) ++
  match comb with Some (k2, l2) => map (fun p => asked_ser k2 (fst p) (snd p)) (numbered_from (N.of_nat (length (series_calls k l))) (written (series_calls k2 l2))) | None => [] end.
Proof.
  unfold all_series, Chart_Spec4.asked_chart, Chart_Spec4.asked_plot. cbn [dr_plot pl_groups]. rewrite flat_map_app, groups_series. f_equal. destruct comb as [[k2 l2]|]; [|reflexivity]. apply groups_series.
Qed.
Lemma length_numbered {A} (l : list A) : forall first, length (numbered_from first l) = length l.
Proof. induction l as [|a l IH]; intros first; [reflexivity|]. rewrite numbered_cons. cbn [length]. rewrite IH. reflexivity. Qed.
(** The series stand in the file in the order of the calls, except that those on the secondary axes come after the others; those of the combined chart come last. *)
Theorem C79_series_read_back_partial sheet protected id k l comb : chart_good k l -> joined_ready E comb ->
  exists root d, read_document (chart_file sheet protected id k l comb) = Some root /\ read_chart root = Some d /\
  (forall i s, nth_error (front (series_calls k l) ++ back (series_calls k l)) i = Some s -> nth_error (all_series d) i = Some (asked_ser k (N.of_nat i) s)) /\
  (forall k2 l2 i s, comb = Some (k2, l2) -> nth_error (front (series_calls k2 l2) ++ back (series_calls k2 l2)) i = Some s ->
    nth_error (all_series d) (length (series_calls k l) + i) = Some (asked_ser k2 (N.of_nat (length (series_calls k l) + i)) s)).
Proof.
  intros G J. destruct (C81_chart_reads_back_partial sheet protected id k l comb G J) as (root & R1 & R2). exists root, (asked_chart sheet protected id k l comb). split; [exact R1|]. split; [exact R2|].
  rewrite all_asked. split.
  - intros i s H. fold (written (series_calls k l)) in H. rewrite nth_error_app1.
    + rewrite (map_nth_error (fun p => asked_ser k (fst p) (snd p)) i _ (nth_numbered _ 0 i s H)). reflexivity.
    + rewrite map_length, length_numbered. apply nth_error_Some. rewrite H. discriminate.
  - intros k2 l2 i s -> H. fold (written (series_calls k2 l2)) in H.
    assert (L : length (map (fun p => asked_ser k (fst p) (snd p)) (numbered_from 0 (written (series_calls k l)))) = length (series_calls k l)) by (rewrite map_length, length_numbered; apply length_written).
    rewrite nth_error_app2 by (rewrite L; lia). rewrite L. replace (length (series_calls k l) + i - length (series_calls k l))%nat with i by lia.
    rewrite (map_nth_error (fun p => asked_ser k2 (fst p) (snd p)) i _ (nth_numbered _ _ i s H)). cbn [fst snd]. do 2 f_equal. lia.
Qed.

(** ** C78: the structure *)
Lemma indices_numbered k (l : list (list series_op)) : forall m, map sr_index (map (fun p => asked_ser k (fst p) (snd p)) (numbered_from (N.of_nat m) l)) = map N.of_nat (seq m (length l)).
Proof.
  induction l as [|s l IH]; intros m; [reflexivity|]. rewrite numbered_cons. cbn [map fst snd length seq]. replace (N.of_nat m + 1) with (N.of_nat (S m)) by lia. rewrite IH. reflexivity.
Qed.
(** The series of the file are numbered 0, 1, 2, ..., both for their formatting and for their order; there are as many as were added to the chart and to the one combined with it. *)
Theorem C78_series_numbered sheet protected id k l comb : chart_good k l -> joined_ready E comb ->
  exists root d, read_document (chart_file sheet protected id k l comb) = Some root /\ read_chart root = Some d /\
  map sr_index (all_series d) = map N.of_nat (seq 0 (length (series_calls k l) + length (other_calls comb))) /\ Forall (fun s => sr_order s = sr_index s) (all_series d).
Proof.
  intros G J. destruct (C81_chart_reads_back_partial sheet protected id k l comb G J) as (root & R1 & R2). exists root, (asked_chart sheet protected id k l comb). split; [exact R1|]. split; [exact R2|]. rewrite all_asked. split.
  - rewrite map_app, seq_app, map_app. f_equal; [rewrite (indices_numbered k _ 0); unfold written, front, back; rewrite length_written; reflexivity|].
    destruct comb as [[k2 l2]|]; [|reflexivity]. cbn [other_calls]. rewrite indices_numbered. unfold written, front, back. rewrite length_written. reflexivity.
  - apply Forall_app. split; [|destruct comb as [[k2 l2]|]; [|constructor]]; apply Forall_map, Forall_forall; intros; reflexivity.
Qed.
Definition has_axes (k : kind) : bool := match group_of k with FPie | FDoughnut => false | _ => true end.
(** A pie or doughnut chart is not combined with anything, and nothing is combined with it. *)
Definition same_ground (k : kind) (comb : option (kind * list chart_op)) : Prop := match comb with Some (k2, _) => has_axes k = true /\ has_axes k2 = true | None => True end.
Lemma pair_ids f date keep numeric (reversed : bool) code ids xu xl yu yl : map (fun a => (xs_id a, xs_cross a)) (asked_pair f date keep numeric reversed code ids xu xl yu yl) =
  match f with FPie | FDoughnut => [] | _ => if reversed then [both ids; ids] else [ids; both ids] end.
Proof.
  unfold Chart_Spec4.asked_pair. destruct ids as [i j]. destruct f; cbv zeta; try reflexivity; destruct date, reversed; reflexivity.
Qed.
Lemma pair_ids' f date keep numeric (reversed : bool) code ids xu xl yu yl l : map (fun a => (xs_id a, xs_cross a)) l = map (fun a => (xs_id a, xs_cross a)) (asked_pair f date keep numeric reversed code ids xu xl yu yl) ->
  f <> FPie -> f <> FDoughnut -> exists r : bool, map (fun a => (xs_id a, xs_cross a)) l = if r then [both ids; ids] else [ids; both ids].
Proof. intros H A B. rewrite H, pair_ids. exists reversed. destruct f; try reflexivity; contradiction. Qed.
Definition uses (groups : list group) (i : N) : Prop := exists g, In g groups /\ In i (gr_ids g).
Definition axes_numbered (i : N) (axes : list axis) : nat := length (filter (fun a => xs_id a =? i) axes).
Lemma ids_apart id c : let a := first_ids id in let b := second_ids id c in NoDup [fst a; snd a; fst b; snd b].
Proof. cbv zeta. unfold first_ids, second_ids. destruct c; cbn [fst snd]; repeat constructor; cbn [In]; lia. Qed.
Lemma groups_ids k l ids ids2 first g : In g (asked_groups k l ids ids2 first) -> (gr_ids g = [] \/ has_axes k = true) /\ forall i, In i (gr_ids g) -> i = fst ids \/ i = snd ids \/ (existsb on_secondary (series_calls k l) = true /\ (i = fst ids2 \/ i = snd ids2)).
Proof.
  unfold Chart_Spec4.asked_groups. cbv zeta. intros H. apply in_app_or in H as [H|H].
  - destruct (front (series_calls k l)) as [|s r]; [destruct H|]. destruct H as [<-|[]]. cbn [Chart_Spec4.asked_group gr_ids]. unfold has_axes. destruct (group_of k); (split; [first [left; reflexivity | right; reflexivity]|]); intros i I; cbn [In] in I; intuition auto.
  - destruct (back (series_calls k l)) as [|s r] eqn:Eb; [destruct H|]. destruct H as [<-|[]].
    assert (X : existsb on_secondary (series_calls k l) = true). { apply existsb_exists. exists s. apply filter_In. fold (back (series_calls k l)). rewrite Eb. left. reflexivity. }
    cbn [Chart_Spec4.asked_group gr_ids]. unfold has_axes. destruct (group_of k); (split; [first [left; reflexivity | right; reflexivity]|]); intros i I; cbn [In] in I; intuition auto.
Qed.
Lemma count_ids (l : list axis) i : axes_numbered i l = length (filter (fun p => fst p =? i) (map (fun a => (xs_id a, xs_cross a)) l)).
Proof. unfold axes_numbered. induction l as [|a l IH]; [reflexivity|]. cbn [map filter fst]. destruct (xs_id a =? i); cbn [length]; rewrite IH; reflexivity. Qed.
(** Each axis that a group of series is drawn on is defined, once. *)
Theorem C78_axes_defined_partial sheet protected id k l comb : chart_good k l -> joined_ready E comb -> same_ground k comb ->
  exists root d, read_document (chart_file sheet protected id k l comb) = Some root /\ read_chart root = Some d /\
  (forall i, uses (pl_groups (dr_plot d)) i -> axes_numbered i (pl_axes (dr_plot d)) = 1%nat) /\
  (forall a, In a (pl_axes (dr_plot d)) -> axes_numbered (xs_id a) (pl_axes (dr_plot d)) = 1%nat /\ exists b, In b (pl_axes (dr_plot d)) /\ xs_id b = xs_cross a /\ xs_cross b = xs_id a /\ xs_id b <> xs_id a).
Proof.
  intros G J S. destruct (C81_chart_reads_back_partial sheet protected id k l comb G J) as (root & R1 & R2). exists root, (asked_chart sheet protected id k l comb). split; [exact R1|]. split; [exact R2|].
  cbn [Chart_Spec4.asked_chart dr_plot Chart_Spec4.asked_plot pl_groups pl_axes]. set (ids := first_ids id). set (ids2 := second_ids id (is_there comb)). pose proof (ids_apart id (is_there comb)) as A. fold ids ids2 in A. cbv zeta in A. clearbody ids ids2.
  set (two := existsb on_secondary (series_calls k l) || existsb on_secondary (other_calls comb)).
  assert (P : has_axes k = true -> exists r1 r2 : bool, map (fun a => (xs_id a, xs_cross a)) (asked_axes k l comb ids ids2) = (if r1 then [both ids; ids] else [ids; both ids]) ++ (if two then if r2 then [both ids2; ids2] else [ids2; both ids2] else [])).
  { intros Hk. unfold Chart_Spec4.asked_axes. cbv zeta. rewrite map_app, pair_ids. exists false. fold (other_calls comb). fold two.
    assert (Hg : match (match comb with Some (k2, _) => group_of k2 | None => group_of k end) with FPie | FDoughnut => false | _ => true end = true) by (destruct comb as [[k2 l2]|]; [exact (proj2 S)|exact Hk]).
    set (g := match comb with Some (k2, _) => group_of k2 | None => group_of k end) in *. exists (match g with FScatter => is_there comb | _ => true end). f_equal.
    - unfold has_axes in Hk. destruct (group_of k); first [reflexivity | discriminate].
    - destruct two; [|reflexivity]. rewrite pair_ids. destruct g; first [reflexivity | discriminate]. }
  destruct ids as [i1 i2], ids2 as [j1 j2]. cbn [fst snd both] in *.
  assert (D : i1 <> i2 /\ i1 <> j1 /\ i1 <> j2 /\ i2 <> j1 /\ i2 <> j2 /\ j1 <> j2).
  { inversion A as [|? ? N1 A1]; subst. inversion A1 as [|? ? N2 A2]; subst. inversion A2 as [|? ? N3 A3]; subst. cbn [In] in *. repeat split; intros Q; subst; intuition auto. }
  clear A. destruct D as (D1 & D2 & D3 & D4 & D5 & D6).
  assert (X : forall (ps : list (N * N)) i, (exists r1 r2 : bool, ps = (if r1 then [(i2, i1); (i1, i2)] else [(i1, i2); (i2, i1)]) ++ (if two then if r2 then [(j2, j1); (j1, j2)] else [(j1, j2); (j2, j1)] else [])) ->
    (i = i1 \/ i = i2 \/ two = true /\ (i = j1 \/ i = j2)) -> length (filter (fun p => fst p =? i) ps) = 1%nat).
  { intros ps i (r1 & r2 & ->) Hi. assert (Y : forall a b : N, (a =? b) = true <-> a = b) by apply N.eqb_eq.
    assert (Z : forall a b : N, a <> b -> (a =? b) = false) by (intros; apply N.eqb_neq; assumption).
    destruct r1, two; try destruct r2; cbn [app filter fst]; destruct Hi as [->|[->|[T [->| ->]]]]; try discriminate T; rewrite ?N.eqb_refl; repeat (rewrite Z by congruence); reflexivity. }
  split.
  - intros i (g & Ig & Ii). rewrite count_ids.
    assert (U : has_axes k = true /\ (i = i1 \/ i = i2 \/ two = true /\ (i = j1 \/ i = j2))).
    { apply in_app_or in Ig as [Ig|Ig].
      - destruct (groups_ids _ _ _ _ _ _ Ig) as [Hk Hi]. destruct Hk as [Hk|Hk]; [rewrite Hk in Ii; destruct Ii|]. split; [exact Hk|]. destruct (Hi i Ii) as [H|[H|[H1 H2]]]; cbn [fst snd] in *; [left; exact H|right; left; exact H|right; right].
        split; [subst two; rewrite H1; reflexivity|exact H2].
      - destruct comb as [[k2 l2]|]; [|destruct Ig]. destruct (groups_ids _ _ _ _ _ _ Ig) as [_ Hi]. split; [exact (proj1 S)|]. destruct (Hi i Ii) as [H|[H|[H1 H2]]]; cbn [fst snd] in *; [left; exact H|right; left; exact H|right; right].
        split; [subst two; cbn [other_calls]; rewrite H1; apply orb_true_r|exact H2]. }
    destruct U as [Hk U]. apply X; [exact (P Hk)|exact U].
  - intros a Ia. destruct (has_axes k) eqn:Hk.
    + destruct (P eq_refl) as (r1 & r2 & Q). rewrite count_ids.
      assert (Ip : In (xs_id a, xs_cross a) (map (fun a => (xs_id a, xs_cross a)) (asked_axes k l comb (i1, i2) (j1, j2)))) by (apply (in_map (fun a => (xs_id a, xs_cross a))); exact Ia).
      assert (V : (xs_id a = i1 /\ xs_cross a = i2) \/ (xs_id a = i2 /\ xs_cross a = i1) \/ (two = true /\ ((xs_id a = j1 /\ xs_cross a = j2) \/ (xs_id a = j2 /\ xs_cross a = j1)))).
      { rewrite Q in Ip. destruct r1, two; try destruct r2; cbn [app In] in Ip; repeat (destruct Ip as [Ip|Ip]; [injection Ip as U1 U2; rewrite <- U1, <- U2; tauto|]); destruct Ip. }
      split; [apply X; [exact (P eq_refl)|destruct V as [[V _]|[[V _]|[V1 [[V _]|[V _]]]]]; rewrite V; auto]|].
      assert (B : In (xs_cross a, xs_id a) (map (fun a => (xs_id a, xs_cross a)) (asked_axes k l comb (i1, i2) (j1, j2)))).
      { rewrite Q. destruct V as [[-> ->]|[[-> ->]|[V1 V]]]; [destruct r1; cbn [app In]; auto..|]. apply in_or_app. right. rewrite V1. destruct V as [[-> ->]|[-> ->]]; destruct r2; cbn [In]; auto. }
      apply in_map_iff in B as (b & Eb & Ib). exists b. split; [exact Ib|]. assert (xs_id b = xs_cross a /\ xs_cross b = xs_id a) as [B1 B2] by (split; congruence). split; [exact B1|]. split; [exact B2|]. rewrite B1.
      clear -V D1 D6. destruct V as [[V W]|[[V W]|[_ [[V W]|[V W]]]]]; rewrite V, W; first [exact D1 | exact (not_eq_sym D1) | exact D6 | exact (not_eq_sym D6)].
    + exfalso. destruct comb as [[k2 l2]|]; [destruct S; congruence|]. unfold Chart_Spec4.asked_axes in Ia. cbv zeta in Ia. unfold has_axes in Hk. apply in_app_or in Ia as [Ia|Ia].
      * apply (in_map (fun a => (xs_id a, xs_cross a))) in Ia. rewrite pair_ids in Ia. destruct (group_of k); try discriminate; destruct Ia.
      * destruct (_ || _); [|destruct Ia]. apply (in_map (fun a => (xs_id a, xs_cross a))) in Ia. rewrite pair_ids in Ia. destruct (group_of k); try discriminate; destruct Ia.
Qed.

(** ** C80: the axes *)
(** The first axis of each pair is the one of the categories (of the x values in a scatter chart); the axes of the secondary pair come the other way round, except those of a scatter chart that is not combined. *)
Theorem C80_axes_read_back_partial sheet protected id k l comb : chart_good k l -> joined_ready E comb ->
  exists root d, read_document (chart_file sheet protected id k l comb) = Some root /\ read_chart root = Some d /\ pl_axes (dr_plot d) = asked_axes k l comb (first_ids id) (second_ids id (is_there comb)).
Proof. intros G J. destruct (C81_chart_reads_back_partial sheet protected id k l comb G J) as (root & R1 & R2). exists root, (asked_chart sheet protected id k l comb). repeat split; assumption. Qed.
End Env.

(** ** Charts that meet what is asked, and expectations that are not met *)
Definition demo_env : env := {| e_mode := Release; e_chars := ascii_unicode; e_num := fun _ => lit "0.5"; e_parses := fun _ => true; e_cache := fun c => {| c_type := if g_fc c =? 0 then TString else TNumber; c_data := [lit "7"; lit "9"] |} |}.
Lemma demo_ok : env_ok demo_env.
Proof. split; [intros x; reflexivity|]. split; [exact ascii_unicode_ok|]. intros c. repeat constructor. Qed.
Definition cells (column : N) : crange := {| g_sheet := lit "Data"; g_fr := 0; g_fc := column; g_lr := 1; g_lc := column |}.
Definition text_arg (s : string) : carg := {| a_range := no_range; a_text := lit s |}.
Definition range_arg (c : crange) : carg := {| a_range := c; a_text := [] |}.
Lemma cells_known n : n < 65535 -> range_known (quotable demo_env) (cells n).
Proof. intros H. unfold range_known, cells. cbn [g_fr g_lr g_fc g_lc g_sheet]. split; [reflexivity|]. split; [reflexivity|]. split; [exact H|]. split; [exact H|]. split; [discriminate|]. split; [reflexivity|]. apply Props_Spark.quotable_release. Qed.
Definition demo_series : list series_op := [SrValues (cells 1); SrCategories (cells 0); SrName (text_arg "Sales"); SrTrend [TrType (TrPolynomial 3)]; SrGap 80].
Definition demo_line : list series_op := [SrValues (cells 2); SrName (range_arg (cells 3)); SrSecondary true; SrMarker [MkType 2]].
Definition demo_calls : list chart_op := [ChAdd demo_line; ChAdd demo_series; ChTitle (TiName (text_arg "Sales & costs")); ChX (XName (range_arg (cells 4))); ChY (XMax (f_of_N 9)); ChY2 (XReverse); ChLegend (LgPosition 2); ChStyle 7; ChTable [DtKeys true]].
Definition demo_combined : kind * list chart_op := (KLine, [ChAdd [SrValues (cells 5); SrSmooth true]]).
Lemma settled_one a : settled [a]. Proof. intros p x q y r H. destruct p as [|z [|w p]]; cbn in H; [injection H as _ H; destruct q; discriminate|injection H as _ H; discriminate|discriminate]. Qed.
Lemma settled_none : settled []. Proof. intros p x q y r H. destruct p; discriminate. Qed.
Lemma one_marker n : not_both [MkType n]. Proof. intros p q m H. destruct p as [|a [|b p]]; discriminate. Qed.
Ltac ready := repeat first [apply Forall_nil | apply Forall_cons | exact I | exact (cells_known _ eq_refl) | reflexivity | apply settled_none | apply settled_one | split]; try (intros; discriminate); try (intros []; first [apply settled_none | apply settled_one]); try apply Props_Spark.quotable_release; try apply one_marker.
Example C78_meets : chart_ready (quotable demo_env) KColumn demo_calls /\ joined_ready demo_env (Some demo_combined) /\ same_ground KColumn (Some demo_combined) /\
  length (front (series_calls KColumn demo_calls)) = 1%nat /\ length (back (series_calls KColumn demo_calls)) = 1%nat.
Proof. repeat split. all: ready. Qed.
(** Whatever the chart is combined with: the columns are drawn on axes that are not in the file if the chart itself is a pie. *)
Definition demo_column : kind * list chart_op := (KColumn, [ChAdd [SrValues (cells 5)]]).
Theorem C78_axes_undefined_refuted : exists root d i, read_document (chart_file demo_env false false 1 KPie [ChAdd [SrValues (cells 1)]] (Some demo_column)) = Some root /\ read_chart root = Some d /\
  uses (pl_groups (dr_plot d)) i /\ axes_numbered i (pl_axes (dr_plot d)) = 0%nat.
Proof.
  destruct (C81_chart_reads_back_partial demo_env demo_ok false false 1 KPie [ChAdd [SrValues (cells 1)]] (Some demo_column)) as (root & R1 & R2); [repeat split; ready|repeat split; ready|].
  eexists root, _, 50010001. split; [exact R1|]. split; [exact R2|]. split; [|reflexivity]. eexists. split; [right; left; reflexivity|left; reflexivity].
Qed.
(** The same for the secondary axes, if a pie is combined with columns. *)
Theorem C78_axes_undefined_secondary_refuted : exists root d i, read_document (chart_file demo_env false false 1 KColumn [ChAdd [SrValues (cells 1); SrSecondary true]] (Some (KPie, [ChAdd [SrValues (cells 5)]]))) = Some root /\ read_chart root = Some d /\
  uses (pl_groups (dr_plot d)) i /\ axes_numbered i (pl_axes (dr_plot d)) = 0%nat.
Proof.
  destruct (C81_chart_reads_back_partial demo_env demo_ok false false 1 KColumn [ChAdd [SrValues (cells 1); SrSecondary true]] (Some (KPie, [ChAdd [SrValues (cells 5)]]))) as (root & R1 & R2); [repeat split; ready|repeat split; ready|].
  eexists root, _, 60010001. split; [exact R1|]. split; [exact R2|]. split; [|reflexivity]. eexists. split; [left; reflexivity|left; reflexivity].
Qed.
(** A gap asked of the columns on the primary axes is also given to those on the secondary axes. *)
Theorem C79_gap_refuted : exists root d, read_document (chart_file demo_env false false 1 KColumn [ChAdd [SrValues (cells 1); SrGap 80]; ChAdd [SrValues (cells 2); SrSecondary true]] None) = Some root /\ read_chart root = Some d /\
  map gr_gap (pl_groups (dr_plot d)) = [Some 80; Some 80].
Proof.
  destruct (C81_chart_reads_back_partial demo_env demo_ok false false 1 KColumn [ChAdd [SrValues (cells 1); SrGap 80]; ChAdd [SrValues (cells 2); SrSecondary true]] None) as (root & R1 & R2); [repeat split; ready|exact I|].
  eexists root, _. split; [exact R1|]. split; [exact R2|]. reflexivity.
Qed.
(** A gap of 150, the one columns have anyway, does not undo an earlier one. *)
Theorem C79_gap_150_refuted E sheet protected id comb v w : chart_file E sheet protected id KColumn [ChAdd [SrValues v; SrGap 80]; ChAdd [SrValues w; SrGap 150]] comb = chart_file E sheet protected id KColumn [ChAdd [SrValues v; SrGap 80]; ChAdd [SrValues w]] comb.
Proof. reflexivity. Qed.
(** Saving a chart again gives another file: what was asked of the secondary columns is then also given to the primary ones. *)
Theorem C79_second_save_refuted : let c := make_chart KColumn [ChAdd [SrValues (cells 1)]; ChAdd [SrValues (cells 2); SrSecondary true; SrGap 80]] in
  let first := chart_part demo_env false false 1 c None (state_new KColumn) (state_new KColumn) in let second := chart_part demo_env false false 1 c None (fst (snd first)) (snd (snd first)) in
  fst first <> fst second /\ option_map (fun d => map gr_gap (pl_groups (dr_plot d))) (read_chart (node_of (fst first))) = Some [None; Some 80] /\
  option_map (fun d => map gr_gap (pl_groups (dr_plot d))) (read_chart (node_of (fst second))) = Some [Some 80; Some 80].
Proof.
  cbv zeta. match goal with |- ?a <> ?b /\ ?x = ?u /\ ?y = ?v => assert (H : x = u /\ y = v) by (split; vm_compute; reflexivity) end. destruct H as [H1 H2]. split; [|split; assumption]. intros Q. rewrite Q in H1. rewrite H1 in H2. discriminate.
Qed.
(** A series made beforehand and pushed on a scatter chart loses its format, on a line chart its marker. *)
Theorem C79_push_refuted E sheet protected id comb c v f m :
  chart_file E sheet protected id KScatter [ChPush [SrCategories c; SrValues v; SrFormat f]] comb = chart_file E sheet protected id KScatter [ChPush [SrCategories c; SrValues v]] comb /\
  chart_file E sheet protected id KLine [ChPush [SrCategories c; SrValues v; SrMarker m]] comb = chart_file E sheet protected id KLine [ChPush [SrCategories c; SrValues v]] comb.
Proof. split; reflexivity. Qed.
(** The markers of a scatter chart are joined by a line as soon as the series is given a format without a line. *)
Theorem C79_scatter_line_refuted : exists root d s, read_document (chart_file demo_env false false 1 KScatter [ChAdd [SrCategories (cells 0); SrValues (cells 1); SrFormat [FoSolid [SoColor (CRGB 255)]]]] None) = Some root /\ read_chart root = Some d /\
  all_series d = [s] /\ option_map li_fill (snd (sr_shape s)) <> Some (Some NoFill) /\ option_map li_width (snd (sr_shape s)) = Some (Some 28575).
Proof.
  destruct (C81_chart_reads_back_partial demo_env demo_ok false false 1 KScatter [ChAdd [SrCategories (cells 0); SrValues (cells 1); SrFormat [FoSolid [SoColor (CRGB 255)]]]] None) as (root & R1 & R2); [repeat split; ready|exact I|].
  eexists root, _, _. split; [exact R1|]. split; [exact R2|]. split; [reflexivity|]. split; [vm_compute; discriminate|vm_compute; reflexivity].
Qed.
(** Trendlines of order 6 and moving averages over 4 are within the documented limits and refused. *)
Theorem C79_trend_limits_refuted : forall fine : crange -> bool, (forall c, fine c = true) ->
  let ok t := chart_fine fine (make_chart KColumn [ChAdd [SrValues (cells 1); SrTrend [TrType t]]]) in ok (TrPolynomial 6) = false /\ ok (TrMoving 4) = false /\ ok (TrPolynomial 5) = true /\ ok (TrMoving 3) = true.
Proof. intros fine H. cbv zeta. unfold chart_fine, series_fine. cbn -[N.ltb]. rewrite !H. repeat split. Qed.
(** The name of a series stays the text it was given first if a range is given later. *)
Theorem C79_name_refuted E sheet protected id comb v c s : range_given c = true -> chart_file E sheet protected id KColumn [ChAdd [SrValues v; SrName (text_arg (String "S" s)); SrName (range_arg c)]] comb =
  chart_file E sheet protected id KColumn [ChAdd [SrValues v; SrName (text_arg (String "S" s))]] comb.
Proof. intros R. destruct c as [[|a n] fr fc lr lc]; [discriminate|]. reflexivity. Qed.
(** The categories of a bar chart are on its y axis; making them dates changes nothing but the flag for automatic dates. *)
Theorem C80_bar_dates_refuted : exists root d, read_document (chart_file demo_env false false 1 KBar [ChAdd [SrValues (cells 1)]; ChY (XDate true)] None) = Some root /\ read_chart root = Some d /\
  map xs_kind (pl_axes (dr_plot d)) = ["c:catAx"; "c:valAx"]%string.
Proof.
  destruct (C81_chart_reads_back_partial demo_env demo_ok false false 1 KBar [ChAdd [SrValues (cells 1)]; ChY (XDate true)] None) as (root & R1 & R2); [repeat split; ready|exact I|].
  eexists root, _. split; [exact R1|]. split; [exact R2|]. reflexivity.
Qed.
(** A category axis that is asked to be automatic says what one says that is asked to be of text. *)
Theorem C80_automatic_refuted E sheet protected id comb v : chart_file E sheet protected id KColumn [ChAdd [SrValues v]; ChX (XAutomatic true)] comb = chart_file E sheet protected id KColumn [ChAdd [SrValues v]; ChX (XDate false)] comb.
Proof. reflexivity. Qed.
(** The entries of a combined chart cannot be removed from the legend. *)
Theorem C81_combined_legend_refuted E sheet protected id k l v : chart_file E sheet protected id k l (Some (KLine, [ChAdd [SrValues v; SrDelete true]])) = chart_file E sheet protected id k l (Some (KLine, [ChAdd [SrValues v]])).
Proof. reflexivity. Qed.
(** Removing the entry of a series removes that of another one if series on the secondary axes were added before it: entries are in the order of the file. *)
Theorem C81_legend_entry_refuted : exists root d g, read_document (chart_file demo_env false false 1 KColumn [ChAdd [SrValues (cells 1); SrSecondary true; SrDelete true]; ChAdd [SrValues (cells 2)]] None) = Some root /\ read_chart root = Some d /\
  dr_legend d = Some g /\ lr_deleted g = [0] /\ option_map (fun s => src_area (sr_values s)) (nth_error (all_series d) 0) = Some (area_asked (cells 2)).
Proof.
  destruct (C81_chart_reads_back_partial demo_env demo_ok false false 1 KColumn [ChAdd [SrValues (cells 1); SrSecondary true; SrDelete true]; ChAdd [SrValues (cells 2)]] None) as (root & R1 & R2); [repeat split; ready|exact I|].
  eexists root, _, _. split; [exact R1|]. split; [exact R2|]. split; [reflexivity|]. split; reflexivity.
Qed.
(** A title taken from a cell loses its font if it is given a format. *)
Theorem C81_title_font_refuted E sheet protected id k comb c f n v : range_given c = true ->
  chart_file E sheet protected id k [ChAdd v; ChTitle (TiName (range_arg c)); ChTitle (TiFormat [f]); ChTitle (TiFont n)] comb = chart_file E sheet protected id k [ChAdd v; ChTitle (TiName (range_arg c)); ChTitle (TiFormat [f])] comb.
Proof. intros R. destruct c as [[|a n'] fr fc lr lc]; [discriminate|]. destruct f; reflexivity. Qed.
