(** Charts: the plot area, the legend and the part read back. *)
From Verif Require Import Base F64 Xml_Model Xml_Spec Xml_Proofs Xml_Read Xml_Read_Proofs Xml_Tree Fmt_Model Rich_Model Rich_Proofs SheetXml_Spec SheetXml_Proofs SheetXml_Proofs3 Doc_Model Doc_Spec Props_Doc Tag_Proofs Part_Proofs
  CF_Spec CF_Model CF_Build CF_Read Ref_Model Ref_Proofs Ref_Spec Quote_Proofs Note_Spec Note_Proofs Note_Proofs2 Note_Proofs4 Note_Proofs5 Cache_Model Spark_Model Spark_Spec Dml_Model Dml_Spec Dml_Proofs Draw_Model Draw_Proofs Draw_Proofs3
  Chart_Model Chart_Series Chart_Axis Chart_Whole Chart_Spec Chart_Spec2 Chart_Spec3 Chart_Spec4 Chart_Proofs Chart_Proofs2 Chart_Proofs3 Chart_Proofs4 Chart_Proofs5 Chart_Proofs6 Chart_Proofs7 Chart_Proofs8.
From Verif Require Color_Spec Props_Spark Xml_Spec.

Lemma filter_dressed k p q cs sers : (forall c s, dressed k c s -> p c = q s) -> Forall2 (dressed k) cs sers -> Forall2 (dressed k) (filter p cs) (filter q sers).
Proof. intros H. induction 1 as [|c s cs ss D F IH]; [constructor|]. cbn [filter]. rewrite (H c s D). destruct (q s); [constructor; assumption|exact IH]. Qed.
Lemma dressed_secondary k c s : dressed k c s -> on_secondary c = se_secondary s.
Proof. intros (_ & _ & _ & _ & _ & _ & _ & _ & _ & _ & _ & _ & _ & _ & _ & _ & _ & _ & H). symmetry. exact H. Qed.
Lemma any_dressed k p q cs sers : (forall c s, dressed k c s -> p c = q s) -> Forall2 (dressed k) cs sers -> existsb p cs = existsb q sers.
Proof. intros H. induction 1 as [|c s cs ss D F IH]; [reflexivity|]. cbn [existsb]. rewrite (H c s D), IH. reflexivity. Qed.
Lemma filter_ready {A} (P : A -> Prop) p l : Forall P l -> Forall P (filter p l).
Proof. intros F. apply Forall_forall. intros x Hx. apply filter_In in Hx as [Hx _]. rewrite Forall_forall in F. exact (F x Hx). Qed.

(** Parts that are wholly of a kind, or not at all. *)
Fixpoint chosen (bs : list bool) (ls : list (list wx)) : list wx := match bs, ls with b :: bs, l :: ls => (if b then l else []) ++ chosen bs ls | _, _ => [] end.
Lemma parts_chosen p bs ls : Forall2 (fun b l => Forall (fun x => p (node_of x) = b) l) bs ls -> filter p (map node_of (concat ls)) = map node_of (chosen bs ls).
Proof.
  induction 1 as [|b l bs ls H F IH]; [reflexivity|]. cbn [concat chosen]. rewrite !map_app, filter_app, IH. f_equal. clear -H. induction H as [|x l E F IH]; [destruct b; reflexivity|]. cbn [map filter]. rewrite E, IH. destruct b; reflexivity.
Qed.
Section Env.
Variable E : env.
Hypothesis Env : env_ok E.
Let Num : forall x, attr_text (e_num E x) := proj1 Env.
Notation asked_group := (asked_group (e_num E) (e_parses E) (e_cache E)).
Notation asked_groups := (asked_groups (e_num E) (e_parses E) (e_cache E)).
Notation asked_axis := (asked_axis (e_num E) (e_parses E) (e_cache E)).
Notation asked_pair := (asked_pair (e_num E) (e_parses E) (e_cache E)).
Notation chart_good := (chart_ready (quotable E)).
Definition group_there (x : wx) : Prop := exists f, tag_of x = lit (group_tag f).
Lemma group_written k l c ids (primary : bool) w before : charted k l c -> chart_good k l -> tracks E k before w ->
  let mine := if primary then front (series_calls k l) else back (series_calls k l) in let r := write_group E c ids primary w in
  Forall wx_ok (fst r) /\ Forall group_there (fst r) /\ read_all read_group (map node_of (fst r)) = Some (unless_empty mine (asked_group k l ids primary (w_index w) before mine)) /\
  w_index (snd r) = w_index w + N.of_nat (length mine) /\ tracks E k (before ++ mine) (snd r).
Proof.
  intros C (K & R & _) T mine. cbv zeta. unfold write_group.
  assert (D : Forall2 (dressed k) mine (filter (fun s => xorb (se_secondary s) primary) (ch_series c))).
  { assert (M : mine = filter (fun s => xorb (on_secondary s) primary) (series_calls k l)) by (subst mine; destruct primary; unfold front, back; apply filter_ext; intros s; destruct (on_secondary s); reflexivity). rewrite M.
    apply filter_dressed; [|exact (h_series _ _ _ C)]. intros a s H. rewrite (dressed_secondary _ _ _ H). reflexivity. }
  assert (Rm : Forall (series_ready (quotable E) (group_of k)) mine) by (subst mine; destruct primary; apply filter_ready; exact R).
  inversion D as [E1 E2|a s ms ss D1 D2 E1 E2].
  - cbn [fst snd map read_all unless_empty length]. split; [constructor|]. split; [constructor|]. split; [reflexivity|]. split; [lia|]. rewrite app_nil_r. exact T.
  - rewrite <- E1 in D, Rm. rewrite <- E2 in D. pose proof (group_reads E Env k l c (a :: ms) (s :: ss) ids primary w before C K Rm D T) as H. cbv zeta in H.
    destruct (group_xml E c ids primary w (s :: ss)) as [x v]. cbn [fst snd] in *. destruct H as (W & Rd & Tg & Ix & Tr). split; [constructor; [exact W|constructor]|]. split; [constructor; [exists (group_of k); exact Tg|constructor]|].
    cbn [map read_all unless_empty]. rewrite Rd. split; [reflexivity|]. split; assumption.
Qed.
Lemma type_written k l c ids ids2 w : charted k l c -> chart_good k l -> tracks E k [] w ->
  let r := write_type E c ids ids2 w in
  Forall wx_ok (fst r) /\ Forall group_there (fst r) /\ read_all read_group (map node_of (fst r)) = Some (asked_groups k l ids ids2 (w_index w)) /\
  w_index (snd r) = w_index w + N.of_nat (length (written (series_calls k l))) /\ tracks E k (written (series_calls k l)) (snd r).
Proof.
  intros C G T. cbv zeta. unfold write_type. pose proof (group_written k l c ids true w [] C G T) as H1. cbv zeta in H1. cbv iota in H1. destruct (write_group E c ids true w) as [g1 w1]. cbn [fst snd app] in H1. destruct H1 as (W1 & T1 & R1 & I1 & S1).
  pose proof (group_written k l c ids2 false w1 _ C G S1) as H2. cbv zeta in H2. cbv iota in H2. destruct (write_group E c ids2 false w1) as [g2 w2]. cbn [fst snd] in *. destruct H2 as (W2 & T2 & R2 & I2 & S2).
  split; [apply Forall_app; split; assumption|]. split; [apply Forall_app; split; assumption|]. split.
  - rewrite map_app. unfold Chart_Spec4.asked_groups. cbv zeta. rewrite (read_all_both _ _ _ _ _ R1 R2). rewrite I1. reflexivity.
  - split; [|exact S2]. rewrite I2, I1. unfold written. rewrite app_length. lia.
Qed.

(** ** The axes *)
Definition axis_there (x : wx) : Prop := exists k, In k axis_kinds /\ tag_of x = lit k.
Lemma code_text k : attr_text (default_format k) /\ default_format k = usual_code k. Proof. destruct k; split; reflexivity. Qed.
Lemma pair_reads f (date keep numeric reversed : bool) code ids u l x v m y : attr_text code -> axised u l x -> axised v m y -> usual_fine u -> usual_fine v -> Forall (axis_known (quotable E)) l -> Forall (axis_known (quotable E)) m ->
  settled (names_of (axis_title_calls l)) -> settled (names_of (axis_title_calls m)) ->
  let (xx, yy) := match f with FBar => (y, x) | _ => (x, y) end in
  let first := match f with FScatter => cat_val_ax E code xx yy ids | _ => if date then date_ax E keep numeric xx yy ids else cat_ax E keep numeric xx yy ids end in
  let second := val_ax E code xx yy ids in
  let r := match f with FPie | FDoughnut => [] | _ => if reversed then [second; first] else [first; second] end in
  Forall wx_ok r /\ Forall axis_there r /\ read_all read_axis (map node_of r) = Some (asked_pair f date keep numeric reversed code ids u l v m).
Proof.
  intros Hc A B U V K L S T.
  assert (X : forall u l x v m y, axised u l x -> axised v m y -> usual_fine u -> usual_fine v -> Forall (axis_known (quotable E)) l -> Forall (axis_known (quotable E)) m -> settled (names_of (axis_title_calls l)) -> settled (names_of (axis_title_calls m)) ->
    (wx_ok (cat_val_ax E code x y ids) /\ read_axis (node_of (cat_val_ax E code x y ids)) = Some (asked_axis Values true (Some (code, true)) ids u l v m)) /\
    (wx_ok (val_ax E code x y ids) /\ read_axis (node_of (val_ax E code x y ids)) = Some (asked_axis Values true (Some (code, true)) (both ids) v m u l)) /\
    (wx_ok (if date then date_ax E keep numeric x y ids else cat_ax E keep numeric x y ids) /\ read_axis (node_of (if date then date_ax E keep numeric x y ids else cat_ax E keep numeric x y ids)) =
      Some (if date then asked_axis Dates (keep || negb (x_hidden u l)) (if numeric then Some (lit "dd/mm/yyyy", true) else None) ids u l v m
           else asked_axis Categories (keep || negb (x_hidden u l)) (if numeric then Some (lit "General", true) else None) ids u l v m))).
  { clear -Env Hc. intros u l x v m y A B U V K L S T. split; [|split].
    - destruct ids as [i j]. exact (value_reads E Env code u l x v m y i j Hc A B U K S).
    - exact (value_reads E Env code v m y u l x (snd ids) (fst ids) Hc B A V L T).
    - destruct date; [apply (date_reads E Env); assumption|apply (cat_reads E Env); assumption]. }
  assert (Y : forall x y, axis_there (cat_val_ax E code x y ids) /\ axis_there (val_ax E code x y ids) /\ axis_there (if date then date_ax E keep numeric x y ids else cat_ax E keep numeric x y ids)).
  { intros a b. split; [exists "c:valAx"%string; split; [right; right; left; reflexivity|reflexivity]|]. split; [exists "c:valAx"%string; split; [right; right; left; reflexivity|reflexivity]|].
    destruct date; [exists "c:dateAx"%string|exists "c:catAx"%string]; (split; [|reflexivity]); [right; left; reflexivity|left; reflexivity]. }
  assert (Z : forall a b p q, wx_ok a /\ read_axis (node_of a) = Some p -> wx_ok b /\ read_axis (node_of b) = Some q -> axis_there a -> axis_there b -> Forall wx_ok [a; b] /\ Forall axis_there [a; b] /\ read_all read_axis (map node_of [a; b]) = Some [p; q]).
  { intros a b p q [W1 R1] [W2 R2] T1 T2. split; [constructor; [exact W1|constructor; [exact W2|constructor]]|]. split; [constructor; [exact T1|constructor; [exact T2|constructor]]|]. cbn [map read_all]. rewrite R1, R2. reflexivity. }
  unfold Chart_Spec4.asked_pair. destruct (X u l x v m y A B U V K L S T) as (X1 & X2 & X3). destruct (X v m y u l x B A V U L K T S) as (X4 & X5 & X6). destruct (Y x y) as (Y1 & Y2 & Y3). destruct (Y y x) as (Y4 & Y5 & Y6).
  destruct f; cbv beta iota zeta; try (repeat split; constructor); destruct reversed; first [apply Z; assumption | idtac].
Qed.
End Env.
