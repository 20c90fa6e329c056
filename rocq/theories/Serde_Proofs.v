(** Serializing is making the calls by hand: proofs. *)
From Verif Require Import Base F64 Fmt_Model Cells_Model Sheet_Model Geom_Model Serde_Model Serde_Spec.

Lemma latest_fold {A O S} (f : S -> A) (g : O -> option A) (step : S -> O -> S) :
  (forall s o, f (step s o) = match g o with Some v => v | None => f s end) ->
  forall l s, f (fold_left step l s) = latest g (f s) l.
Proof. intros H. unfold latest. induction l as [|o l IH]; intros s; [reflexivity|]. cbn [fold_left]. rewrite IH, H. reflexivity. Qed.

Lemma hm_get_ins {V} k j (v : V) m : hm_get k (hm_ins j v m) = if str_eqb j k then Some v else hm_get k m.
Proof.
  induction m as [|[i w] m IH]; [reflexivity|]. cbn [hm_ins hm_get]. destruct (str_eqb_spec i j) as [->|N1]; cbn [hm_get].
  - destruct (str_eqb j k); reflexivity.
  - rewrite IH. destruct (str_eqb_spec i k) as [->|N2]; [|reflexivity]. destruct (str_eqb_spec j k); [congruence|reflexivity].
Qed.
Lemma hm_get_map {V W} (g : V -> W) k (m : list (str * V)) : hm_get k (map (fun x => (fst x, g (snd x))) m) = option_map g (hm_get k m).
Proof. induction m as [|[i w] m IH]; [reflexivity|]. cbn [map hm_get fst snd]. destruct (str_eqb i k); [reflexivity|exact IH]. Qed.

Lemma cells_same s : with_cells s (cells s) = s. Proof. destruct s; reflexivity. Qed.
Lemma sheet_same s : with_sheet s (se_sheet s) = s. Proof. destruct s; reflexivity. Qed.

Section Hand.
Variable lower : str -> str.

Lemma perform_app a : forall s b, perform lower s (a ++ b) = match perform lower s a with Some (s, None) => perform lower s b | x => x end.
Proof.
  induction a as [|o a IH]; intros s b; [reflexivity|]. cbn [app perform]. destruct (sstep lower s o) as [[s1 [e|]]|]; [reflexivity|apply IH|reflexivity].
Qed.
Lemma perform_cells ops : forall s w, perform lower (with_cells s w) (map SCell ops) = lift s (write_all w ops).
Proof.
  induction ops as [|o ops IH]; intros s w; [reflexivity|]. cbn [map perform sstep write_all]. unfold lift at 1. cbn [cells with_cells].
  destruct (step w o) as [w1 [e|]]; cbn [fst snd option_map]; [reflexivity|exact (IH s w1)].
Qed.
Lemma hand_app a : forall recent b, all_by_hand recent (a ++ b) = all_by_hand recent a ++ all_by_hand (rev a ++ recent) b.
Proof.
  induction a as [|e a IH]; intros recent b; [reflexivity|]. cbn [app all_by_hand rev]. rewrite IH, <- !app_assoc. reflexivity.
Qed.

(** ** The state and the events agree *)
Definition found (x : field) : N * option Format := (fl_col x, fl_value_format x).
Definition placed (col : N) (x : N * column) : N * option Format := (col + fst x, co_value_format (snd x)).
Definition agrees (recent : list event) (n : str) (h : heading) (k : N) (a : area) : Prop :=
  a_min_row a = h_row h /\ a_min_col a = h_col h /\ a_max_row a = first_record h + k /\ a_max_col a = last_column h /\
  a_table a = table_due n recent /\
  forall f, option_map found (hm_get f (a_fields a)) = option_map (placed (h_col h)) (place f 0 (h_columns h)).
Definition tracks (recent : list event) (l : list (str * area)) : Prop := forall n,
  match area_of n recent with
  | None => hm_get n l = None
  | Some (h, k) => exists a, hm_get n l = Some a /\ agrees recent n h k a
  end.

Lemma tracks_record recent n es s : tracks recent (se_structs s) -> tracks (EvRecord n es :: recent) (se_structs (set_current_struct n s)).
Proof.
  intros T m. cbn [area_of]. pose proof (T m) as Tm. pose proof (T n) as Tn. cbn [set_current_struct se_structs].
  destruct (area_of m recent) as [[h k]|] eqn:Am.
  - destruct Tm as (a & Ga & A). destruct (str_eqb_spec n m) as [->|Nm].
    + rewrite Ga. exists (next_row a). rewrite hm_get_ins, str_eqb_refl. split; [reflexivity|]. destruct A as (A1 & A2 & A3 & A4 & A5 & A6).
      unfold agrees. cbn [next_row a_min_row a_min_col a_max_row a_max_col a_table a_fields table_due].
      split; [exact A1|]. split; [exact A2|]. split; [rewrite A3; lia|]. auto.
    + exists a. split; [|exact A]. destruct (hm_get n (se_structs s)) as [b|]; [|exact Ga]. rewrite hm_get_ins. destruct (str_eqb_spec n m); [congruence|exact Ga].
  - destruct (str_eqb_spec n m) as [->|Nm]; [rewrite Tm; exact Tm|]. destruct (hm_get n (se_structs s)) as [b|]; [|exact Tm].
    rewrite hm_get_ins. destruct (str_eqb_spec n m); [congruence|exact Tm].
Qed.

(** ** Values *)
Definition put_entry (e : entry) (s : ser) : out :=
  match e with EBool b => put (DBool b) s | ENumber x => put (DNumber x) s | EText t => put (DText t) s | ENothing => done s end.
Lemma ser_single : forall v e, single v = Some e -> forall s, serialize v s = put_entry e s.
Proof.
  induction v; cbn [single]; intros e H s'; try discriminate; try (injection H as <-; reflexivity); cbn [serialize]; auto.
Qed.

(** One field of the record being serialized: the state is that after the start
    of the record. *)
Lemma put_is n h k a e f recent s : hm_get (se_struct s) (se_structs s) = Some a -> agrees recent n h (k + 1) a -> se_field s = f ->
  exists x y, put_entry e s = Some (with_sheet s x, option_map SdSheet y) /\
    perform lower (se_sheet s) (match place f 0 (h_columns h) with
                                | Some (i, c) => entry_ops (first_record h + k) (h_col h + i) e (co_value_format c)
                                | None => [] end) = Some (x, y).
Proof.
  intros G (_ & _ & M & _ & _ & P) <-. specialize (P (se_field s)).
  assert (D : forall d, put d s = match place (se_field s) 0 (h_columns h) with
                        | Some (i, c) => on_sheet s (lift (se_sheet s) (step (cells (se_sheet s)) (data_op (first_record h + k) (h_col h + i) d (co_value_format c))))
                        | None => done s end).
  { intros d. unfold put. rewrite G. destruct (hm_get (se_field s) (a_fields a)) as [x|], (place (se_field s) 0 (h_columns h)) as [[i c]|]; try discriminate; [|reflexivity].
    cbn [option_map found placed fst snd] in P. injection P as P1 P2. rewrite M, P1, P2. replace (first_record h + (k + 1) =? 0) with false by lia.
    replace (first_record h + (k + 1) - 1) with (first_record h + k) by lia. reflexivity. }
  destruct e as [b|x|t|]; cbn [put_entry]; rewrite ?D.
  4: { exists (se_sheet s), None. rewrite sheet_same. split; [reflexivity|]. destruct (place _ _ _) as [[i c]|]; reflexivity. }
  all: destruct (place _ _ _) as [[i c]|]; cbn [entry_ops perform sstep];
    [|exists (se_sheet s), None; rewrite sheet_same; split; reflexivity].
  all: cbn [data_op]; unfold lift, on_sheet; match goal with |- context [step ?w ?o] => destruct (step w o) as [w1 [er|]] end; cbn [fst snd option_map];
    [eexists _, (Some _)|eexists _, None]; split; reflexivity.
Qed.

Definition fields_go := (fix go (l : list (str * value)) (s : ser) : out :=
       match l with [] => done s | (k, x) :: r => and_then (serialize x (with_field s k)) (go r) end).
Lemma fields_is n h k a recent : forall l es s, singles l = Some es -> hm_get (se_struct s) (se_structs s) = Some a -> agrees recent n h (k + 1) a ->
  exists s' y, fields_go l s = Some (s', option_map SdSheet y) /\ se_structs s' = se_structs s /\
    perform lower (se_sheet s) (flat_map (fun x => match place (fst x) 0 (h_columns h) with
                       | Some (i, c) => entry_ops (first_record h + k) (h_col h + i) (snd x) (co_value_format c)
                       | None => [] end) es) = Some (se_sheet s', y).
Proof.
  induction l as [|[f v] l IH]; intros es s E G A; cbn [singles] in E.
  - injection E as <-. exists s, None. auto.
  - destruct (single v) as [e|] eqn:Ev; [|discriminate]. destruct (singles l) as [es'|] eqn:El; [|discriminate]. injection E as <-.
    cbn [fields_go flat_map fst snd]. rewrite perform_app. rewrite (ser_single v e Ev).
    destruct (put_is n h k a e f recent (with_field s f) G A eq_refl) as (x & y & -> & P).
    change (se_sheet (with_field s f)) with (se_sheet s) in P. rewrite P.
    destruct y as [y|]; cbn [option_map and_then].
    + exists (with_sheet (with_field s f) x), (Some y). auto.
    + destruct (IH es' (with_sheet (with_field s f) x) eq_refl G A) as (s' & y & -> & S & P'). exists s', y. split; [reflexivity|]. split; [exact S|exact P'].
Qed.
(** No area for the struct: nothing is written. *)
Lemma put_nowhere e s : hm_get (se_struct s) (se_structs s) = None -> put_entry e s = done s.
Proof. intros G. destruct e; cbn [put_entry]; unfold put; rewrite ?G; reflexivity. Qed.
Lemma fields_nowhere : forall l es s, singles l = Some es -> hm_get (se_struct s) (se_structs s) = None ->
  exists s', fields_go l s = done s' /\ se_structs s' = se_structs s /\ se_sheet s' = se_sheet s.
Proof.
  induction l as [|[f v] l IH]; intros es s E G; cbn [singles] in E.
  - exists s. auto.
  - destruct (single v) as [e|] eqn:Ev; [|discriminate]. destruct (singles l) as [es'|] eqn:El; [|discriminate].
    cbn [fields_go]. rewrite (ser_single v e Ev). rewrite put_nowhere by exact G. cbn [and_then done].
    destruct (IH es' (with_field s f) eq_refl G) as (s' & -> & A & B). exists s'. auto.
Qed.

Lemma record_is n l es recent s : singles l = Some es -> tracks recent (se_structs s) ->
  exists s' y, serialize (SVStruct n l) s = Some (s', option_map SdSheet y) /\
    perform lower (se_sheet s) (record_ops recent n es) = Some (se_sheet s', y) /\
    tracks (EvRecord n es :: recent) (se_structs s').
Proof.
  intros E T. change (serialize (SVStruct n l) s) with (fields_go l (set_current_struct n s)).
  pose proof (tracks_record recent n es s T) as T'. pose proof (T' n) as Tn. cbn [area_of] in Tn. rewrite str_eqb_refl in Tn.
  unfold record_ops. destruct (area_of n recent) as [[h k]|].
  - destruct Tn as (a & Ga & A). destruct (fields_is n h k a (EvRecord n es :: recent) l es (set_current_struct n s) E Ga A) as (s' & y & -> & S & P).
    exists s', y. split; [reflexivity|]. split; [exact P|]. rewrite S. exact T'.
  - destruct (fields_nowhere l es (set_current_struct n s) E Tn) as (s' & -> & S & P). exists s', None. split; [reflexivity|]. split; [rewrite P; reflexivity|]. rewrite S. exact T'.
Qed.

Definition seq_go := (fix go (l : list value) (s : ser) : out := match l with [] => done s | x :: r => and_then (serialize x s) (go r) end).
Definition all_records := (fix all (l : list value) : option (list (str * list (str * entry))) :=
       match l with
       | [] => Some []
       | x :: r => match records x, all r with Some a, Some b => Some (a ++ b) | _, _ => None end
       end).
Definition made (recent : list event) (rs : list (str * list (str * entry))) (s : ser) (o : out) : Prop :=
  exists s' y, o = Some (s', option_map SdSheet y) /\
    perform lower (se_sheet s) (all_by_hand recent (map record_event rs)) = Some (se_sheet s', y) /\
    (y = None -> tracks (rev (map record_event rs) ++ recent) (se_structs s')).
Lemma made_seq l : (forall x, In x l -> forall rs, records x = Some rs -> forall recent s, tracks recent (se_structs s) -> made recent rs s (serialize x s)) ->
  forall rs, all_records l = Some rs -> forall recent s, tracks recent (se_structs s) -> made recent rs s (seq_go l s).
Proof.
  induction l as [|x l IH]; intros H rs E recent s T; cbn [all_records] in E.
  - injection E as <-. exists s, None. auto.
  - destruct (records x) as [r1|] eqn:E1; [|discriminate]. destruct (all_records l) as [r2|] eqn:E2; [|discriminate]. injection E as <-.
    destruct (H x (or_introl eq_refl) r1 E1 recent s T) as (s1 & y & Ex & P & T1). unfold made. rewrite map_app, hand_app, perform_app, P.
    cbn [seq_go]. rewrite Ex. destruct y as [y|]; cbn [option_map and_then].
    + exists s1, (Some y). split; [reflexivity|]. split; [reflexivity|discriminate].
    + destruct (IH (fun z Hz => H z (or_intror Hz)) r2 eq_refl _ s1 (T1 eq_refl)) as (s2 & y & -> & P2 & T2). exists s2, y. split; [reflexivity|]. split; [exact P2|].
      intros Y. rewrite rev_app_distr, <- app_assoc. exact (T2 Y).
Qed.
Lemma made_value : forall v rs, records v = Some rs -> forall recent s, tracks recent (se_structs s) -> made recent rs s (serialize v s).
Proof.
  fix IH 1. intros v. destruct v; cbn [records]; try (intros; discriminate); try exact (IH v).
  1-3: refine (made_seq l _); induction l as [|x l IHl]; [intros ? []|]; intros z [<-|Hz]; [exact (IH x)|exact (IHl z Hz)].
  intros rs E recent s T. destruct (singles l) as [es|] eqn:El; [|discriminate]. injection E as <-.
  destruct (record_is name l es recent s El T) as (s' & y & Es & P & T'). exists s', y. split; [exact Es|]. cbn [map record_event fst snd all_by_hand by_hand rev app].
  rewrite app_nil_r. auto.
Qed.

(** ** Headings *)
Definition as_column (x : field) : column :=
  {| co_field := fl_field x; co_header := fl_header x; co_header_format := fl_header_format x; co_column_format := fl_column_format x;
     co_value_format := fl_value_format x;
     co_width := match fl_width x, fl_pixels x with Some w, _ => Some (WCharacters w) | None, Some n => Some (WPixels n) | None, None => None end |}.
Definition kept_fields (l : list field) : list field := filter (fun x => negb (fl_skip x)) l.

Lemma columns_is h o sh : o_has o = h_shown h -> o_format o = h_format h -> forall l off mc fs w w' e fs' mc',
  store_columns l (h_row h) (h_col h) off mc o fs w = Some (w', e, fs', mc') ->
  perform lower (with_cells sh w) (heading_ops h off (map as_column (kept_fields l))) = Some (with_cells sh w', option_map SE e) /\
  (e = None ->
   (mc' = match kept_fields l with [] => mc | _ => h_col h + off + (N.of_nat (length (kept_fields l)) - 1) end) /\
   forall f, option_map found (hm_get f fs') = match place f off (map as_column (kept_fields l)) with
                                               | Some x => Some (placed (h_col h) x) | None => option_map found (hm_get f fs) end).
Proof.
  intros Hs Hf. induction l as [|x l IH]; intros off mc fs w w' e fs' mc'; cbn [store_columns kept_fields filter].
  - intros [= <- <- <- <-]. split; [reflexivity|]. intros _. split; reflexivity.
  - destruct (fl_skip x); cbn [negb]; [apply IH|]. destruct (65535 <? _); [discriminate|].
    cbn [map heading_ops]. rewrite perform_app.
    replace (match co_width (as_column x) with _ => _ end ++ _) with (column_ops (h_row h) o x (h_col h + off)).
    2: { unfold column_ops. rewrite Hs, Hf. cbn [as_column co_width co_column_format co_header co_header_format]. destruct (fl_width x), (fl_pixels x); reflexivity. }
    rewrite perform_cells. unfold lift. destruct (write_all w _) as [w1 [e1|]]; cbn [fst snd option_map].
    + intros [= <- <- <- <-]. split; [reflexivity|discriminate].
    + intros H. apply IH in H as [P Q]. split; [exact P|]. intros E. destruct (Q E) as [Q1 Q2]. split.
      * fold (kept_fields l). rewrite Q1. destruct (kept_fields l); cbn [length]; lia.
      * intros f. rewrite Q2. fold (kept_fields l). cbn [map place]. destruct (place f (off + 1) _) as [y|]; [reflexivity|].
        rewrite hm_get_ins. cbn [as_column co_field]. destruct (str_eqb (fl_field x) f); reflexivity.
Qed.

Definition heading_for (row col : N) (o : options) : heading :=
  {| h_name := o_struct o; h_row := row; h_col := col; h_shown := o_has o; h_format := o_format o;
     h_columns := map as_column (kept_fields (o_headers o));
     h_table := match o_table o with
                | Some t => Some {| t_columns := t_columns t; t_name := t_name t; t_header := t_header t && o_has o; t_total := t_total t;
                                    t_autofilter := t_autofilter t; t_serde := true; t_range := t_range t |}
                | None => None end |}.

Definition on_events (recent : list event) (es : list event) (s s' : ser) : Prop :=
  perform lower (se_sheet s) (all_by_hand recent es) = Some (se_sheet s', None) /\ tracks (rev es ++ recent) (se_structs s').

Lemma table_is recent n h k a t s : area_of n recent = Some (h, k) -> agrees recent n h k a -> a_table a = Some t -> a_max_row a <> 0 ->
  write_area_table lower s a t = on_sheet s (perform lower (se_sheet s) (table_ops recent n)).
Proof.
  intros Ar (A1 & A2 & A3 & A4 & A5 & _) Ht M. unfold write_area_table, table_ops. rewrite Ar, <- A5, Ht. replace (a_max_row a =? 0) with false by lia.
  rewrite <- A1, <- A2, <- A3, <- A4. cbn [perform sstep].
  replace (if t_total t then a_max_row a - 1 + 1 else a_max_row a - 1) with (a_max_row a - 1 + (if t_total t then 1 else 0)) by (destruct (t_total t); lia).
  destruct (add_table _ _ _ _ _ _ _) as [[x [e|]]|]; reflexivity.
Qed.

Lemma heading_is row col o s s' recent : tracks recent (se_structs s) -> store_custom_headers lower row col o s = Some (s', None) ->
  on_events recent [EvHeading (heading_for row col o)] s s'.
Proof.
  intros T. unfold store_custom_headers. destruct (negb _); [discriminate|]. destruct (o_struct o) as [|c n] eqn:En; [discriminate|]. rewrite <- En. clear En c n.
  destruct (o_headers o) as [|c n] eqn:En; [discriminate|]. rewrite <- En. clear En c n.
  set (h := heading_for row col o).
  destruct (store_columns _ _ _ _ _ _ _ _) as [[[[w [e|]] fs] mc]|] eqn:SC; [discriminate| |discriminate].
  destruct (columns_is h o (se_sheet s) eq_refl eq_refl (o_headers o) 0 col [] (cells (se_sheet s)) w None fs mc SC) as [P Q].
  rewrite cells_same in P. destruct (Q eq_refl) as [Q1 Q2]. clear Q.
  set (s1 := with_sheet s (with_cells (se_sheet s) w)). intros H. unfold on_events. cbn [all_by_hand by_hand]. rewrite app_nil_r, perform_app.
  change (h_columns h) with (map as_column (kept_fields (o_headers o))). rewrite P. cbn [option_map]. clear P.
  change (h_name h) with (o_struct o).
  set (former := match hm_get (o_struct o) (se_structs s1) with
           | Some a => match a_table a with
                       | Some t => write_area_table lower (with_structs s1 (hm_ins (o_struct o) (no_table a) (se_structs s1))) a t
                       | None => done s1 end
           | None => done s1 end) in H.
  assert (F : forall s2, former = Some (s2, None) ->
    perform lower (with_cells (se_sheet s) w) (table_ops recent (o_struct o)) = Some (se_sheet s2, None) /\
    forall m, m <> o_struct o -> hm_get m (se_structs s2) = hm_get m (se_structs s)).
  { intros s2. unfold former. change (se_structs s1) with (se_structs s). pose proof (T (o_struct o)) as Tn.
    destruct (area_of (o_struct o) recent) as [[h0 k0]|] eqn:Ar.
    - destruct Tn as (a & Ga & A). rewrite Ga. destruct (a_table a) as [t|] eqn:Et.
      + destruct (N.eq_dec (a_max_row a) 0) as [Z|NZ]; [unfold write_area_table; rewrite Z; discriminate|].
        rewrite (table_is recent (o_struct o) h0 k0 a t _ Ar A Et NZ). change (se_sheet (with_structs s1 _)) with (with_cells (se_sheet s) w).
        destruct (perform lower (with_cells (se_sheet s) w) _) as [[x [e|]]|]; try discriminate. intros [= <-]. split; [reflexivity|].
        intros m Hm. cbn [se_structs with_sheet with_structs]. rewrite hm_get_ins. destruct (str_eqb_spec (o_struct o) m); [congruence|reflexivity].
      + intros [= <-]. destruct A as (_ & _ & _ & _ & A5 & _). unfold table_ops. rewrite Ar, <- A5, Et. split; reflexivity.
    - rewrite Tn. intros [= <-]. unfold table_ops. rewrite Ar. split; reflexivity. }
  destruct former as [[s2 [e|]]|]; try discriminate. cbn [and_then done] in H. destruct (F s2 eq_refl) as [F1 F2]. rewrite F1.
  injection H as H. subst s'. split; [reflexivity|]. cbn [rev app with_structs se_structs].
  intros m. cbn [area_of]. change (h_name h) with (o_struct o). rewrite hm_get_ins. destruct (str_eqb_spec (o_struct o) m) as [<-|Nm].
  - eexists. split; [reflexivity|]. unfold agrees. cbn [a_min_row a_min_col a_max_row a_max_col a_table a_fields table_due]. change (h_name h) with (o_struct o).
    rewrite str_eqb_refl. split; [reflexivity|]. split; [reflexivity|].
    split; [unfold first_record; cbn [h h_shown h_row heading_for]; destruct (o_has o); lia|].
    split.
    { rewrite Q1. unfold last_column. cbn [h h_columns h_col heading_for]. rewrite map_length. destruct (kept_fields _); cbn [length]; lia. }
    split; [cbn [h h_table heading_for]; destruct (o_table o) as [t|]; [|reflexivity]; destruct (o_has o), (t_header t); reflexivity|].
    intros f. rewrite Q2. cbn [h h_columns h_col heading_for]. destruct (place f 0 _) as [[i c]|]; reflexivity.
  - pose proof (T m) as Tm. destruct (area_of m recent) as [[h1 k1]|].
    + destruct Tm as (a & Ga & A). exists a. rewrite F2 by congruence. split; [exact Ga|]. unfold agrees in *. cbn [table_due].
      change (h_name h) with (o_struct o). destruct (str_eqb_spec (o_struct o) m); [congruence|]. exact A.
    + rewrite F2 by congruence. exact Tm.
Qed.

(** ** The columns of a heading *)
Lemma field_of_name x : fl_field (field_of x) = fst x.
Proof.
  unfold field_of. rewrite (latest_fold fl_field (fun _ => None) fcall_step).
  - cbn [field_new fl_field]. unfold latest. induction (snd x); [reflexivity|assumption].
  - intros s [] ; reflexivity.
Qed.
Ltac fld := intros s []; reflexivity.
Lemma field_of_skip x : fl_skip (field_of x) = skipped x.
Proof. unfold field_of, skipped. rewrite (latest_fold fl_skip (fun c => match c with FSkip b => Some b | _ => None end)) by fld. reflexivity. Qed.
Lemma field_of_column x : as_column (field_of x) = column_of x.
Proof.
  unfold as_column. rewrite field_of_name. unfold field_of, column_of.
  rewrite (latest_fold fl_header (fun c => match c with FRename s => Some s | _ => None end)) by fld.
  rewrite (latest_fold fl_header_format (fun c => match c with FHeaderFormat f => Some (Some f) | _ => None end)) by fld.
  rewrite (latest_fold fl_column_format (fun c => match c with FColumnFormat f => Some (Some f) | _ => None end)) by fld.
  rewrite (latest_fold fl_value_format (fun c => match c with FValueFormat f => Some (Some f) | _ => None end)) by fld.
  rewrite (latest_fold fl_width (fun c => match c with FWidth f => Some (Some f) | _ => None end)) by fld.
  rewrite (latest_fold fl_pixels (fun c => match c with FPixels f => Some (Some f) | _ => None end)) by fld.
  reflexivity.
Qed.
Lemma kept_is l : map as_column (kept_fields (map field_of l)) = kept l.
Proof.
  unfold kept_fields, kept. induction l as [|x l IH]; [reflexivity|]. cbn [map filter]. rewrite field_of_skip. destruct (skipped x); cbn [negb]; [exact IH|].
  cbn [map]. rewrite field_of_column, IH. reflexivity.
Qed.
Lemma plain_is l : map as_column (kept_fields (map field_new l)) = map plain_column l.
Proof. unfold kept_fields. induction l as [|x l IH]; [reflexivity|]. cbn [map filter field_new fl_skip negb]. rewrite IH. reflexivity. Qed.

Lemma latest_folded {A B O S} (f : S -> B) (G : A -> B) (g : O -> option A) (step : S -> O -> S) :
  (forall s o, f (step s o) = match g o with Some v => G v | None => f s end) ->
  forall l s d, f s = G d -> f (fold_left step l s) = G (latest g d l).
Proof.
  intros H. unfold latest. induction l as [|o l IH]; intros s d E; [exact E|]. cbn [fold_left]. apply IH. rewrite H. destruct (g o); [reflexivity|exact E].
Qed.
Lemma options_headers o : o_headers (options_of o) = map field_of (customs o).
Proof.
  unfold options_of, customs. apply (latest_folded o_headers (map field_of) (fun c => match c with OCustom l => Some l | _ => None end)); [|reflexivity].
  intros s []; reflexivity.
Qed.
Lemma options_only o : o_only (options_of o) = customs_only o.
Proof. unfold options_of, customs_only. rewrite (latest_fold o_only (fun c => match c with OOnly b => Some b | _ => None end)) by fld. reflexivity. Qed.
Lemma options_has o : o_has (options_of o) = latest (fun c => match c with OHideHeaders b => Some (negb b) | _ => None end) true o.
Proof. unfold options_of. rewrite (latest_fold o_has (fun c => match c with OHideHeaders b => Some (negb b) | _ => None end)) by fld. reflexivity. Qed.
Lemma options_format o : o_format (options_of o) = latest (fun c => match c with OHeaderFormat f => Some (Some f) | _ => None end) None o.
Proof. unfold options_of. rewrite (latest_fold o_format (fun c => match c with OHeaderFormat f => Some (Some f) | _ => None end)) by fld. reflexivity. Qed.
Lemma options_table o : o_table (options_of o) = latest (fun c => match c with OTable f => Some (Some f) | _ => None end) None o.
Proof. unfold options_of. rewrite (latest_fold o_table (fun c => match c with OTable f => Some (Some f) | _ => None end)) by fld. reflexivity. Qed.
Lemma options_struct o : o_struct (options_of o) = latest (fun c => match c with OStructName f => Some f | _ => None end) [] o.
Proof. unfold options_of. rewrite (latest_fold o_struct (fun c => match c with OStructName f => Some f | _ => None end)) by fld. reflexivity. Qed.

Lemma custom_is name o : custom_for name (o_headers (options_of o)) = option_map field_of (custom name o).
Proof.
  rewrite options_headers. unfold custom_for, custom, latest. change (@None field) with (option_map field_of None). generalize (@None (str * list fcall)) as d.
  induction (customs o) as [|x r IH]; intros d; [reflexivity|]. cbn [map fold_left]. rewrite field_of_name. destruct (str_eqb (fst x) name); [exact (IH (Some x))|exact (IH d)].
Qed.
Lemma kept_app a b : kept_fields (a ++ b) = kept_fields a ++ kept_fields b. Proof. apply filter_app. Qed.
Lemma chosen_is fields o :
  map as_column (kept_fields (if o_only (options_of o) then o_headers (options_of o)
      else flat_map (fun name => match custom_for name (o_headers (options_of o)) with
                                 | Some f => if fl_skip f then [] else [f]
                                 | None => [field_new name] end) fields)) = columns fields o.
Proof.
  unfold columns. rewrite options_only. destruct (customs_only o); [rewrite options_headers; apply kept_is|].
  induction fields as [|n fields IH]; [reflexivity|]. cbn [flat_map]. rewrite kept_app, map_app, IH, custom_is. f_equal. destruct (custom n o) as [x|]; [|reflexivity].
  cbn [option_map]. unfold kept. cbn [filter]. rewrite field_of_skip. destruct (skipped x) eqn:E; [reflexivity|]. cbn [negb map kept_fields filter]. rewrite field_of_skip, E. cbn [negb map].
  rewrite field_of_column. reflexivity.
Qed.

Lemma headings_with row col name fields cols o : map as_column (kept_fields fields) = cols ->
  heading_for row col {| o_struct := name; o_format := o_format (options_of o); o_has := o_has (options_of o); o_headers := fields;
                         o_only := o_only (options_of o); o_table := o_table (options_of o) |} = heading_with row col name cols o.
Proof.
  intros <-. unfold heading_for, heading_with. cbn [o_struct o_format o_has o_headers o_table]. rewrite options_has, options_format, options_table. reflexivity.
Qed.

(** ** Saving *)
Lemma tables_are recent s0 : tracks recent (se_structs s0) -> forall order s s',
  existsb (fun x => a_max_row (fst x) =? 0) (pending_tables order s0) = false ->
  write_tables lower (pending_tables order s0) s = Some (s', None) ->
  perform lower (se_sheet s) (flat_map (table_ops recent) order) = Some (se_sheet s', None) /\ se_structs s' = se_structs s.
Proof.
  intros T. induction order as [|n order IH]; intros s s' Z W; [injection W as <-; split; reflexivity|].
  unfold pending_tables in *. cbn [flat_map] in *. rewrite perform_app. pose proof (T n) as Tn. destruct (area_of n recent) as [[h k]|] eqn:Ar.
  - destruct Tn as (a & Ga & A). rewrite Ga in Z, W. destruct (a_table a) as [t|] eqn:Et.
    + cbn [app existsb fst] in Z. apply orb_false_iff in Z as [Z1 Z2]. apply N.eqb_neq in Z1. cbn [app write_tables] in W.
      rewrite (table_is recent n h k a t s Ar A Et Z1) in W. destruct (perform lower (se_sheet s) (table_ops recent n)) as [[x [e|]]|]; try discriminate.
      cbn [on_sheet option_map and_then] in W. destruct (IH _ _ Z2 W) as [I1 I2]. split; [exact I1|rewrite I2; reflexivity].
    + cbn [app] in Z, W. destruct A as (_ & _ & _ & _ & A5 & _). unfold table_ops at 1. rewrite Ar, <- A5, Et. cbn [perform]. exact (IH _ _ Z W).
  - rewrite Tn in Z, W. cbn [app] in Z, W. unfold table_ops at 1. rewrite Ar. cbn [perform]. exact (IH _ _ Z W).
Qed.
Lemma tracks_saved recent order s : tracks recent (se_structs s) -> tracks (EvSave order :: recent) (se_structs (take_tables s)).
Proof.
  intros T n. cbn [area_of take_tables with_structs se_structs]. rewrite hm_get_map. pose proof (T n) as Tn. destruct (area_of n recent) as [[h k]|].
  - destruct Tn as (a & -> & A1 & A2 & A3 & A4 & _ & A6). exists (no_table a). split; [reflexivity|]. unfold agrees. cbn [no_table a_min_row a_min_col a_max_row a_max_col a_table a_fields table_due]. auto 10.
  - rewrite Tn. reflexivity.
Qed.

(** ** Every call *)
Lemma call_is c es recent s s' : events_of c = Some es -> tracks recent (se_structs s) -> call_step lower c s = Some (s', None) -> on_events recent es s s'.
Proof.
  intros E T H. destruct c as [row col v f|row col v o|row col n l f|row col n l o|row col o|v|o|order]; cbn [events_of] in E; cbn [call_step] in H.
  - destruct v; try discriminate. injection E as <-. unfold store_headers in H. apply (heading_is _ _ _ _ _ recent T) in H.
    unfold heading_for in H. cbn [o_struct o_format o_has o_headers o_table headers_of headers fst snd app] in H. rewrite plain_is in H. exact H.
  - destruct v; try discriminate. injection E as <-. unfold store_headers_with in H. destruct (negb _); [discriminate|].
    apply (heading_is _ _ _ _ _ recent T) in H. cbn [headers_of headers fst snd app] in H. rewrite (headings_with _ _ _ _ _ o (chosen_is (map fst l) o)) in H. exact H.
  - injection E as <-. unfold store_headers in H. apply (heading_is _ _ _ _ _ recent T) in H.
    unfold heading_for in H. cbn [o_struct o_format o_has o_headers o_table fst snd] in H. rewrite plain_is in H. exact H.
  - injection E as <-. unfold store_headers_with in H. destruct (negb _); [discriminate|].
    apply (heading_is _ _ _ _ _ recent T) in H. cbn [fst snd] in H. rewrite (headings_with _ _ _ _ _ o (chosen_is l o)) in H. exact H.
  - injection E as <-. apply (heading_is _ _ _ _ _ recent T) in H. rewrite <- (headings_with row col _ (o_headers (options_of o)) _ o).
    2: rewrite options_headers; apply kept_is. rewrite <- options_struct. exact H.
  - destruct (records v) as [rs|] eqn:Ev; [|discriminate]. injection E as <-. destruct (made_value v rs Ev recent s T) as (s1 & y & Es & P & T1). rewrite Es in H.
    destruct y; [discriminate|]. injection H as <-. split; [exact P|]. exact (T1 eq_refl).
  - injection E as <-. unfold on_events. cbn [all_by_hand by_hand app rev perform]. destruct (sstep lower (se_sheet s) o) as [[x [e|]]|]; try discriminate. injection H as <-.
    split; [reflexivity|]. intros n. pose proof (T n) as Tn. cbn [area_of]. exact Tn.
  - injection E as <-. unfold store_tables in H. destruct (existsb _ _) eqn:Z; [discriminate|].
    destruct (tables_are recent s T order _ _ Z H) as [P S]. unfold on_events. cbn [all_by_hand by_hand rev app]. rewrite app_nil_r. split; [exact P|]. rewrite S. apply tracks_saved. exact T.
Qed.

Lemma history_is : forall calls es recent s s', all_events calls = Some es -> tracks recent (se_structs s) -> succeeds lower s calls = Some s' -> on_events recent es s s'.
Proof.
  induction calls as [|c calls IH]; intros es recent s s' E T H; cbn [all_events succeeds] in *.
  - injection E as <-. injection H as <-. split; [reflexivity|exact T].
  - destruct (events_of c) as [e1|] eqn:E1; [|discriminate]. destruct (all_events calls) as [e2|] eqn:E2; [|discriminate]. injection E as <-.
    destruct (call_step lower c s) as [[s1 [e|]]|] eqn:C; try discriminate. destruct (call_is _ _ _ _ _ E1 T C) as [P T1].
    destruct (IH e2 _ s1 s' eq_refl T1 H) as [P2 T2]. split; [rewrite hand_app, perform_app, P; exact P2|]. rewrite rev_app_distr, <- app_assoc. exact T2.
Qed.
Lemma tracks_new x : tracks [] (se_structs (ser_new x)). Proof. intros n. reflexivity. Qed.
End Hand.
