(** The metadata records in the rows of a saved sheet. *)
From Verif Require Import Base SMap F64 Fmt_Model Xml_Model Xml_Spec Sst_Model Ref_Model Cells_Model Cells_Spec Cells_Proofs Cells_Proofs2 Cells_Inv Cells_Save Cells_Hist
  Props_Cells SheetXml_Spec SheetXml_Proofs3 SheetXml_Proofs5 SheetXml_Proofs6 Embed_Model Embed_Hist Embed_Hist2.

Lemma meta_cols w g ro c cs : ok cs ->
  flat_map (meta_at c) (flat_map (emit_cell w g ro) cs) =
  match get c cs with Some x => map (fun y : N * cell * N => cell_meta (snd (fst y))) (emit_cell w g ro (c, x)) | None => [] end.
Proof.
  rewrite flat_map_flat. unfold ok. induction cs as [|[j x] cs IH]; intros Hok; [reflexivity|].
  cbn [keys map fst] in Hok. inversion Hok as [|? ? Hs Hf]; subst. cbn [flat_map get].
  destruct (N.eqb_spec j c) as [->|Hne].
  - rewrite (flat_map_nil (fun x => flat_map (meta_at c) (emit_cell w g ro x)) cs), app_nil_r.
    + generalize (emit_cell_col w g ro (c, x)). generalize (emit_cell w g ro (c, x)). cbn [fst].
      induction l as [|[[c' k'] x'] l IHl]; intros Hc; [reflexivity|]. cbn [flat_map map].
      rewrite IHl by (intros; apply Hc; right; assumption).
      pose proof (Hc _ (or_introl eq_refl)) as E. cbn in E. subst c'. unfold meta_at. cbn [fst snd]. rewrite N.eqb_refl. reflexivity.
    + intros [c' x'] Hin. apply flat_map_nil. intros [[c2 k2] x2] Hin2. apply emit_cell_col in Hin2. unfold meta_at. cbn [fst snd] in *. subst c2.
      destruct (N.eqb_spec c' c) as [->|]; [|reflexivity]. exfalso.
      rewrite Forall_forall in Hf. apply (in_map fst) in Hin. specialize (Hf _ Hin). cbn in Hf. lia.
  - rewrite (flat_map_nil (meta_at c)).
    + apply IH. assumption.
    + intros [[c2 k2] x2] Hin2. apply emit_cell_col in Hin2. unfold meta_at. cbn [fst snd] in *. subst c2.
      destruct (N.eqb_spec j c); [contradiction|reflexivity].
Qed.
Lemma metas_table w g r c : table_ok (data w) ->
  metas (write_data_table w g) r c =
  if (first_row w <=? r) && (r <=? last_row w) then
    match table_get r c (data w) with
    | Some x => map (fun y : N * cell * N => cell_meta (snd (fst y))) (emit_cell w g (get r (changed_rows w)) (c, x))
    | None => [] end
  else [].
Proof.
  intros Hok. unfold metas, write_data_table. rewrite flat_map_flat.
  rewrite (flat_map_pick _ r).
  - assert (existsb (N.eqb r) (range_incl (first_row w) (last_row w)) = (first_row w <=? r) && (r <=? last_row w)) as ->.
    { apply eq_true_iff_eq. rewrite existsb_exists. split.
      - intros (x & Hx & E). apply N.eqb_eq in E as <-. apply in_range_incl in Hx. lia.
      - intros H. exists r. split; [apply in_range_incl; lia|apply N.eqb_refl]. }
    destruct ((first_row w <=? r) && (r <=? last_row w)); [|reflexivity].
    unfold emit_row, table_get. destruct (get r (data w)) as [cs|] eqn:E.
    + cbn [flat_map]. cbn [o_row]. rewrite N.eqb_refl, app_nil_r. apply meta_cols. apply Hok in E. assumption.
    + destruct (match get r (changed_rows w) with Some _ => true | None => mem r (notes w) end); [|reflexivity].
      cbn [flat_map]. cbn [o_row]. rewrite N.eqb_refl. reflexivity.
  - apply range_incl_nodup.
  - intros x _ Hx. unfold emit_row. destruct (get x (data w)) as [cs|].
    + cbn [flat_map o_row]. destruct (N.eqb_spec x r); [contradiction|reflexivity].
    + destruct (match get x (changed_rows w) with Some _ => true | None => mem x (notes w) end); [|reflexivity].
      cbn [flat_map o_row]. destruct (N.eqb_spec x r); [contradiction|reflexivity].
Qed.
(** Every metadata record of the sheet is that of a cell of the table. *)
Lemma meta_of_cell w t g r c mt : std w -> In mt (metas (sheet_rows w t g) r c) -> exists k x, table_get r c (data w) = Some (k, x) /\ mt = cell_meta k.
Proof.
  intros H Hin. unfold sheet_rows in Hin. destruct (saved_spec w t (d_ok w H) (d_flag w H)) as [Hok Hr]. rewrite metas_table in Hin by assumption.
  destruct (_ && _); [|destruct Hin]. specialize (Hr r). apply (rel_row_cell _ _ r c) in Hr.
  destruct (table_get r c (data (saved w t))) as [[k' x']|]; [|destruct Hin]. destruct (table_get r c (data w)) as [[k x]|]; [|destruct Hr].
  destruct Hr as [-> Hid]. exists k, x. split; [reflexivity|]. apply in_map_iff in Hin as ([[c1 k1] x1] & <- & Hin). cbn [fst snd].
  assert (Ek : k1 = k').
  { unfold emit_cell in Hin. destruct k' as [| |s [i|]| | | | |s raw [i|]| |]; cbn in Hin; try (destruct (0 <? _)); try contradiction; destruct Hin as [Hin|[]]; injection Hin as _ <- _; reflexivity. }
  subst k1. destruct k as [| |s [i|]| | | | |s raw [i|]| |]; cbn in Hid; try contradiction; subst; try reflexivity; destruct Hid as [i ->]; reflexivity.
Qed.
(** A cell with contents has exactly one. *)
Lemma metas_one w t g r c k x : std w -> covers w r c -> table_get r c (data w) = Some (k, x) -> contents k <> VBlank ->
  metas (sheet_rows w t g) r c = [cell_meta k].
Proof.
  intros H (Cv1 & Cv2) G Nb. pose proof (sheet_shown w t g r c H) as S. rewrite G in S. cbv zeta in S.
  unfold sheet_rows. destruct (saved_spec w t (d_ok w H) (d_flag w H)) as [Hok Hr]. destruct (saved_dims w t) as (E1 & E2 & _).
  rewrite metas_table by assumption. rewrite E1, E2. replace ((first_row w <=? r) && (r <=? last_row w)) with true by (symmetry; lia).
  specialize (Hr r). apply (rel_row_cell _ _ r c) in Hr. rewrite G in Hr.
  destruct (table_get r c (data (saved w t))) as [[k' x']|]; [|destruct Hr]. destruct Hr as [-> Hid].
  pose proof (d_cells w H) as (HC & _ & _).
  assert (Hk : match k with CInline _ => False | _ => True end).
  { unfold table_get in G. destruct (get r (data w)) as [cs|] eqn:Er; [|discriminate].
    pose proof (all_cols_get _ _ _ _ _ _ (all_table_get _ _ _ _ HC Er) G) as [_ Hk].
    rewrite (d_inl w H) in Hk. destruct k; try exact I. destruct Hk. discriminate. }
  unfold emit_cell. destruct k as [| |s [i|]| | | | |s raw [i|]| |]; cbn in Hid; try contradiction; subst; cbn; try reflexivity.
  - destruct Hid as [i ->]. reflexivity.
  - destruct Hid as [i ->]. reflexivity.
Qed.
Lemma shown_one w t g r c k x : std w -> covers w r c -> table_get r c (data w) = Some (k, x) -> contents k <> VBlank ->
  exists s, shown (sheet_rows w t g) r c = [(contents k, s)].
Proof.
  intros H (Cv1 & Cv2) G Nb. pose proof (sheet_shown w t g r c H) as S. rewrite G in S. cbv zeta in S.
  replace ((first_row w <=? r) && (r <=? last_row w)) with true in S by (symmetry; lia). destruct (contents k); try (eexists; exact S). congruence.
Qed.

(** Histories whose texts can be stored. *)
Definition eop_readable (o : eop) : Prop := match o with ECell o => op_readable o | EImage _ _ _ _ => True end.
Lemma estep_readable s log o s' e : J s log -> eop_readable o -> texts_ok (e_ws s) -> values_ok (e_ws s) -> estep s o = Some (s', e) ->
  texts_ok (e_ws s') /\ values_ok (e_ws s').
Proof.
  intros H R T V E. destruct (estep_ok s log o H) as (s1 & e1 & E1 & H1 & _ & _ & M & O). assert (X : s1 = s' /\ e1 = e) by (split; congruence). destruct X as [-> ->].
  destruct o as [o|row col x f].
  - destruct (step (e_ws s) o) as [w e'] eqn:Es. cbn [fst snd] in O. destruct O as [O1 O2]. subst w.
    split; [eapply step_texts|eapply step_values]; try eassumption; apply H.
  - destruct (image_place s x) as [[ids images] id]. destruct O as (_ & O & _). destruct (image_std _ _ _ _ _ _ _ (j_std _ _ H) O) as (_ & _ & S & D & C).
    split; [eapply texts_same; eassumption|]. intros r c k y G. rewrite D in G. destruct e as [[e|]|]; try (eapply V; exact G).
    destruct (here row col r c); [|eapply V; exact G]. destruct (C eq_refl) as [[y' G'] _]. rewrite G in G'. assert (k = CError id) by congruence. subst. exact I.
Qed.
Lemma erun_readable l : forall s log s', J s log -> Forall eop_readable l -> texts_ok (e_ws s) -> values_ok (e_ws s) -> erun s l = Some s' ->
  values_ok (e_ws s').
Proof.
  induction l as [|o l IH]; intros s log s' H R T V E; cbn [erun] in E; [injection E as <-; assumption|].
  destruct (estep_ok s log o H) as (s1 & e1 & E1 & H1 & _). rewrite E1 in E. pose proof (Forall_inv R) as R1. pose proof (Forall_inv_tail R) as R2.
  destruct (estep_readable _ _ _ _ _ H R1 T V E1) as [T' V']. eapply IH; eassumption.
Qed.
