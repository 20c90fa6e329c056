(** Histories with embedded images: what holds after any of them. *)
From Verif Require Import Base SMap F64 Fmt_Model Xml_Model Xml_Spec Sst_Model Ref_Model Cells_Model Cells_Spec Cells_Proofs Cells_Proofs2 Cells_Inv Cells_Save Cells_Hist
  Props_Cells SheetXml_Spec SheetXml_Proofs3 SheetXml_Proofs5 SheetXml_Proofs6 Pkg_Model Pkg_Proofs Rich_Model Embed_Model Embed_Proofs3 Embed_Hist.

(** The images embedded by the successful calls of a history, in order. *)
Fixpoint embeds (s : esheet) (l : list eop) : list image :=
  match l with
  | [] => []
  | o :: r => match estep s o with
              | Some (s', e) => match o, e with EImage _ _ x _, None => [x] | _, _ => [] end ++ embeds s' r
              | None => []
              end
  end.
Definition described (x : image) : bool := negb (is_nil (i_alt x)).

Record J (s : esheet) (log : list image) : Prop := {
  j_std : std (e_ws s);
  j_idx : indexed 0 (e_ids s) (e_images s);
  j_len : am_len (e_ids s) = N.of_nat (length (e_images s));
  j_find : forall h, find (same h) (e_images s) = find (same h) log;
  j_from : incl (e_images s) log;
  j_desc : e_described s = existsb described log;
  j_img : forall r c n x, table_get r c (data (e_ws s)) = Some (CError n, x) -> n < N.of_nat (length (e_images s));
  j_dyn : forall r c k x, table_get r c (data (e_ws s)) = Some (k, x) -> dynamic_cell k = true -> e_dynamic s = true;
  j_gsst : global_sst (e_ws s) = false;
  j_last : last_row (e_ws s) < Cells_Model.ROW_MAX }.

Lemma J_start : J (esheet_new ws_standard) [].
Proof. split; try reflexivity; try (intros; discriminate); try (intros x []); try apply std_start. apply indexed_nil. Qed.

Definition image_format (x : image) (f : option Format) : option Format :=
  match f with Some f => Some f | None => if i_linked x then Some format_hyperlink else None end.
(** The image the call leaves in the list, and its place. *)
Definition image_place (s : esheet) (x : image) : amap * list image * N :=
  match am_get (i_hash x) (e_ids s) with
  | Some id => (e_ids s, e_images s, id)
  | None => (am_insert (i_hash x) (am_len (e_ids s)) (e_ids s), e_images s ++ [x], am_len (e_ids s))
  end.
Lemma image_step s row col x f : constant_memory (e_ws s) = false ->
  store_embedded_image s row col x f =
  let '(ids, images, id) := image_place s x in
  match image_op (e_ws s) row col id (image_format x f) with
  | (w, None) => ({| e_ws := w; e_ids := ids; e_images := images; e_described := e_described s || described x; e_dynamic := e_dynamic s; e_global := e_global s |}, None)
  | (w, Some e) => ({| e_ws := w; e_ids := e_ids s; e_images := e_images s; e_described := e_described s; e_dynamic := e_dynamic s; e_global := e_global s |}, Some (EC e))
  end.
Proof.
  intros Hm. unfold store_embedded_image, image_op, image_place. destruct (check_dimensions (e_ws s) row col) as [w1 ok] eqn:E.
  assert (Hm1 : constant_memory w1 = false).
  { apply check_dimensions_spec in E as (M & _). rewrite (m_cm _ _ M). assumption. }
  destruct ok; cbn [negb]; [|destruct (am_get _ _); reflexivity].
  rewrite Hm1. cbn [andb e_ids e_images e_described e_dynamic e_global]. unfold image_format.
  destruct (am_get (i_hash x) (e_ids s)); cbv zeta iota beta; destruct (cell_xf w1 row col _) as [w2 xf]; reflexivity.
Qed.

Lemma no_flush w w' : flushed w' = flushed w -> newly_flushed w w' = [].
Proof. intros E. unfold newly_flushed. rewrite E. apply skipn_all. Qed.
Definition logged (o : eop) (e : option eerror) : list image := match o, e with EImage _ _ x _, None => [x] | _, _ => [] end.
Lemma with_result_image s k n : with_result s k = CError n -> k = CError n.
Proof. destruct k; cbn; congruence. Qed.
Lemma with_result_dynamic s k : dynamic_cell (with_result s k) = dynamic_cell k.
Proof. destruct k; reflexivity. Qed.
Lemma writes_no_image w o r c n : writes w o r c <> Some (VImage n).
Proof.
  destruct o; cbn [writes]; try discriminate; try (destruct (here _ _ r c); [|discriminate]); try (destruct (in_rect _ _ _ _ r c); [|discriminate]);
    unfold number_value, text_value, special_text; repeat match goal with |- context [match ?t with _ => _ end] => destruct t end; discriminate.
Qed.

Lemma image_place_ok s log x : J s log -> let '(ids, images, id) := image_place s x in
  indexed 0 ids images /\ am_len ids = N.of_nat (length images) /\ (exists d, images = e_images s ++ d) /\ incl images (log ++ [x]) /\
  (forall h, find (same h) images = find (same h) (log ++ [x])) /\ pos (i_hash x) images = Some (N.to_nat id) /\ id < N.of_nat (length images).
Proof.
  intros H. unfold image_place. destruct (am_get (i_hash x) (e_ids s)) as [id|] eqn:G.
  - split; [apply H|]. split; [apply H|]. split; [exists []; rewrite app_nil_r; reflexivity|]. split; [apply incl_appl, H|].
    pose proof (j_idx _ _ H (i_hash x)) as I. rewrite G in I. destruct (pos (i_hash x) (e_images s)) as [n|] eqn:P; [|discriminate].
    cbn [option_map] in I. assert (En : id = N.of_nat n) by (assert (id = 0 + N.of_nat n) by congruence; lia). subst id.
    destruct (pos_find _ _ _ P) as [F L]. split; [|split; [f_equal; lia|lia]].
    intros h. rewrite (j_find _ _ H h), find_app. destruct (find (same h) log) eqn:Fl; [reflexivity|]. cbn [find]. destruct (same h x) eqn:S; [|reflexivity].
    apply str_eqb_eq in S. subst h. rewrite <- (j_find _ _ H), F in Fl. apply nth_error_None in Fl. lia.
  - rewrite (j_len _ _ H). split; [apply (indexed_add 0 _ _ _ (j_idx _ _ H) G)|].
    split; [rewrite am_len_insert, (j_len _ _ H), app_length by assumption; cbn [length]; lia|]. split; [eauto|].
    split; [apply incl_app; [apply incl_appl, H|apply incl_appr, incl_refl]|]. split; [intros h; rewrite !find_app, (j_find _ _ H); reflexivity|].
    split; [|rewrite app_length; cbn [length]; lia]. pose proof (j_idx _ _ H (i_hash x)) as I. rewrite G in I. rewrite pos_app.
    destruct (pos (i_hash x) (e_images s)); [discriminate|]. cbn [pos]. unfold same. rewrite str_eqb_refl. cbn [option_map]. f_equal. lia.
Qed.

(** One call: it does not panic and the invariant goes on. *)
Lemma estep_ok s log o : J s log -> exists s' e, estep s o = Some (s', e) /\ J s' (log ++ logged o e) /\
  e_global s' = e_global s /\ (exists d, e_images s' = e_images s ++ d) /\ meta (e_ws s) (e_ws s') /\
  match o with
  | ECell o => fst (step (e_ws s) o) = e_ws s' /\ (e = None <-> snd (step (e_ws s) o) = None)
  | EImage row col x f =>
      let '(ids, images, id) := image_place s x in e_ids s' = match e with None => ids | Some _ => e_ids s end /\
      image_op (e_ws s) row col id (image_format x f) = (e_ws s', match e with None => None | Some (EC x) => Some x | Some EFlushed => Some RowColumnLimit end) /\
      (e = None -> e_images s' = images)
  end.
Proof.
  intros H. pose proof (j_std _ _ H) as St. unfold estep. destruct o as [o|row col x f].
  - destruct (step (e_ws s) o) as [w e] eqn:E. cbn [fst snd]. destruct (std_step _ _ _ _ St E) as [St' F]. cbn [e_ws e_global].
    rewrite no_flush by (apply (m_fl _ _ (sf_meta _ _ _ _ F))). cbn [existsb]. eexists _, _. split; [reflexivity|]. cbn [e_images e_ws e_global e_ids].
    split; [|split; [reflexivity|split; [exists []; rewrite app_nil_r; reflexivity|split; [apply F|split; [reflexivity|destruct e; split; congruence]]]]].
    assert (Lg : logged (ECell o) match e with Some e0 => Some (EC e0) | None => None end = []) by (destruct e; reflexivity).
    rewrite Lg, app_nil_r. split; cbn [e_ws e_ids e_images e_described e_dynamic]; try apply H; [exact St'| | | |].
    + intros r c n y G. destruct (step_source _ _ _ _ _ _ _ _ St E G) as [(k0 & x0 & G0 & [<-|[q K]])|[K|[_ K]]].
      * eapply (j_img _ _ H), G0.
      * symmetry in K. apply with_result_image in K. subst. eapply (j_img _ _ H), G0.
      * discriminate.
      * destruct (writes_no_image _ _ _ _ _ K).
    + intros r c k y G D. destruct (step_source _ _ _ _ _ _ _ _ St E G) as [(k0 & x0 & G0 & K)|[K|[-> K]]].
      * assert (D0 : dynamic_cell k0 = true) by (destruct K as [<-|[q ->]]; [assumption|rewrite with_result_dynamic in D; assumption]).
        rewrite (j_dyn _ _ H _ _ _ _ G0 D0). reflexivity.
      * subst. discriminate.
      * rewrite (step_flag _ _ _ _ _ St E _ _ _ K G) in D. apply andb_true_iff in D as [D _]. rewrite D. apply orb_true_r.
    + rewrite (m_gsst _ _ (sf_meta _ _ _ _ F)). apply H.
    + apply (m_lr_max _ _ (sf_meta _ _ _ _ F)), H.
  - rewrite image_step by apply St. pose proof (image_place_ok s log x H) as PL. destruct (image_place s x) as [[ids images] id].
    destruct PL as (P1 & P2 & (d & P3) & P4 & P5 & P6 & P7).
    destruct (image_op (e_ws s) row col id (image_format x f)) as [w e] eqn:E. destruct (image_std _ _ _ _ _ _ _ St E) as (St' & M & S & D & C).
    destruct e as [e|]; cbn [e_ws e_global]; (rewrite no_flush by apply (m_fl _ _ M)); cbn [existsb]; eexists _, _; (split; [reflexivity|]);
      cbn [e_images e_ws e_global e_ids logged].
    + split; [|split; [reflexivity|split; [exists []; rewrite app_nil_r; reflexivity|split; [assumption|split; [reflexivity|split; [reflexivity|discriminate]]]]]].
      rewrite app_nil_r. split; cbn [e_ws e_ids e_images e_described e_dynamic]; try apply H; [exact St'| | | |].
      * intros r c n y G. rewrite D in G. eapply (j_img _ _ H), G.
      * intros r c k y G. rewrite D in G. eapply (j_dyn _ _ H), G.
      * rewrite (m_gsst _ _ M). apply H.
      * apply (m_lr_max _ _ M), H.
    + destruct (C eq_refl) as [[y Gy] _].
      split; [|split; [reflexivity|split; [exists d; assumption|split; [assumption|split; [reflexivity|split; [reflexivity|reflexivity]]]]]].
      split; cbn [e_ws e_ids e_images e_described e_dynamic]; try assumption.
      * rewrite existsb_app, (j_desc _ _ H). cbn [existsb]. rewrite orb_false_r. reflexivity.
      * intros r c n z G. rewrite D in G. destruct (here row col r c).
        -- rewrite Gy in G. assert (n = id) by congruence. subst. assumption.
        -- rewrite P3, app_length. pose proof (j_img _ _ H _ _ _ _ G). lia.
      * intros r c k z G Dk. rewrite D in G. destruct (here row col r c).
        -- rewrite Gy in G. assert (k = CError id) by congruence. subst. discriminate.
        -- eapply (j_dyn _ _ H); eassumption.
      * rewrite (m_gsst _ _ M). apply H.
      * apply (m_lr_max _ _ M), H.
Qed.
Lemma erun_ok l : forall s log, J s log -> exists s', erun s l = Some s' /\ J s' (log ++ embeds s l) /\ e_global s' = e_global s /\ (exists d, e_images s' = e_images s ++ d) /\ meta (e_ws s) (e_ws s').
Proof.
  induction l as [|o l IH]; intros s log H; cbn [erun embeds].
  - exists s. rewrite app_nil_r. split; [reflexivity|]. split; [assumption|]. split; [reflexivity|]. split; [exists []; rewrite app_nil_r; reflexivity|apply meta_refl].
  - destruct (estep_ok s log o H) as (s1 & e & E & H1 & G & (d & D) & M & _). rewrite E.
    destruct (IH s1 _ H1) as (s' & E' & H' & G' & (d' & D') & M'). exists s'. split; [exact E'|].
    split; [rewrite app_assoc; exact H'|]. split; [congruence|]. split; [exists (d ++ d'); rewrite D', D, app_assoc; reflexivity|eapply meta_trans; eassumption].
Qed.
Lemma erun_app l1 : forall s l2, erun s (l1 ++ l2) = match erun s l1 with Some s' => erun s' l2 | None => None end.
Proof. induction l1 as [|o l1 IH]; intros s l2; [reflexivity|]. cbn [app erun]. destruct (estep s o) as [[s' e]|]; [apply IH|reflexivity]. Qed.
Lemma embeds_app l1 : forall s l2 s1, erun s l1 = Some s1 -> embeds s (l1 ++ l2) = embeds s l1 ++ embeds s1 l2.
Proof.
  induction l1 as [|o l1 IH]; intros s l2 s1 E; cbn [app erun embeds] in *; [congruence|].
  destruct (estep s o) as [[s' e]|]; [|discriminate]. rewrite (IH _ _ _ E), app_assoc. reflexivity.
Qed.

(** Later calls that succeed and change the contents of (r, c). *)
Definition ealters (o : eop) (r c : N) : bool := match o with ECell o => alters o r c | EImage row col _ _ => here row col r c end.
Fixpoint eundisturbed (s : esheet) (l : list eop) (r c : N) : Prop :=
  match l with
  | [] => True
  | o :: rest => match estep s o with Some (s', e) => (ealters o r c = false \/ e <> None) /\ eundisturbed s' rest r c | None => True end
  end.
Lemma eundisturbed_run l r c : forall s log s', J s log -> erun s l = Some s' -> eundisturbed s l r c ->
  fmt_preserves (table_get r c (data (e_ws s))) (table_get r c (data (e_ws s'))).
Proof.
  induction l as [|o l IH]; intros s log s' H E U; cbn [erun eundisturbed] in *; [injection E as <-; apply fmt_preserves_refl|].
  destruct (estep_ok s log o H) as (s1 & e & E1 & H1 & _ & _ & _ & O). rewrite E1 in E, U. destruct U as [U1 U2].
  eapply fmt_preserves_trans; [|eapply IH; eassumption]. destruct o as [o|row col x f]; cbn [ealters] in U1.
  - destruct (step (e_ws s) o) as [w e'] eqn:Es. cbn [fst snd] in O. destruct O as [O1 O2]. subst w.
    destruct (std_step _ _ _ _ (j_std _ _ H) Es) as [_ F]. destruct U1 as [U1|U1]; [apply F; assumption|].
    rewrite (sf_err _ _ _ _ F); [apply fmt_preserves_refl|]. intros ->. apply U1, O2. reflexivity.
  - destruct (image_place s x) as [[ids images] id]. destruct O as (_ & O & _). destruct (image_std _ _ _ _ _ _ _ (j_std _ _ H) O) as (_ & _ & _ & D & _).
    rewrite D. destruct e as [[e|]|]; try apply fmt_preserves_refl. destruct U1 as [U1|U1]; [|congruence]. rewrite U1. apply fmt_preserves_refl.
Qed.
