(** Notes: what the calls leave in the note and in the sheet. *)
From Coq Require Import Sorted Permutation.
From Verif Require Import Base SMap Fmt_Model CF_Model CF_Spec CF_Build Setup_Spec Note_Model Note_Spec.
From Verif Require Pkg_Model Pkg_Spec Pkg_Proofs13.

Lemma last_fold {A O S} (f : S -> A) (g : O -> option A) (step : S -> O -> S) :
  (forall s o, f (step s o) = match g o with Some v => v | None => f s end) ->
  forall l s, f (fold_left step l s) = last_of g (f s) l.
Proof. intros H. induction l as [|o l IH]; intros s; [reflexivity|]. cbn [fold_left]. rewrite IH, H. reflexivity. Qed.
Lemma short_over limit s : short limit s = negb (over limit s).
Proof. unfold short, over. destruct (N.ltb_spec limit (N.of_nat (length s))), (N.leb_spec (N.of_nat (length s)) limit); try reflexivity; lia. Qed.

Ltac field := intros s o; destruct o; cbn [note_step]; rewrite ?short_over, ?in_range_eq;
  repeat match goal with |- context [over ?a ?b] => destruct (over a b); cbn [negb] | |- context [if ?b then _ else _] => destruct b end; reflexivity.
Lemma author_made t l : xn_author (make_note t l) = wanted_author l. Proof. unfold make_note, wanted_author. revert l. intros l. rewrite (last_fold xn_author (fun o => match o with NAuthor a => if short 52 a then Some (Some a) else None | _ => None end)); [reflexivity|field]. Qed.
Lemma prefix_made t l : xn_prefix (make_note t l) = wanted_prefix l. Proof. unfold make_note, wanted_prefix. rewrite (last_fold xn_prefix (fun o => match o with NPrefix b => Some b | _ => None end)); [reflexivity|field]. Qed.
Lemma text_made t l : xn_text (make_note t l) = wanted_text t l. Proof. unfold make_note, wanted_text. rewrite (last_fold xn_text (fun o => match o with NText t => Some t | _ => None end)); [reflexivity|field]. Qed.
Lemma alt_made t l : xn_alt (make_note t l) = wanted_alt l. Proof. unfold make_note, wanted_alt. rewrite (last_fold xn_alt (fun o => match o with NAlt s => if short 255 s then Some s else None | _ => None end)); [reflexivity|field]. Qed.
Lemma visible_made t l : xn_visible (make_note t l) = wanted_visible l. Proof. unfold make_note, wanted_visible. rewrite (last_fold xn_visible (fun o => match o with NVisible b => Some (Some b) | _ => None end)); [reflexivity|field]. Qed.
Lemma width_made t l : xn_width (make_note t l) = wanted_width l. Proof. unfold make_note, wanted_width. rewrite (last_fold xn_width (fun o => match o with NWidth n => if n =? 0 then None else Some n | _ => None end)); [reflexivity|field]. Qed.
Lemma height_made t l : xn_height (make_note t l) = wanted_height l. Proof. unfold make_note, wanted_height. rewrite (last_fold xn_height (fun o => match o with NHeight n => if n =? 0 then None else Some n | _ => None end)); [reflexivity|field]. Qed.
Lemma font_made t l : xn_font (make_note t l) = wanted_font l. Proof. unfold make_note, wanted_font. rewrite (last_fold xn_font (fun o => match o with NFontName s => Some s | NFormat f => Some (font_name (font f)) | _ => None end)); [reflexivity|field]. Qed.
Lemma size_made t l : xn_size (make_note t l) = wanted_size l. Proof. unfold make_note, wanted_size. rewrite (last_fold xn_size (fun o => match o with NFontSize s => Some s | NFormat f => Some (font_size (font f)) | _ => None end)); [reflexivity|field]. Qed.
Lemma family_made t l : xn_family (make_note t l) = wanted_family l. Proof. unfold make_note, wanted_family. rewrite (last_fold xn_family (fun o => match o with NFontFamily n => Some n | NFormat f => Some (family (font f)) | _ => None end)); [reflexivity|field]. Qed.
Lemma fill_made t l : xn_fill (make_note t l) = wanted_fill l. Proof. unfold make_note, wanted_fill. rewrite (last_fold xn_fill (fun o => match o with NBackground c => in_range c | NFormat f => Some (background_color (fill f)) | _ => None end)); [reflexivity|field]. Qed.

Ltac bfield := intros s o; destruct o; cbn [button_step]; rewrite ?short_over;
  repeat match goal with |- context [over ?a ?b] => destruct (over a b); cbn [negb] | |- context [if ?b then _ else _] => destruct b end; reflexivity.
Lemma caption_made k l : button_caption k (make_button l) = wanted_caption k l.
Proof.
  unfold button_caption, wanted_caption, make_button. rewrite (last_fold bt_name (fun o => match o with BCaption s => if short 255 s then Some s else None | _ => None end)) by bfield.
  cbn [button_new bt_name]. destruct (last_of _ _ _); reflexivity.
Qed.
Lemma macro_made k l : button_macro k (make_button l) = wanted_macro k l.
Proof.
  unfold button_macro, wanted_macro, make_button. rewrite (last_fold bt_macro (fun o => match o with BMacro s => Some s | _ => None end)) by bfield.
  cbn [button_new bt_macro]. destruct (last_of _ _ _); reflexivity.
Qed.
Lemma balt_made l : bt_alt (make_button l) = button_alt l. Proof. unfold make_button, button_alt. rewrite (last_fold bt_alt (fun o => match o with BAlt s => if short 255 s then Some s else None | _ => None end)); [reflexivity|bfield]. Qed.
Lemma bwidth_made l : bt_width (make_button l) = button_width l. Proof. unfold make_button, button_width. rewrite (last_fold bt_width (fun o => match o with BWidth n => if n =? 0 then None else Some n | _ => None end)); [reflexivity|bfield]. Qed.
Lemma bheight_made l : bt_height (make_button l) = button_height l. Proof. unfold make_button, button_height. rewrite (last_fold bt_height (fun o => match o with BHeight n => if n =? 0 then None else Some n | _ => None end)); [reflexivity|bfield]. Qed.

(** ** The sheet *)
Lemma key_div r c : c < 16384 -> cell_key r c / 16384 = r.
Proof. intros H. unfold cell_key. rewrite N.div_add_l by lia. rewrite N.div_small by exact H. lia. Qed.
Lemma key_mod r c : c < 16384 -> cell_key r c mod 16384 = c.
Proof. intros H. unfold cell_key. rewrite N.add_comm, N.mod_add by lia. apply N.mod_small. exact H. Qed.
Lemma key_eq k : cell_key (k / 16384) (k mod 16384) = k.
Proof. unfold cell_key. rewrite N.mul_comm. symmetry. apply N.div_mod. lia. Qed.
Lemma key_inj r c r' c' : c < 16384 -> c' < 16384 -> (cell_key r' c' =? cell_key r c) = (r' =? r) && (c' =? c).
Proof.
  intros A B. destruct (N.eqb_spec (cell_key r' c') (cell_key r c)) as [E|E].
  - assert (r' = r) by (rewrite <- (key_div r c A), <- E; symmetry; apply key_div; exact B).
    assert (c' = c) by (rewrite <- (key_mod r c A), <- E; symmetry; apply key_mod; exact B). subst. rewrite !N.eqb_refl. reflexivity.
  - destruct (N.eqb_spec r' r) as [->|]; [|reflexivity]. destruct (N.eqb_spec c' c) as [->|]; [congruence|reflexivity].
Qed.
Lemma on_grid_spec r c : on_grid r c = true <-> r < 1048576 /\ c < 16384.
Proof. unfold on_grid. rewrite andb_true_iff, !N.ltb_lt. reflexivity. Qed.

Lemma last_snoc {O A} (f : O -> option A) d l o : last_of f d (l ++ [o]) = match f o with Some v => v | None => last_of f d l end.
Proof. unfold last_of. rewrite fold_left_app. reflexivity. Qed.

(** A note as it was given, perhaps made visible by a save. *)
Definition seen_note (t : str) (l : list note_op) (n : xnote) : Prop :=
  n = make_note t l \/ n = shown_note true (make_note t l).
Definition known (ops : list sheet_op) (r c : N) (o : option xnote) : Prop :=
  match note_on r c ops, o with
  | None, None => True
  | Some (t, l), Some n => seen_note t l n /\ (no_save ops -> n = make_note t l)
  | _, _ => False
  end.
Record sheet_inv (ops : list sheet_op) (s : nsheet) : Prop := {
  si_ok : SMap.ok (ns_notes s);
  si_keys : Forall (fun k => k / 16384 < 1048576) (keys (ns_notes s));
  si_notes : forall r c, on_grid r c = true -> known ops r c (get (cell_key r c) (ns_notes s));
  si_show : ns_show s = show_all ops;
  si_authors : exists d o, Pkg_Proofs13.authors_inv (ns_authors s) (d :: o) /\
    (no_save ops -> ns_authors s = [(default_author ops, 0)] /\ o = [] /\ d = default_author ops) }.

Lemma seen_again show t l n : seen_note t l n -> seen_note t l (shown_note show n).
Proof.
  intros [-> | ->].
  - destruct show; [right; reflexivity|left; reflexivity].
  - right. unfold shown_note. destruct (xn_visible (make_note t l)) eqn:E; cbn [andb]; [|destruct show; reflexivity].
    destruct show; cbn [andb]; rewrite ?E; reflexivity.
Qed.
Lemma no_save_snoc ops o : no_save (ops ++ [o]) -> no_save ops /\ o <> QSave.
Proof. unfold no_save. intros H. split; [intros I; apply H, in_or_app; left; exact I|intros ->; apply H, in_or_app; right; left; reflexivity]. Qed.

Lemma allowed_eq r c t l : note_allowed r c t l =
  negb ((Ref_Model.ROW_MAX <=? r) || (Ref_Model.COL_MAX <=? c)) && negb (over (32767 - 54) (xn_text (make_note t l))).
Proof.
  unfold note_allowed, on_grid. rewrite short_over, text_made. change (32767 - 54) with 32713. f_equal. unfold Ref_Model.ROW_MAX, Ref_Model.COL_MAX.
  destruct (N.ltb_spec r 1048576), (N.leb_spec 1048576 r); try lia; destruct (N.ltb_spec c 16384), (N.leb_spec 16384 c); try lia; reflexivity.
Qed.
Lemma inv_new : sheet_inv [] nsheet_new.
Proof.
  split; [constructor|constructor|intros r c _; exact I|reflexivity|].
  exists (lit "Author"), []. split; [apply Pkg_Proofs13.single_inv|]. intros _. repeat split.
Qed.
Lemma firsts_cons d o l : exists o', Pkg_Spec.firsts (d :: o) l = d :: o'.
Proof. destruct (Pkg_Proofs13.firsts_app l (d :: o)) as (e & E & _). exists (o ++ e). rewrite E. reflexivity. Qed.
Lemma inv_step ops s o : sheet_inv ops s -> sheet_inv (ops ++ [o]) (fst (sheet_step s o)).
Proof.
  intros [Iok Ik In_ Is (d & oa & Ia & Ib)].
  assert (Au : o <> QSave -> (forall a, o <> QAuthor a) -> exists d o', Pkg_Proofs13.authors_inv (ns_authors s) (d :: o') /\
    (no_save (ops ++ [o]) -> ns_authors s = [(default_author (ops ++ [o]), 0)] /\ o' = [] /\ d = default_author (ops ++ [o]))).
  { intros Hs Ha. exists d, oa. split; [exact Ia|]. intros H. apply no_save_snoc in H as [H _]. destruct (Ib H) as (E1 & E2 & E3). subst.
    unfold default_author in *. rewrite last_snoc. destruct o; try congruence; tauto. }
  destruct o as [r c t l|a|b|]; cbn [sheet_step].
  - specialize (Au ltac:(discriminate) ltac:(discriminate)).
    assert (Keep : note_allowed r c t l = false -> sheet_inv (ops ++ [QNote r c t l]) s).
    { intros E. split; [exact Iok|exact Ik| |unfold show_all in *; rewrite last_snoc; exact Is|exact Au].
      intros r' c' G. specialize (In_ r' c' G). unfold known, note_on in *. rewrite last_snoc, E, andb_false_r.
      destruct (last_of _ _ ops) as [[t' l']|], (get _ _); try exact In_. destruct In_ as [A B]. split; [exact A|]. intros H. apply B. apply (no_save_snoc _ _ H). }
    pose proof (allowed_eq r c t l) as E.
    destruct ((Ref_Model.ROW_MAX <=? r) || (Ref_Model.COL_MAX <=? c)) eqn:G; [cbn [fst]; apply Keep; rewrite E; reflexivity|].
    destruct (over (32767 - 54) (xn_text (make_note t l))) eqn:Ov; [cbn [fst]; apply Keep; rewrite E; reflexivity|]. cbn [negb andb] in E. cbn [fst].
    assert (Gr : on_grid r c = true) by (unfold note_allowed in E; apply andb_prop in E; tauto).
    pose proof (proj1 (on_grid_spec _ _) Gr) as [Hr Hc].
    split; cbn [ns_notes ns_authors ns_show].
    + apply ins_ok. exact Iok.
    + apply Forall_forall. intros k Hk. apply ins_keys_In in Hk as [->|Hk]; [rewrite key_div by exact Hc; exact Hr|]. rewrite Forall_forall in Ik. auto.
    + intros r' c' G'. pose proof (proj1 (on_grid_spec _ _) G') as [_ Hc'].
      rewrite get_ins. unfold known, note_on. rewrite last_snoc, E, andb_true_r. rewrite key_inj by assumption.
      destruct ((r =? r') && (c =? c')); [split; [left; reflexivity|reflexivity]|].
      specialize (In_ r' c' G'). unfold known, note_on in In_. destruct (last_of _ _ ops) as [[t' l']|], (get _ _); try exact In_.
      destruct In_ as [A B]. split; [exact A|]. intros H. apply B. apply (no_save_snoc _ _ H).
    + unfold show_all in *. rewrite last_snoc. exact Is.
    + exact Au.
  - assert (Kn : forall r c, on_grid r c = true -> known (ops ++ [QAuthor a]) r c (get (cell_key r c) (ns_notes s))).
    { intros r' c' G. specialize (In_ r' c' G). unfold known, note_on in *. rewrite last_snoc.
      destruct (last_of _ _ ops) as [[t' l']|], (get _ _); try exact In_. destruct In_ as [A B]. split; [exact A|]. intros H. apply B. apply (no_save_snoc _ _ H). }
    destruct (over 52 a) eqn:Ov; cbn [fst].
    + split; [exact Iok|exact Ik|exact Kn|unfold show_all in *; rewrite last_snoc; exact Is|].
      exists d, oa. split; [exact Ia|]. intros H. apply no_save_snoc in H as [H _]. unfold default_author in *. rewrite last_snoc, short_over, Ov. exact (Ib H).
    + split; cbn [ns_notes ns_authors ns_show]; [exact Iok|exact Ik|exact Kn|unfold show_all in *; rewrite last_snoc; exact Is|].
      exists a, []. split; [apply Pkg_Proofs13.single_inv|]. intros H. unfold default_author. rewrite last_snoc, short_over, Ov. cbn [negb]. repeat split.
  - cbn [fst]. split; cbn [ns_notes ns_authors ns_show]; [exact Iok|exact Ik| |unfold show_all; rewrite last_snoc; reflexivity|apply Au; discriminate].
    intros r' c' G. specialize (In_ r' c' G). unfold known, note_on in *. rewrite last_snoc.
    destruct (last_of _ _ ops) as [[t' l']|], (get _ _); try exact In_. destruct In_ as [A B]. split; [exact A|]. intros H. apply B. apply (no_save_snoc _ _ H).
  - cbn [fst]. unfold prepare_notes. destruct (Pkg_Model.assign_authors (ns_authors s) (pkg_notes (ns_notes s))) as [au ids] eqn:Ea.
    cbn [fst]. split; cbn [ns_notes ns_authors ns_show].
    + apply smap_map_ok. exact Iok.
    + rewrite keys_smap_map. exact Ik.
    + intros r' c' G. specialize (In_ r' c' G). rewrite get_smap_map. unfold known, note_on in *. rewrite last_snoc.
      destruct (last_of _ _ ops) as [[t' l']|], (get (cell_key r' c') (ns_notes s)); try exact In_. cbn [option_map]. destruct In_ as [A B]. split; [apply seen_again; exact A|].
      intros H. apply no_save_snoc in H as [_ H]. congruence.
    + unfold show_all in *. rewrite last_snoc. exact Is.
    + destruct (Pkg_Proofs13.assign_ok d _ _ _ _ _ Ia eq_refl Ea) as [A1 _]. destruct (firsts_cons d oa (map (Pkg_Spec.author_of d) (pkg_notes (ns_notes s)))) as (o' & E).
      rewrite E in A1. exists d, o'. split; [exact A1|]. intros H. apply no_save_snoc in H as [_ H]. congruence.
Qed.
Theorem sheet_run_inv ops : sheet_inv ops (sheet_run ops).
Proof.
  unfold sheet_run. assert (G : forall l pre s, sheet_inv pre s -> sheet_inv (pre ++ l) (fold_left (fun s o => fst (sheet_step s o)) l s)).
  { induction l as [|o l IH]; intros pre s H; [rewrite app_nil_r; exact H|]. cbn [fold_left]. replace (pre ++ o :: l) with ((pre ++ [o]) ++ l) by (rewrite <- app_assoc; reflexivity).
    apply IH. apply inv_step. exact H. }
  exact (G ops [] _ inv_new).
Qed.
