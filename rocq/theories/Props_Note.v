(** C74 (notes read back from the comments part) and C75 (notes and buttons read back from
    the VML part). *)
From Coq Require Import Sorted Permutation.
From Verif Require Import Base Xml_Model Xml_Spec Xml_Proofs Xml_Read Xml_Read_Proofs Xml_Tree SMap Fmt_Model Rich_Model Rich_Proofs SheetXml_Spec SheetXml_Proofs SheetXml_Proofs3 Doc_Spec View_Spec Props_Doc Tag_Proofs Part_Proofs
  CF_Spec Ref_Proofs Setup_Spec Note_Model Note_Spec Note_Proofs Note_Proofs2 Note_Proofs3 Note_Proofs4 Note_Proofs5.
From Verif Require Date_Parse Color_Spec Pkg_Model Pkg_Spec Pkg_Proofs2 Pkg_Proofs13 Book_Model Book_Spec.

(** ** C74 *)

(** A call of insert_note fails exactly when the cell is off the grid or the text is longer than 32713
    characters, and then it changes nothing. *)
Theorem C74_refused_iff s r c text calls :
  (snd (sheet_step s (QNote r c text calls)) = false <-> note_allowed r c text calls = false) /\
  (snd (sheet_step s (QNote r c text calls)) = false -> fst (sheet_step s (QNote r c text calls)) = s).
Proof.
  pose proof (allowed_eq r c text calls) as E. cbn [sheet_step].
  destruct ((Ref_Model.ROW_MAX <=? r) || (Ref_Model.COL_MAX <=? c)); [cbn [negb andb] in E; rewrite E; cbn; tauto|].
  destruct (over (32767 - 54) (xn_text (make_note text calls))); cbn [negb andb] in E; rewrite E; cbn [fst snd]; split; intros; try split; intros; congruence || reflexivity.
Qed.
Print Assumptions C74_refused_iff.

(** After any history of calls and saves, the comments part of the next save reads back, and has exactly one
    comment for each cell that has a note, namely the last one accepted for that cell, with its text, its
    font and (unless switched off) the name of the comment's author in front; and none for other cells. *)
Theorem C74_notes_read_back v ops : Forall sheet_texts ops ->
  exists part root l, comments_part v (sheet_run ops) = Some part /\ read_document part = Some root /\ read_comments root = Some l /\
  (forall x, In x l -> on_grid (c_row x) (c_col x) = true) /\
  forall r c, on_grid r c = true ->
    match note_on r c ops with
    | None => comments_at l r c = []
    | Some (text, calls) => exists a, comments_at l r c = [{| c_row := r; c_col := c; c_author := a; c_runs := runs_for a text calls |}]
    end.
Proof.
  intros F. unfold comments_part. destruct (prepare_notes (sheet_run ops)) as [s' ids] eqn:E.
  destruct (prepared ops s' ids F E) as (Ok & Ne & L & K & Hi & D & Ft & Em). assert (I := sheet_run_inv ops).
  destruct (part_reads v _ _ _ Ne L K Hi D Ft) as (w & root & Ew & Rd & Rc). rewrite Ew. exists (document w), root. eexists. split; [reflexivity|]. split; [exact Rd|]. split; [exact Rc|]. split.
  - intros x Hx. apply in_map_iff in Hx as ([[k n] id] & <- & Hx). cbn [said c_row c_col]. apply on_grid_spec. split; [|apply N.mod_lt; discriminate].
    apply in_combine_l in Hx. rewrite Forall_forall in K. apply K. apply (in_map fst) in Hx. exact Hx.
  - intros r c G. pose proof (proj1 (on_grid_spec _ _) G) as [_ Hc].
    pose proof (at_cell (map fst (ns_authors s')) (ns_notes s') ids r c Ok L Hc) as A. rewrite Em, get_smap_map in A.
    pose proof (si_notes _ _ I r c G) as Kn. unfold known in Kn.
    destruct (note_on r c ops) as [[t l]|], (get (cell_key r c) (ns_notes (sheet_run ops))) as [n|]; try (exact (False_ind _ Kn)); cbn [option_map] in A.
    + destruct A as (id & _ & A). eexists. rewrite <- Em in A. rewrite A. cbn [said]. rewrite key_div, key_mod by exact Hc. rewrite (seen_runs _ t l); [reflexivity|].
      apply seen_again. apply Kn.
    + rewrite <- Em in A. exact A.
Qed.
Print Assumptions C74_notes_read_back.

(** Authors: without earlier saves, every note is attributed to the author set for it, or to the default author
    of the sheet, exactly when these names (the default first, then in the order of the cells) first appear in
    increasing order. *)
Theorem C74_authors_iff_partial v ops : Forall sheet_texts ops -> no_save ops ->
  exists part root l, comments_part v (sheet_run ops) = Some part /\ read_document part = Some root /\ read_comments root = Some l /\
  let wanted x := author_for ops (c_row x) (c_col x) in
  ((forall x, In x l -> c_author x = wanted x) <-> StronglySorted Book_Spec.str_lt (Pkg_Spec.firsts [default_author ops] (map wanted l))).
Proof.
  intros F Ns. unfold comments_part. destruct (prepare_notes (sheet_run ops)) as [s' ids] eqn:E.
  destruct (prepared ops s' ids F E) as (Ok & Ne & L & K & Hi & D & Ft & Em). assert (I := sheet_run_inv ops).
  destruct (part_reads v _ _ _ Ne L K Hi D Ft) as (w & root & Ew & Rd & Rc). rewrite Ew. exists (document w), root. eexists. split; [reflexivity|]. split; [exact Rd|]. split; [exact Rc|].
  cbv zeta. set (wanted := fun x => author_for ops (c_row x) (c_col x)). set (d := default_author ops).
  destruct (si_authors _ _ I) as (d' & o & Ia & Ib). destruct (Ib Ns) as (Ea & -> & ->). fold d in Ea, Ia.
  set (s := sheet_run ops) in *. unfold prepare_notes in E. destruct (Pkg_Model.assign_authors (ns_authors s) (pkg_notes (ns_notes s))) as [au i] eqn:Ex.
  assert (Es : s' = {| ns_notes := smap_map (fun _ => shown_note (ns_show s)) (ns_notes s); ns_authors := au; ns_show := ns_show s |}) by congruence. assert (i = ids) by congruence. subst s' i.
  cbn [ns_notes ns_authors] in *. destruct (Pkg_Proofs13.assign_ok d _ _ _ _ _ Ia eq_refl Ex) as [A1 A2].
  set (notes := pkg_notes (ns_notes s)) in *. set (m := smap_map (fun _ : N => shown_note (ns_show s)) (ns_notes s)) in *.
  assert (Wt : forall k n id, In (k, n) m -> wanted (said (map fst au) (k, n, id)) = match xn_author n with Some a => a | None => d end).
  { intros k n id Hin. unfold m, smap_map in Hin. apply in_map_iff in Hin as ([k' n'] & Eq & Hin). cbn [fst snd] in Eq. injection Eq as <- <-. apply (In_get _ _ _ (si_ok _ _ I)) in Hin.
    destruct (get_on _ _ _ _ I Hin) as (t & l & Hon & _ & _ & Hm). specialize (Hm Ns). subst n'. unfold wanted, author_for. cbn [said c_row c_col]. rewrite Hon.
    assert (Ev : xn_author (shown_note (ns_show s) (make_note t l)) = wanted_author l) by (rewrite <- (author_made t l); unfold shown_note; destruct (_ && _); reflexivity). rewrite Ev. reflexivity. }
  assert (Wm : map wanted (map (said (map fst au)) (combine m ids)) = map (Pkg_Spec.author_of d) notes).
  { assert (Q : map (Pkg_Spec.author_of d) notes = map (fun p => match xn_author (snd p) with Some a => a | None => d end) m).
    { unfold notes, pkg_notes, m, smap_map. rewrite !map_map. apply map_ext. intros [k n]. cbn [fst snd Pkg_Spec.author_of Pkg_Model.nt_author].
      unfold Pkg_Spec.author_of. cbn [Pkg_Model.nt_author]. unfold shown_note. destruct (_ && _); reflexivity. }
    rewrite Q. clear -Wt L. revert ids L. induction m as [|[k n] m IH]; intros ids L; [reflexivity|]. destruct ids as [|id ids]; [discriminate|]. cbn [combine map].
    rewrite (Wt k n id) by (left; reflexivity). rewrite IH; [reflexivity|intros; apply Wt; right; assumption|cbn in L; congruence]. }
  rewrite Wm. set (cd := {| Pkg_Model.cd_authors := map fst au; Pkg_Model.cd_list := Pkg_Model.zip_notes notes ids |}).
  rewrite <- (Pkg_Proofs13.attributed_iff d notes cd).
  - unfold Pkg_Spec.attributed. cbn [Pkg_Model.cd_authors Pkg_Model.cd_list].
    assert (Len : length ids = length (ns_notes s)) by (rewrite L; unfold m, smap_map; apply map_length).
    assert (Hm : m = map (fun p => (fst p, shown_note (ns_show s) (snd p))) (ns_notes s)) by reflexivity.
    assert (Gen : forall l : smap xnote, forall is, length is = length l ->
      Forall (fun i => (N.to_nat i < length (map fst au))%nat) is -> (forall k n, In (k, n) l -> In (k, shown_note (ns_show s) n) m) ->
      ((forall x, In x (map (said (map fst au)) (combine (map (fun p => (fst p, shown_note (ns_show s) (snd p))) l) is)) -> c_author x = wanted x) <->
       Forall2 (fun n e => fst e = (Pkg_Model.nt_row n, Pkg_Model.nt_col n) /\ nth_error (map fst au) (N.to_nat (snd e)) = Some (Pkg_Spec.author_of d n)) (pkg_notes l) (Pkg_Model.zip_notes (pkg_notes l) is))).
    { induction l as [|[k n] l IH]; intros is Ls Lt Sub.
      - cbn. split; [constructor|intros _ x []].
      - destruct is as [|id is]; [discriminate|]. assert (IH' := IH is ltac:(cbn in Ls; congruence) (Forall_inv_tail Lt) ltac:(intros; apply Sub; right; assumption)).
        pose proof (Forall_inv Lt) as Hid. pose proof (Wt k (shown_note (ns_show s) n) id (Sub k n (or_introl eq_refl))) as Hw.
        assert (Av : xn_author (shown_note (ns_show s) n) = xn_author n) by (unfold shown_note; destruct (_ && _); reflexivity). rewrite Av in Hw.
        cbn [map combine pkg_notes Pkg_Model.zip_notes fst snd] in *. fold (pkg_notes l) in *.
        assert (One : c_author (said (map fst au) (k, shown_note (ns_show s) n, id)) = wanted (said (map fst au) (k, shown_note (ns_show s) n, id)) <->
          nth_error (map fst au) (N.to_nat id) = Some (match xn_author n with Some a => a | None => d end)).
        { rewrite Hw. cbn [said c_author]. destruct (nth_error (map fst au) (N.to_nat id)) as [a|] eqn:Ena; [|apply nth_error_None in Ena; lia].
          rewrite (nth_error_nth _ _ _ Ena). split; congruence. }
        split.
        + intros H. constructor; [split; [reflexivity|apply One; apply H; left; reflexivity]|]. apply IH'. intros x Hx. apply H. right. exact Hx.
        + intros H. inversion H as [|? ? ? ? [_ H1] H2]; subst. intros x [<-|Hx]; [apply One; exact H1|]. apply (proj2 IH' H2). exact Hx. }
    rewrite Hm. apply Gen; [exact Len|exact Hi|]. intros k n H. rewrite Hm. apply in_map_iff. exists (k, n). split; [reflexivity|exact H].
  - apply A1.
  - cbn [Pkg_Model.cd_authors]. apply Pkg_Proofs13.ai_keys. exact A1.
  - apply A1.
  - cbn [Pkg_Model.cd_list]. exact (Pkg_Proofs13.zip_notes_spec _ _ _ A2).
Qed.
Print Assumptions C74_authors_iff_partial.

(** A concrete case: a default author, a note by another, a replaced note, a note without prefix. *)
Definition demo_ops : list sheet_op :=
  [QAuthor (lit "Ann"); QNote 2 1 (lit "old") []; QNote 2 1 (lit " hi") [NAuthor (lit "Bob"); NFontSize (lit "10")]; QNote 0 0 (lit "x") [NPrefix false; NVisible true];
   QNote 1048576 0 (lit "off") []; QShow true].
Example C74_demo : Forall sheet_texts demo_ops /\ no_save demo_ops /\
  exists part root, comments_part Release (sheet_run demo_ops) = Some part /\ read_document part = Some root /\
  read_comments root = Some
    [{| c_row := 0; c_col := 0; c_author := lit "Ann"; c_runs := [{| nr_bold := false; nr_size := lit "8"; nr_font := lit "Tahoma"; nr_family := 2; nr_text := lit "x" |}] |};
     {| c_row := 2; c_col := 1; c_author := lit "Bob"; c_runs :=
        [{| nr_bold := true; nr_size := lit "10"; nr_font := lit "Tahoma"; nr_family := 2; nr_text := lit "Bob:" |};
         {| nr_bold := false; nr_size := lit "10"; nr_font := lit "Tahoma"; nr_family := 2; nr_text := 10 :: lit " hi" |}] |}] /\
  StronglySorted Book_Spec.str_lt (Pkg_Spec.firsts [default_author demo_ops] [lit "Ann"; lit "Bob"]).
Proof.
  split; [repeat constructor|]. split; [unfold no_save; cbn; intuition discriminate|]. eexists _, _. split; [vm_compute; reflexivity|]. split; [vm_compute; reflexivity|]. split; [vm_compute; reflexivity|].
  cbv [Pkg_Spec.firsts default_author last_of demo_ops fold_left short]. vm_compute. repeat (constructor; try reflexivity).
Qed.

(** Finding (with C34): a note by Alice is attributed to the default author, and its text starts with that name. *)
Theorem C74_wrong_author_shown_refuted :
  exists part root, comments_part Release (sheet_run [QNote 0 0 (lit "hello") [NAuthor (lit "Alice")]]) = Some part /\ read_document part = Some root /\
  exists x, read_comments root = Some [x] /\ c_author x = lit "Author" /\ map nr_text (c_runs x) = [lit "Author:"; 10 :: lit "hello"].
Proof. eexists _, _. split; [vm_compute; reflexivity|]. split; [vm_compute; reflexivity|]. eexists. split; [vm_compute; reflexivity|]. split; vm_compute; reflexivity. Qed.
Print Assumptions C74_wrong_author_shown_refuted.

(** ** C75 *)
Fixpoint button_said (id z k : N) (l : list (place * button)) : list shape :=
  match l with
  | [] => []
  | (p, b) :: l' => ShButton (shape_name (id + 1)) (button_caption k b) (button_macro k b) (frame_for p (bt_width b) (bt_height b) (z + 1) (bt_alt b)) :: button_said (id + 1) (z + 1) (k + 1) l'
  end.
Fixpoint note_said (id z : N) (places : N -> N -> place) (m : smap xnote) : list shape :=
  match m with
  | [] => []
  | (k, n) :: m' => ShNote (shape_name (id + 1)) (k / 16384) (k mod 16384) (note_visible n) (fill_seen (xn_fill n)) (frame_for (places (k / 16384) (k mod 16384)) (xn_width n) (xn_height n) (z + 1) (xn_alt n))
                    :: note_said (id + 1) (z + 1) places m'
  end.
Definition is_shape (w : wx) : Prop := is_elem "v:shape" (node_of w) = true.
Lemma buttons_read l : forall id z k, Forall (fun q => bfits (snd q) /\ pl_anchor (fst q) <> []) l ->
  Forall wx_ok (button_shapes id z k l) /\ Forall is_shape (button_shapes id z k l) /\ read_all read_shape (map node_of (button_shapes id z k l)) = Some (button_said id z k l).
Proof.
  induction l as [|[p b] l IH]; intros id z k F; [repeat split; constructor|]. cbn [button_shapes button_said]. destruct (Forall_inv F) as [B P]. cbn [fst snd] in B, P.
  destruct (button_reads (id + 1) (z + 1) k p b B P) as [W R]. destruct (IH (id + 1) (z + 1) (k + 1) (Forall_inv_tail F)) as (Ws & Ss & Rs).
  split; [constructor; assumption|]. split; [constructor; [reflexivity|exact Ss]|]. cbn [map read_all]. rewrite R. cbn [bind]. rewrite Rs. reflexivity.
Qed.
Lemma notes_read places m : forall id z, Forall (fun q => fits (snd q) /\ Color_Spec.real_color (xn_fill (snd q)) = true) m -> (forall r c, pl_anchor (places r c) <> []) ->
  Forall wx_ok (note_shapes id z places m) /\ Forall is_shape (note_shapes id z places m) /\ read_all read_shape (map node_of (note_shapes id z places m)) = Some (note_said id z places m).
Proof.
  induction m as [|[k n] m IH]; intros id z F P; [repeat split; constructor|]. cbn [note_shapes note_said]. destruct (Forall_inv F) as [B C]. cbn [snd] in B, C.
  destruct (note_reads (id + 1) (z + 1) k (places (k / 16384) (k mod 16384)) n B C (P _ _)) as [W R]. destruct (IH (id + 1) (z + 1) (Forall_inv_tail F) P) as (Ws & Ss & Rs).
  split; [constructor; assumption|]. split; [constructor; [reflexivity|exact Ss]|]. cbn [map read_all]. rewrite R. cbn [bind]. rewrite Rs. reflexivity.
Qed.
Lemma read_all_app {A B} (f : A -> option B) a b x y : read_all f a = Some x -> read_all f b = Some y -> read_all f (a ++ b) = Some (x ++ y).
Proof.
  revert x. induction a as [|c a IH]; intros x Ha Hb; cbn [read_all app] in *; [injection Ha as <-; exact Hb|]. destruct (f c); [|discriminate]. cbn [bind] in *.
  destruct (read_all f a) as [x'|]; [|discriminate]. cbn [bind] in Ha. injection Ha as <-. rewrite (IH x' eq_refl Hb). reflexivity.
Qed.
Lemma filter_shapes l : Forall is_shape l -> filter (is_elem "v:shape") (map node_of l) = map node_of l.
Proof. induction 1 as [|w l S F IH]; [reflexivity|]. cbn [map filter]. rewrite S, IH. reflexivity. Qed.
Lemma plain_read w : wx_ok w -> read_plain (write_wx w) = Some (node_of w).
Proof.
  intros W. unfold read_plain. assert (R := write_reads w W). assert (E : exists n l k, node_of w = Elem n l k) by (destruct w; do 3 eexists; reflexivity).
  destruct E as (n & l & k & E). rewrite E in *. rewrite (reads_doc _ _ R). reflexivity.
Qed.
Lemma ids_attr data n : attr_ok (data_ids data n).
Proof.
  unfold data_ids, attr_ok. rewrite forallb_app. apply andb_true_iff. split; [apply attr_dec|]. generalize 0. induction (N.to_nat (n / 1024)) as [|k IH]; intros i; [reflexivity|].
  cbn [more_ids]. rewrite !forallb_app. rewrite IH. rewrite (attr_dec (data + i + 1)). reflexivity.
Qed.
Lemma vml_reads data shape buttons places m : Forall (fun q => bfits (snd q) /\ pl_anchor (fst q) <> []) buttons -> (forall r c, pl_anchor (places r c) <> []) ->
  Forall (fun q => fits (snd q) /\ Color_Spec.real_color (xn_fill (snd q)) = true) m ->
  exists root, read_plain (write_wx (vml_xml data shape buttons places m)) = Some root /\
    read_shapes root = Some (button_said shape 0 1 buttons ++ note_said (shape + N.of_nat (length buttons)) (N.of_nat (length buttons)) places m).
Proof.
  intros B P M. set (nb := N.of_nat (length buttons)). destruct (buttons_read buttons shape 0 1 B) as (W1 & S1 & R1). destruct (notes_read places m (shape + nb) nb M P) as (W2 & S2 & R2).
  eexists. split.
  - apply plain_read. unfold vml_xml. apply ok_elem; [reflexivity|good|]. pose proof (ids_attr data (N.of_nat (length m))) as Ia.
    constructor; [apply ok_elem; [reflexivity|good|constructor; [split; [reflexivity|good]|constructor]]|].
    apply Forall_app. split.
    + destruct (Pkg_Model.is_nil buttons); [constructor|]. constructor; [|exact W1]. unfold button_type, shapetype. apply ok_elem; [reflexivity|good|].
      constructor; [split; [reflexivity|good]|]. constructor; [split; [reflexivity|good]|]. constructor; [split; [reflexivity|good]|constructor].
    + destruct (Pkg_Model.is_nil m); [constructor|]. constructor; [|exact W2]. unfold note_type, shapetype. apply ok_elem; [reflexivity|good|].
      constructor; [split; [reflexivity|good]|]. constructor; [split; [reflexivity|good]|constructor].
  - unfold vml_xml. cbn [node_of]. unfold read_shapes. cbn [is_elem kids_of]. change (str_eqb (lit "xml") (lit "xml")) with true. cbv iota. fold nb.
    assert (E : filter (is_elem "v:shape") (map node_of (WElem (lit "o:shapelayout") [(lit "v:ext", lit "edit")]
        [WEmpty (lit "o:idmap") [(lit "v:ext", lit "edit"); (lit "data", data_ids data (N.of_nat (length m)))]] ::
        (if Pkg_Model.is_nil buttons then [] else button_type :: button_shapes shape 0 1 buttons) ++ (if Pkg_Model.is_nil m then [] else note_type :: note_shapes (shape + nb) nb places m))) =
        map node_of (button_shapes shape 0 1 buttons) ++ map node_of (note_shapes (shape + nb) nb places m)).
    { rewrite (map_cons node_of). match goal with |- filter _ (?x :: ?l) = _ => change (filter (is_elem "v:shape") (x :: l)) with (filter (is_elem "v:shape") l) end.
      rewrite map_app, filter_app. f_equal.
      - destruct buttons as [|q buttons']; [reflexivity|]. cbn [Pkg_Model.is_nil]. rewrite (map_cons node_of).
        match goal with |- filter _ (?x :: ?l) = _ => change (filter (is_elem "v:shape") (x :: l)) with (filter (is_elem "v:shape") l) end. apply filter_shapes. exact S1.
      - destruct m as [|q m']; [reflexivity|]. cbn [Pkg_Model.is_nil]. rewrite (map_cons node_of).
        match goal with |- filter _ (?x :: ?l) = _ => change (filter (is_elem "v:shape") (x :: l)) with (filter (is_elem "v:shape") l) end. apply filter_shapes. exact S2. }
    rewrite E. apply read_all_app; assumption.
Qed.
Definition frame_of (s : shape) : frame := match s with ShNote _ _ _ _ _ f | ShButton _ _ _ f => f end.
Lemma said_nth_b l : forall id z k i p b, nth_error l i = Some (p, b) ->
  nth_error (button_said id z k l) i = Some (ShButton (shape_name (id + N.of_nat i + 1)) (button_caption (k + N.of_nat i) b) (button_macro (k + N.of_nat i) b) (frame_for p (bt_width b) (bt_height b) (z + N.of_nat i + 1) (bt_alt b))).
Proof.
  induction l as [|[p' b'] l IH]; intros id z k [|i] p b H; try discriminate; cbn [button_said nth_error] in *.
  - injection H as -> ->. change (N.of_nat 0) with 0. rewrite !N.add_0_r. reflexivity.
  - rewrite (IH _ _ _ i p b H). replace (id + 1 + N.of_nat i) with (id + N.of_nat (S i)) by lia. replace (z + 1 + N.of_nat i) with (z + N.of_nat (S i)) by lia.
    replace (k + 1 + N.of_nat i) with (k + N.of_nat (S i)) by lia. reflexivity.
Qed.
Lemma said_len_b l : forall id z k, length (button_said id z k l) = length l.
Proof. induction l as [|[p b] l IH]; intros; [reflexivity|]. cbn. rewrite IH. reflexivity. Qed.
Lemma said_ids_b l : forall id z k i x, nth_error (button_said id z k l) i = Some x -> shape_id x = shape_name (id + N.of_nat i + 1) /\ f_z (frame_of x) = z + N.of_nat i + 1.
Proof.
  induction l as [|[p b] l IH]; intros id z k [|i] x H; try discriminate; cbn [button_said nth_error] in *.
  - injection H as <-. cbn [shape_id frame_of frame_for f_z]. change (N.of_nat 0) with 0. rewrite !N.add_0_r. split; reflexivity.
  - destruct (IH _ _ _ _ _ H) as [-> ->]. split; [f_equal; lia|lia].
Qed.
Lemma said_ids_n places m : forall id z i x, nth_error (note_said id z places m) i = Some x -> shape_id x = shape_name (id + N.of_nat i + 1) /\ f_z (frame_of x) = z + N.of_nat i + 1.
Proof.
  induction m as [|[k n] m IH]; intros id z [|i] x H; try discriminate; cbn [note_said nth_error] in *.
  - injection H as <-. cbn [shape_id frame_of frame_for f_z]. change (N.of_nat 0) with 0. rewrite !N.add_0_r. split; reflexivity.
  - destruct (IH _ _ _ _ H) as [-> ->]. split; [f_equal; lia|lia].
Qed.
Lemma shown_buttons l : forall id z k r c, notes_shown (button_said id z k l) r c = [].
Proof. induction l as [|[p b] l IH]; intros; [reflexivity|]. cbn. apply IH. Qed.
Lemma shown_none places m r c : forall id z, c < 16384 -> get (cell_key r c) m = None -> notes_shown (note_said id z places m) r c = [].
Proof.
  intros id z Hc. revert id z. induction m as [|[k n] m IH]; intros id z G; [reflexivity|]. cbn [get note_said] in *. unfold notes_shown. cbn [flat_map]. fold (notes_shown (note_said (id + 1) (z + 1) places m) r c).
  rewrite <- key_inj by (exact Hc || (apply N.mod_lt; discriminate)). rewrite key_eq. destruct (k =? cell_key r c); [discriminate|]. cbn [app]. apply IH. exact G.
Qed.
Lemma shown_note_at places m r c n : forall id z, c < 16384 -> SMap.ok m -> get (cell_key r c) m = Some n ->
  exists z', notes_shown (note_said id z places m) r c = [(note_visible n, fill_seen (xn_fill n), frame_for (places r c) (xn_width n) (xn_height n) z' (xn_alt n))].
Proof.
  intros id z Hc. revert id z. induction m as [|[k n'] m IH]; intros id z O G; [discriminate|]. cbn [get note_said] in *. unfold notes_shown. cbn [flat_map]. fold (notes_shown (note_said (id + 1) (z + 1) places m) r c).
  assert (O' : SMap.ok m) by (unfold SMap.ok in *; cbn in O; inversion O; assumption).
  rewrite <- key_inj by (exact Hc || (apply N.mod_lt; discriminate)). rewrite key_eq. destruct (N.eqb_spec k (cell_key r c)) as [->|Hk].
  - assert (Gn : get (cell_key r c) m = None) by (apply get_lt; unfold SMap.ok in O; cbn in O; inversion O; assumption).
    rewrite (shown_none places m r c _ _ Hc Gn). injection G as ->. rewrite key_div, key_mod by exact Hc. eexists. reflexivity.
  - cbn [app]. apply IH; assumption.
Qed.
Lemma seen_color ops r c t l n : Forall sheet_colors ops -> note_on r c ops = Some (t, l) -> seen_note t l n -> Color_Spec.real_color (xn_fill n) = true.
Proof.
  intros F E S. assert (G : match note_on r c ops with Some (_, l) => Forall op_colors l | None => True end).
  { unfold note_on. apply (last_all (fun o => match o with Some (_, l) => Forall op_colors l | None => True end) sheet_colors); [|exact I|exact F].
    intros o v H Ev. destruct o; try discriminate. destruct (_ && _); [|discriminate]. injection Ev as <-. exact H. }
  rewrite E in G. pose proof (made_color t l G) as Hc. destruct S as [-> | ->]; [exact Hc|]. unfold shown_note. destruct (true && _); exact Hc.
Qed.

(** After any history of calls and saves, with any buttons and any places: the VML part of the next save reads back. The
    shapes are numbered one by one from the id the workbook gave the sheet, and are stacked in that order. The buttons come first,
    with their captions, macros, sizes and alternative texts.  A cell has one shape if it has a note, and none otherwise; it has the note's
    place, size, alternative text and fill, and is visible if the note was made visible, or if the note does not say
    and the sheet shows all notes. *)
Theorem C75_shapes_read_back data shape (buttons : list (place * list button_op)) places ops :
  Forall sheet_texts ops -> Forall sheet_colors ops -> Forall (fun q => Forall button_texts (snd q) /\ length (pl_anchor (fst q)) = 8%nat) buttons -> (forall r c, length (pl_anchor (places r c)) = 8%nat) ->
  exists root l, read_plain (vml_part data shape (map (fun q => (fst q, make_button (snd q))) buttons) places (sheet_run ops)) = Some root /\ read_shapes root = Some l /\
  (forall i x, nth_error l i = Some x -> shape_id x = lit "_x0000_s" ++ dec (shape + N.of_nat i + 1) /\ f_z (frame_of x) = N.of_nat i + 1) /\
  (forall i p calls, nth_error buttons i = Some (p, calls) -> exists id, nth_error l i = Some (ShButton id (wanted_caption (N.of_nat i + 1) calls) (wanted_macro (N.of_nat i + 1) calls)
     (frame_for p (button_width calls) (button_height calls) (N.of_nat i + 1) (button_alt calls)))) /\
  forall r c, on_grid r c = true ->
    match note_on r c ops with
    | None => notes_shown l r c = []
    | Some (text, calls) => exists v z, notes_shown l r c =
          [(v, fill_seen (wanted_fill calls), frame_for (places r c) (wanted_width calls) (wanted_height calls) z (wanted_alt calls))] /\
        (forall b, wanted_visible calls = Some b -> v = b) /\
        (wanted_visible calls = None -> (show_all ops = true -> v = true) /\ (no_save ops -> v = show_all ops))
    end.
Proof.
  intros F Fc Fb Fp. unfold vml_part. destruct (prepare_notes (sheet_run ops)) as [s' ids] eqn:E. cbn [fst].
  destruct (prepared ops s' ids F E) as (Ok & _ & _ & _ & _ & _ & Ft & Em). assert (I := sheet_run_inv ops). set (s := sheet_run ops) in *.
  set (bs := map (fun q => (fst q, make_button (snd q))) buttons).
  assert (Hb : Forall (fun q => bfits (snd q) /\ pl_anchor (fst q) <> []) bs).
  { unfold bs. apply Forall_forall. intros q Hq. apply in_map_iff in Hq as (q' & <- & Hq). rewrite Forall_forall in Fb. destruct (Fb _ Hq) as [B1 B2]. cbn [fst snd].
    split; [apply button_fits; exact B1|]. destruct (pl_anchor (fst q')); [discriminate|discriminate]. }
  assert (Hp : forall r c, pl_anchor (places r c) <> []) by (intros r c Hn; specialize (Fp r c); rewrite Hn in Fp; discriminate).
  assert (Hm : Forall (fun q => fits (snd q) /\ Color_Spec.real_color (xn_fill (snd q)) = true) (ns_notes s')).
  { apply Forall_forall. intros [k n] Hq. rewrite Forall_forall in Ft. split; [exact (Ft _ Hq)|]. cbn [snd]. rewrite Em in Hq. unfold smap_map in Hq. apply in_map_iff in Hq as ([k' n'] & Eq & Hq). cbn [fst snd] in Eq.
    injection Eq as <- <-. apply (In_get _ _ _ (si_ok _ _ I)) in Hq. destruct (get_on _ _ _ _ I Hq) as (t & l & Hon & _ & Hs & _).
    apply (seen_color ops _ _ t l _ Fc Hon). apply seen_again. exact Hs. }
  destruct (vml_reads data shape bs places (ns_notes s') Hb Hp Hm) as (root & Rd & Rs). exists root. eexists. split; [exact Rd|]. split; [exact Rs|].
  assert (Lb : length (button_said shape 0 1 bs) = length bs) by apply said_len_b.
  split; [|split].
  - intros i x Hx. destruct (Nat.ltb i (length bs)) eqn:Lt.
    + apply Nat.ltb_lt in Lt. rewrite nth_error_app1 in Hx by (rewrite Lb; exact Lt). destruct (said_ids_b _ _ _ _ _ _ Hx) as [A B]. split; [exact A|rewrite B; lia].
    + apply Nat.ltb_ge in Lt. rewrite nth_error_app2 in Hx by (rewrite Lb; exact Lt). rewrite Lb in Hx. destruct (said_ids_n _ _ _ _ _ _ Hx) as [A B]. rewrite A, B. split; [unfold shape_name; do 2 f_equal; lia|lia].
  - intros i p calls Hx. assert (Hx' : nth_error bs i = Some (p, make_button calls)) by (unfold bs; rewrite nth_error_map, Hx; reflexivity).
    assert (Lt : (i < length bs)%nat) by (apply nth_error_Some; congruence). rewrite nth_error_app1 by (rewrite Lb; exact Lt). eexists. rewrite (said_nth_b _ _ _ _ _ _ _ Hx').
    rewrite caption_made, macro_made, bwidth_made, bheight_made, balt_made. replace (1 + N.of_nat i) with (N.of_nat i + 1) by lia. replace (0 + N.of_nat i + 1) with (N.of_nat i + 1) by lia. reflexivity.
  - intros r c G. pose proof (proj1 (on_grid_spec _ _) G) as [_ Hc].
    assert (Split : forall a b, notes_shown (a ++ b) r c = notes_shown a r c ++ notes_shown b r c) by (intros; unfold notes_shown; apply flat_map_app).
    rewrite Split, shown_buttons. cbn [app]. pose proof (si_notes _ _ I r c G) as Kn. unfold known in Kn.
    assert (Gs : get (cell_key r c) (ns_notes s') = option_map (shown_note (show_all ops)) (get (cell_key r c) (ns_notes s))) by (rewrite Em, (get_smap_map (fun _ => shown_note (show_all ops)) (ns_notes s) (cell_key r c)); reflexivity).
    destruct (note_on r c ops) as [[t l]|], (get (cell_key r c) (ns_notes s)) as [n|]; try (exact (False_ind _ Kn)); cbn [option_map] in Gs.
    + destruct Kn as [Sn Nn]. destruct (shown_note_at places _ r c _ (shape + N.of_nat (length bs)) (N.of_nat (length bs)) Hc Ok Gs) as (z & Z).
      set (n' := shown_note (show_all ops) n) in *. exists (note_visible n'), z. rewrite Z.
      assert (Same : forall b, xn_fill (shown_note b n) = wanted_fill l /\ xn_width (shown_note b n) = wanted_width l /\ xn_height (shown_note b n) = wanted_height l /\ xn_alt (shown_note b n) = wanted_alt l).
      { intros b. rewrite <- (fill_made t l), <- (width_made t l), <- (height_made t l), <- (alt_made t l). destruct Sn as [-> | ->]; unfold shown_note; repeat match goal with |- context [if ?b then _ else _] => destruct b end; repeat split. }
      destruct (Same (show_all ops)) as (E1 & E2 & E3 & E4). fold n' in E1, E2, E3, E4. rewrite E1, E2, E3, E4. split; [reflexivity|]. rewrite <- (visible_made t l). split.
      * intros b Hv. unfold note_visible, n'. destruct Sn as [-> | ->]; unfold shown_note; do 3 (rewrite ?Hv; cbn [andb]; rewrite ?andb_false_r); reflexivity.
      * intros Hv. split.
        -- intros Sh. unfold n'. rewrite Sh. destruct Sn as [-> | ->]; unfold shown_note, note_visible; rewrite Hv; reflexivity.
        -- intros Hns. unfold n'. rewrite (Nn Hns). unfold shown_note, note_visible. rewrite Hv. destruct (show_all ops); cbn [andb xn_visible]; rewrite ?Hv; reflexivity.
    + apply shown_none; [exact Hc|exact Gs].
Qed.
Print Assumptions C75_shapes_read_back.

Definition at_place (x : N) : place := {| pl_anchor := [x; 15; 0; 10; x + 2; 15; 4; 4]; pl_left := 59 + x; pl_top := 1 |}.
Example C75_demo : Forall sheet_texts demo_ops /\ Forall sheet_colors demo_ops /\
  (exists root l, read_plain (vml_part 1 1024 [(at_place 5, make_button [BCaption (lit "Go"); BWidth 80])] (fun r c => at_place (r + c)) (sheet_run demo_ops)) = Some root /\ read_shapes root = Some l /\
   nth_error l 0 = Some (ShButton (lit "_x0000_s1025") (lit "Go") (lit "[0]!Button1_Click")
     {| f_left := 4800; f_top := 75; f_width := 6000; f_height := 1500; f_z := 1; f_anchor := [5; 15; 0; 10; 7; 15; 4; 4]; f_alt := [] |}) /\
   map (fun x => fst x) (notes_shown l 2 1) = [(true, 16777185)] /\ length l = 3%nat).
Proof. split; [repeat constructor|]. split; [repeat constructor|]. eexists _, _. split; [vm_compute; reflexivity|]. split; [vm_compute; reflexivity|]. repeat split. Qed.

(** Finding: show_all_notes(true) at a save sticks to the notes: after show_all_notes(false) the next save still shows them. *)
Theorem C75_show_all_sticks_refuted :
  let ops := [QNote 0 0 (lit "hello") []; QShow true; QSave; QShow false] in
  show_all ops = false /\ exists root l, read_plain (vml_part 1 1024 [] (fun r c => at_place 0) (sheet_run ops)) = Some root /\ read_shapes root = Some l /\ map (fun x => fst (fst x)) (notes_shown l 0 0) = [true].
Proof. cbv zeta. split; [reflexivity|]. eexists _, _. split; [vm_compute; reflexivity|]. split; [vm_compute; reflexivity|]. vm_compute. reflexivity. Qed.
Print Assumptions C75_show_all_sticks_refuted.
(** Finding: a theme colour given to Note::set_background_color is dropped; the note has the default yellow. *)
Theorem C75_theme_fill_refuted :
  let ops := [QNote 0 0 (lit "hello") [NBackground (CTheme 4 0)]] in
  Forall sheet_colors ops /\ exists root l, read_plain (vml_part 1 1024 [] (fun r c => at_place 0) (sheet_run ops)) = Some root /\ read_shapes root = Some l /\ map (fun x => snd (fst x)) (notes_shown l 0 0) = [16777185].
Proof. cbv zeta. split; [repeat constructor|]. eexists _, _. split; [vm_compute; reflexivity|]. split; [vm_compute; reflexivity|]. vm_compute. reflexivity. Qed.
Print Assumptions C75_theme_fill_refuted.
