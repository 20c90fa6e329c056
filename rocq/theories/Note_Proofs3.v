(** Notes: the whole comments part. *)
From Coq Require Import Sorted Permutation.
From Verif Require Import Base Xml_Model Xml_Spec Xml_Read Xml_Tree SMap Fmt_Model Rich_Model Rich_Proofs SheetXml_Spec SheetXml_Proofs3 Doc_Spec View_Spec Props_Doc Tag_Proofs Part_Proofs
  Setup_Spec Note_Model Note_Spec Note_Proofs Note_Proofs2.
From Verif Require Book_Model Pkg_Model Pkg_Spec Pkg_Proofs13.

Definition runs_note (author : str) (n : xnote) : list note_run :=
  let run b s := {| nr_bold := b; nr_size := xn_size n; nr_font := xn_font n; nr_family := xn_family n; nr_text := s |} in
  if xn_prefix n then [run true (author ++ lit ":"); run false (10 :: xn_text n)] else [run false (xn_text n)].
Lemma seen_runs a t l n : seen_note t l n -> runs_note a n = runs_for a t l.
Proof.
  intros H. assert (E : runs_note a n = runs_note a (make_note t l)).
  { destruct H as [-> | ->]; [reflexivity|]. unfold shown_note. destruct (true && _); reflexivity. }
  rewrite E. unfold runs_note, runs_for. rewrite prefix_made, size_made, font_made, family_made, text_made. reflexivity.
Qed.
Definition said (au : list str) (p : N * xnote * N) : comment :=
  let '(k, n, id) := p in let a := nth (N.to_nat id) au [] in
  {| c_row := k / 16384; c_col := k mod 16384; c_author := a; c_runs := runs_note a n |}.
Lemma doc_text_app a b : doc_text a -> doc_text b -> doc_text (a ++ b).
Proof. unfold doc_text. intros A B. rewrite forallb_app, A, B. reflexivity. Qed.
Lemma block_reads au id n a : nth_error au (N.to_nat id) = Some a -> doc_text a -> fits n ->
  wx_ok (text_block au id n) /\ exists kids, node_of (text_block au id n) = Elem (lit "text") [] kids /\ read_all read_run kids = Some (runs_note a n).
Proof.
  intros Ha D F. unfold text_block, runs_note. rewrite Ha. cbv beta iota zeta. destruct (xn_prefix n).
  - destruct (run_reads n true (a ++ lit ":") F (doc_text_app a (lit ":") D eq_refl)) as [W1 R1].
    destruct (run_reads n false (10 :: xn_text n) F (doc_text_app [10] (xn_text n) eq_refl (ft_text _ F))) as [W2 R2].
    split; [apply wx_ok_elem; split; [reflexivity|split; [apply attrs_nil|constructor; [exact W1|constructor; [exact W2|constructor]]]]|].
    exists [node_of (Note_Model.note_run n true (a ++ lit ":")); node_of (Note_Model.note_run n false (10 :: xn_text n))]. split; [reflexivity|]. cbn [read_all]. rewrite R1. cbn [bind]. rewrite R2. reflexivity.
  - destruct (run_reads n false (xn_text n) F (ft_text _ F)) as [W2 R2].
    split; [apply wx_ok_elem; split; [reflexivity|split; [apply attrs_nil|constructor; [exact W2|constructor]]]|].
    exists [node_of (Note_Model.note_run n false (xn_text n))]. split; [reflexivity|]. cbn [read_all]. rewrite R2. reflexivity.
Qed.
Lemma comment_reads v au k id n : k / 16384 < 1048576 -> (N.to_nat id < length au)%nat -> Forall doc_text au -> fits n ->
  exists w, comment_xml v au k id n = Some w /\ wx_ok w /\ read_comment au (node_of w) = Some (said au (k, n, id)).
Proof.
  intros K L D F. assert (Hc : k mod 16384 < Ref_Model.COL_MAX) by (apply N.mod_lt; discriminate).
  destruct (cell_text v (k / 16384) (k mod 16384) K Hc) as (t & E & A & _ & C). unfold comment_xml. rewrite E. cbv beta iota delta [obind].
  destruct (nth_error au (N.to_nat id)) as [a|] eqn:Ea; [|apply nth_error_None in Ea; lia].
  assert (Da : doc_text a) by (rewrite Forall_forall in D; apply D; eapply nth_error_In; exact Ea).
  destruct (block_reads au id n a Ea Da F) as [W (kids & Ek & R)]. eexists. split; [reflexivity|]. split.
  - apply wx_ok_elem. split; [reflexivity|]. split; [good|constructor; [exact W|constructor]].
  - cbn [node_of map]. rewrite Ek. unfold read_comment. cbn [is_elem]. change (str_eqb (lit "comment") (lit "comment")) with true. cbv iota. cbn [attrs_of kids_of].
    rewrite !attr_cons. change (String.eqb "ref" "ref") with true. change (String.eqb "ref" "authorId") with false. change (String.eqb "authorId" "authorId") with true. cbv iota. cbn [bind].
    rewrite C. cbn [bind]. rewrite number_of_dec. cbn [bind]. rewrite Ea. cbn [bind]. rewrite kid_one. change (String.eqb "text" "text") with true. cbv iota. cbn [bind kids_of].
    rewrite R. cbn [bind fst snd]. unfold said. rewrite (nth_error_nth _ _ _ Ea). reflexivity.
Qed.
Lemma list_reads v au m : forall ids, length ids = length m -> Forall (fun k => k / 16384 < 1048576) (keys m) -> Forall (fun i => (N.to_nat i < length au)%nat) ids -> Forall doc_text au ->
  Forall (fun p => fits (snd p)) m ->
  exists ws, comment_list v au m ids = Some ws /\ Forall wx_ok ws /\ read_all (read_comment au) (map node_of ws) = Some (map (said au) (combine m ids)).
Proof.
  induction m as [|[k n] m IH]; intros ids L K Hi D F.
  - exists []. repeat split; constructor.
  - destruct ids as [|id ids]; [discriminate|]. cbn [comment_list keys map fst] in *.
    destruct (comment_reads v au k id n (Forall_inv K) (Forall_inv Hi) D (Forall_inv F)) as (w & E & W & R). rewrite E. cbv beta iota delta [obind].
    destruct (IH ids (f_equal pred L) (Forall_inv_tail K) (Forall_inv_tail Hi) D (Forall_inv_tail F)) as (ws & Es & Ws & Rs). rewrite Es.
    exists (w :: ws). split; [reflexivity|]. split; [constructor; assumption|]. cbn [map read_all combine]. rewrite R. cbn [bind]. rewrite Rs. reflexivity.
Qed.
Lemma authors_read au : Forall doc_text au -> Forall wx_ok (map (fun a => WData (lit "author") a []) au) /\ read_all text_of (map node_of (map (fun a => WData (lit "author") a []) au)) = Some au.
Proof.
  induction 1 as [|a au D F [W R]]; [split; [constructor|reflexivity]|]. cbn [map]. split; [constructor; [apply ok_data; [reflexivity|apply attrs_nil|exact D]|exact W]|].
  cbn [read_all]. rewrite node_data by exact D. rewrite text_leaf. cbn [bind]. rewrite R. reflexivity.
Qed.
Lemma part_reads v au m ids : au <> [] -> length ids = length m -> Forall (fun k => k / 16384 < 1048576) (keys m) -> Forall (fun i => (N.to_nat i < length au)%nat) ids -> Forall doc_text au ->
  Forall (fun p => fits (snd p)) m ->
  exists w root, comments_xml v au m ids = Some w /\ read_document (document w) = Some root /\ read_comments root = Some (map (said au) (combine m ids)).
Proof.
  intros Ne L K Hi D F. destruct (list_reads v au m ids L K Hi D F) as (ws & E & W & R). destruct (authors_read au D) as [Wa Ra].
  unfold comments_xml. rewrite E. cbv beta iota delta [obind]. assert (Na : Pkg_Model.is_nil au = false) by (destruct au; [congruence|reflexivity]). rewrite Na.
  do 2 eexists. split; [reflexivity|]. split.
  - apply document_reads. apply wx_ok_elem. split; [reflexivity|]. split; [good|]. cbn [app].
    constructor; [apply wx_ok_elem; split; [reflexivity|split; [apply attrs_nil|exact Wa]]|].
    constructor; [apply wx_ok_elem; split; [reflexivity|split; [apply attrs_nil|exact W]]|constructor].
  - cbn [app node_of map]. unfold read_comments. cbn [is_elem]. change (str_eqb (lit "comments") (lit "comments")) with true. cbv iota. cbn [kids_of].
    rewrite !kid_one. change (String.eqb "authors" "authors") with true. change (String.eqb "authors" "commentList") with false. change (String.eqb "commentList" "commentList") with true.
    cbv iota. cbn [bind kids_of]. rewrite Ra. cbn [bind]. exact R.
Qed.

(** ** By cell *)
Lemma combine_at (m : smap xnote) : forall ids K, SMap.ok m -> length ids = length m ->
  match get K m with
  | None => filter (fun p : N * xnote * N => fst (fst p) =? K) (combine m ids) = []
  | Some n => exists id, In id ids /\ filter (fun p : N * xnote * N => fst (fst p) =? K) (combine m ids) = [(K, n, id)]
  end.
Proof.
  induction m as [|[k n] m IH]; intros ids K O L; [reflexivity|]. destruct ids as [|id ids]; [discriminate|]. cbn [get combine filter fst].
  assert (O' : SMap.ok m) by (unfold SMap.ok in *; cbn in O; inversion O; assumption). specialize (IH ids K O' (f_equal pred L)).
  destruct (N.eqb_spec k K) as [->|Hk].
  - assert (G : get K m = None) by (apply get_lt; unfold SMap.ok in O; cbn in O; inversion O; assumption). rewrite G in IH. rewrite IH.
    rewrite ?N.eqb_refl. exists id. split; [left; reflexivity|reflexivity].
  - rewrite ?(proj2 (N.eqb_neq K k)) by congruence. destruct (get K m); [|exact IH]. destruct IH as (i & Hi & E). exists i. split; [right; exact Hi|exact E].
Qed.
Lemma filter_map {A B} (f : B -> bool) (g : A -> B) l : filter f (map g l) = map g (filter (fun x => f (g x)) l).
Proof. induction l as [|x l IH]; [reflexivity|]. cbn [map filter]. destruct (f (g x)); cbn [map]; rewrite IH; reflexivity. Qed.
Lemma at_cell au m ids r c : SMap.ok m -> length ids = length m -> c < 16384 ->
  match get (cell_key r c) m with
  | None => comments_at (map (said au) (combine m ids)) r c = []
  | Some n => exists id, In id ids /\ comments_at (map (said au) (combine m ids)) r c = [said au (cell_key r c, n, id)]
  end.
Proof.
  intros O L Hc. pose proof (combine_at m ids (cell_key r c) O L) as H. unfold comments_at. rewrite filter_map.
  assert (E : filter (fun x => (c_row (said au x) =? r) && (c_col (said au x) =? c)) (combine m ids) = filter (fun p : N * xnote * N => fst (fst p) =? cell_key r c) (combine m ids)).
  { apply filter_ext. intros [[k n] id]. cbn [said c_row c_col fst]. rewrite <- (key_eq k) at 3. rewrite key_inj; [reflexivity|exact Hc|apply N.mod_lt; discriminate]. }
  rewrite E. destruct (get _ m); [|rewrite H; reflexivity]. destruct H as (id & Hi & H). exists id. split; [exact Hi|]. rewrite H. reflexivity.
Qed.

(** ** Saving *)
Lemma pkg_length m : length (pkg_notes m) = length m. Proof. unfold pkg_notes. apply map_length. Qed.
Lemma forall2_length {A B} (P : A -> B -> Prop) a b : Forall2 P a b -> length b = length a.
Proof. induction 1; cbn; congruence. Qed.
Lemma prepared ops s' ids : Forall sheet_texts ops -> prepare_notes (sheet_run ops) = (s', ids) ->
  let m := ns_notes s' in let au := map fst (ns_authors s') in
  SMap.ok m /\ au <> [] /\ length ids = length m /\ Forall (fun k => k / 16384 < 1048576) (keys m) /\ Forall (fun i => (N.to_nat i < length au)%nat) ids /\ Forall doc_text au /\
  Forall (fun p => fits (snd p)) m /\ m = smap_map (fun _ => shown_note (show_all ops)) (ns_notes (sheet_run ops)).
Proof.
  intros F E. assert (I := sheet_run_inv ops). set (s := sheet_run ops) in *. assert (Ks := prepare_keys _ _ _ _ F I (run_keys ops F) E).
  unfold prepare_notes in E. destruct (Pkg_Model.assign_authors (ns_authors s) (pkg_notes (ns_notes s))) as [au i] eqn:Ea.
  assert (Es : s' = {| ns_notes := smap_map (fun _ => shown_note (ns_show s)) (ns_notes s); ns_authors := au; ns_show := ns_show s |}) by congruence. assert (i = ids) by congruence. subst s' i.
  cbn [ns_notes ns_authors] in *. destruct (si_authors _ _ I) as (d & o & Ia & _).
  destruct (Pkg_Proofs13.assign_ok d _ _ _ _ _ Ia eq_refl Ea) as [A1 A2].
  assert (Lp : length (map fst au) = length (Pkg_Spec.firsts (d :: o) (map (Pkg_Spec.author_of d) (pkg_notes (ns_notes s))))) by (apply Permutation_length, Pkg_Proofs13.ai_keys; exact A1).
  rewrite (si_show _ _ I) in *.
  split; [apply smap_map_ok; apply I|]. split.
  { intros H. rewrite H in Lp. destruct (firsts_cons d o (map (Pkg_Spec.author_of d) (pkg_notes (ns_notes s)))) as (o' & Eo). rewrite Eo in Lp. discriminate. }
  split; [rewrite (forall2_length _ _ _ A2), pkg_length; unfold smap_map; rewrite map_length; reflexivity|].
  split; [rewrite keys_smap_map; apply I|]. split.
  { rewrite Lp. clear -A2. revert A2. generalize (Pkg_Spec.firsts (d :: o) (map (Pkg_Spec.author_of d) (pkg_notes (ns_notes s)))). intros ord A2. induction A2 as [|x y a b H A IH]; constructor; [apply nth_error_Some; congruence|exact IH]. }
  split; [exact Ks|]. split; [|reflexivity].
  apply Forall_forall. intros p Hp. unfold smap_map in Hp. apply in_map_iff in Hp as ([k n] & <- & Hp). cbn [fst snd]. apply shown_fits.
  apply (In_get _ _ _ (si_ok _ _ I)) in Hp. destruct (get_on _ _ _ _ I Hp) as (t & l & Hon & _ & Hs & _). destruct (note_on_texts _ _ _ _ _ F Hon) as [T L].
  exact (seen_fits _ _ _ T L Hs).
Qed.
