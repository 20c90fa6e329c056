(** Theorems about the saved package: C31-C35, C48. *)
From Coq Require Import Permutation Sorted.
From Verif Require Import Base Xml_Model Url_Model Book_Model Book_Spec Book_Proofs Book_Proofs2 Pkg_Model Pkg_Spec Pkg_Names Pkg_Proofs Pkg_Proofs2 Pkg_Proofs3 Pkg_Proofs4 Pkg_Proofs5 Pkg_Proofs6 Pkg_Proofs7 Pkg_Proofs8 Pkg_Proofs9 Pkg_Proofs10 Pkg_Proofs11 Pkg_Proofs12 Pkg_Proofs13 Pkg_Proofs14.

Lemma Forall2_pick_nth {A B} (R : A -> B -> Prop) la lb j x : Forall2 R la lb -> nth_error la j = Some x ->
  exists y, nth_error lb j = Some y /\ R x y.
Proof.
  intros H. revert j. induction H as [|u v la lb H1 H2 IH]; intros [|j] Hx; try discriminate; cbn [nth_error] in *.
  - injection Hx as ->. eauto.
  - apply IH, Hx.
Qed.

(** ** C31 *)

(** For every history of edits and saves, in the saved package every r:id of a
    worksheet is the id of a relationship of that worksheet that leads to the
    object: hyperlinks to their targets, the drawing to a drawing part, legacy
    drawings to the VML part with exactly this sheet's notes and buttons (and
    header images), the picture to an image, each table part to the table with
    this name and body; and the comments part lists exactly this sheet's notes.
    Elements without an object are not written. *)
Theorem C31_worksheet_references m lower b b' pkg i s :
  reach m lower b -> save_pkg m lower b = Some (b', Saved pkg) -> rels_ok m pkg ->
  nth_error (w_sheets b) i = Some s -> u_chartsheet (ps_u s) = false ->
  let u := ps_u s in
  exists name d, sheet_part pkg i u name d /\
    hyperlinks_ok pkg name (u_links u) (sd_links d) /\
    ref_when (has_objects u) (sd_drawing d) (fun id => exists part l, opens pkg name id "drawing" part (CDrawing l)) /\
    ref_when (nonempty (u_notes u) || nonempty (u_buttons u)) (sd_legacy d) (fun id => exists part v,
      opens pkg name id "vmlDrawing" part (CVml v) /\
      map snd (vd_notes v) = u_notes u /\ map snd (vd_buttons v) = u_buttons u /\ vd_images v = []) /\
    ref_when (nonempty (u_hf u)) (sd_legacy_hf d) (fun id => exists part v,
      opens pkg name id "vmlDrawing" part (CVml v) /\
      length (vd_images v) = length (u_hf u) /\ vd_notes v = [] /\ vd_buttons v = []) /\
    ref_when (is_some (u_bg u)) (sd_picture d) (fun id => exists r, rel_of pkg name id = Some r /\ r_type r = DOC "image") /\
    Forall2 (fun t id => exists k, opens pkg name id "table" (numbered "xl/tables/table" k ".xml") (CTable k (table_name (fst t) k) (snd t)))
            (u_tables u) (sd_tables d) /\
    (u_notes u <> [] -> exists id part c, opens pkg name id "comments" part (CComments c) /\
       map (fun x => (fst (fst x), snd (fst x))) (cd_list c) = map (fun n => (nt_row n, nt_col n)) (u_notes u)).
Proof.
  intros Hre Hs Hr Hi Hc u. destruct (saved_world m lower b b' pkg Hre Hs) as (emb & l & a & W).
  destruct (worksheet_refs m b pkg emb l a W Hr i s Hi Hc) as (name & d & P1 & _ & P2 & P3 & P4 & P5 & P6 & P7 & P8 & _).
  fold u in P1, P2, P3, P4, P5, P6, P7, P8.
  exists name, d. split; [exact P1|]. split; [exact P2|]. split; [|split; [exact P4|split; [exact P5|split; [|split]]]].
  - destruct (has_objects u); cbn [ref_when] in *; [|exact P3]. destruct P3 as (k & E & n & an & _ & H). exists k. split; [exact E|]. eauto.
  - destruct (is_some (u_bg u)); cbn [ref_when] in *; [|exact P6]. destruct P6 as (k & E & r & H1 & H2). exists k. split; [exact E|].
    exists r. split; [exact H1|]. destruct (nth_sheet m b pkg emb l a W i s Hi) as (l1 & l2 & E1 & El & E2 & _ & _).
    assert (Hin : In r (d_bg (p_d (nth i l (prep1 (st0 0) s))))) by (rewrite H2; left; reflexivity).
    assert (Hn : nth i l (prep1 (st0 0) s) = prep1 (after (st0 (N.of_nat (length emb))) l1) s).
    { rewrite E2, app_nth2; rewrite <- (map_length p_u), prep_st_us, map_length; [|lia]. rewrite El, Nat.sub_diag. reflexivity. }
    rewrite Hn in Hin. eapply bg_types, Hin.
  - clear -P7. revert P7. set (tb := u_tables u). clearbody tb. intros H.
    assert (Hl := Forall2_len _ _ _ H). rewrite combine_length, seq_length, Nat.min_id in Hl.
    apply Forall2_nth; [exact Hl|]. intros j x y Hx Hy.
    assert (Hc : nth_error (combine (seq 0 (length tb)) tb) j = Some (j, x)).
    { assert (Hj : (j < length tb)%nat) by (apply nth_error_Some; congruence).
      clear -Hx Hj. enough (G : forall k, nth_error (combine (seq k (length tb)) tb) j = Some ((k + j)%nat, x)) by exact (G O).
      revert j Hx Hj. induction tb as [|t tb IH]; intros [|j] Hx Hj k; try discriminate; cbn [length seq combine nth_error] in *.
      - injection Hx as ->. rewrite Nat.add_0_r. reflexivity.
      - rewrite IH by (try exact Hx; lia). do 2 f_equal. lia. }
    destruct (Forall2_pick_nth _ _ _ j _ H Hc) as (y' & Hy' & Hr). rewrite Hy in Hy'. injection Hy' as <-. cbn [fst snd] in Hr. eauto.
  - intros Hn. destruct P8 as (id & part & c & H1 & H2 & _); [destruct (u_notes u); [contradiction|reflexivity]|]. eauto 6.
Qed.
Print Assumptions C31_worksheet_references.

(** A chartsheet: the drawing with its chart and the header images.  Missing:
    chartsheets on which notes or buttons were inserted (see the refutation). *)
Theorem C31_chartsheet_references_partial m lower b b' pkg i s :
  reach m lower b -> save_pkg m lower b = Some (b', Saved pkg) -> rels_ok m pkg ->
  nth_error (w_sheets b) i = Some s -> u_chartsheet (ps_u s) = true ->
  u_notes (ps_u s) = [] -> u_buttons (ps_u s) = [] ->
  let u := ps_u s in
  exists name d, sheet_part pkg i u name d /\
    ref_when (has_objects u) (sd_drawing d) (fun id => exists part l, opens pkg name id "drawing" part (CDrawing l)) /\
    ref_when (nonempty (u_hf u)) (sd_legacy_hf d) (fun id => exists part v,
      opens pkg name id "vmlDrawing" part (CVml v) /\ length (vd_images v) = length (u_hf u) /\ vd_notes v = [] /\ vd_buttons v = []).
Proof.
  intros Hre Hs Hr Hi Hc Hn Hb. destruct (saved_world m lower b b' pkg Hre Hs) as (emb & l & a & W).
  exact (chartsheet_refs m b pkg emb l a W Hr i s Hi Hc Hn Hb).
Qed.
Print Assumptions C31_chartsheet_references_partial.

(** Concrete workbooks. *)
Definition sheet0 : usheet :=
  {| u_chartsheet := false; u_links := []; u_bg := None; u_images := []; u_charts := []; u_shapes := []; u_notes := [];
     u_buttons := []; u_hf := []; u_tables := []; u_embedded := []; u_dynamic := false |}.
Definition new_book (l : list usheet) : pbook :=
  {| w_sheets := map (fun u => {| ps_u := u; ps_h := hidden_new |}) l; w_sst := false; w_vba := None; w_sig := [];
     w_custom := false; w_bags := false; w_bad_chart := false; w_bad_name := false |}.
Definition idf : str -> str := fun s => s.
Lemma new_book_reach m lower l : reach m lower (new_book l).
Proof. constructor. intros s Hs. apply in_map_iff in Hs as (u & <- & _). left. reflexivity. Qed.
Lemma saved_now l (P : pbook -> package -> Prop) :
  match save_pkg Debug idf (new_book l) with Some (b', Saved pkg) => P b' pkg | _ => False end ->
  exists b' pkg, save_pkg Debug idf (new_book l) = Some (b', Saved pkg) /\ P b' pkg.
Proof. destruct (save_pkg Debug idf (new_book l)) as [[b' [pkg|]]|]; [|intros []..]. intros H. exists b', pkg. split; [reflexivity|exact H]. Qed.
Definition img_of (h : N) (e : img_ext) : img := {| im_hash := dec h; im_ext := e; im_data := [h; 42] |}.
Definition note_by (r c : N) (a : string) : note := {| nt_row := r; nt_col := c; nt_author := match a with EmptyString => None | _ => Some (lit a) end |}.
Definition url_of (s : string) : url :=
  match initialize (url_new (lit s) [] [] false) with Ok u => u | Err _ => url_new [] [] [] false end.

(** A sheet with everything: the hypotheses of C31 are met. *)
Definition full_sheet : usheet :=
  {| u_chartsheet := false; u_links := [url_of "https://a.b/"; url_of "internal:Sheet1!A1"; url_of "file:///C:\x.txt"];
     u_bg := Some (img_of 1 Png); u_images := [(img_of 2 Png, Some (url_of "https://c.d/")); (img_of 3 Jpg, None)];
     u_charts := [7; 8]; u_shapes := [(9, None)]; u_notes := [note_by 0 0 ""; note_by 5 1 "Bob"]; u_buttons := [4];
     u_hf := []; u_tables := [([], 1); (lit "Sales", 2)]; u_embedded := [img_of 5 Gif]; u_dynamic := true |}.
Example C31_example : exists b' pkg, save_pkg Debug idf (new_book [sheet0; full_sheet]) = Some (b', Saved pkg) /\
  exists d, find_part pkg (lit "xl/worksheets/sheet2.xml") = Some (CSheet d) /\
    sd_links d = [Some (lit "rId1"); None; Some (lit "rId2")] /\ sd_drawing d = Some (lit "rId3") /\
    sd_legacy d = Some (lit "rId4") /\ sd_picture d = Some (lit "rId5") /\ sd_tables d = [lit "rId6"; lit "rId7"].
Proof. apply (saved_now _ (fun _ pkg => exists d, _)). eexists. repeat split. Qed.

(** Finding: on a chartsheet with a note and a header image the header's
    legacyDrawingHF r:id is the relationship of the notes' VML drawing. *)
Theorem C31_chartsheet_notes_refuted : exists b' pkg,
  save_pkg Debug idf (new_book [{| u_chartsheet := true; u_links := []; u_bg := None; u_images := []; u_charts := [1]; u_shapes := [];
     u_notes := [note_by 0 0 ""]; u_buttons := []; u_hf := [img_of 1 Png]; u_tables := []; u_embedded := []; u_dynamic := false |}])
  = Some (b', Saved pkg) /\
  exists d v, find_part pkg (lit "xl/chartsheets/sheet1.xml") = Some (CSheet d) /\ sd_legacy_hf d = Some (lit "rId2") /\
    opens pkg (lit "xl/chartsheets/sheet1.xml") (lit "rId2") "vmlDrawing" (lit "xl/drawings/vmlDrawing1.vml") (CVml v) /\
    vd_images v = [] /\ vd_notes v <> [].
Proof.
  apply (saved_now _ (fun _ pkg => exists d v, _)). eexists _, _.
  split; [vm_compute; reflexivity|]. split; [vm_compute; reflexivity|].
  split; [eexists; repeat split; vm_compute; reflexivity|]. split; [vm_compute; reflexivity|vm_compute; discriminate].
Qed.
Print Assumptions C31_chartsheet_notes_refuted.

(** ** C32 *)

(** The background image.  [hashes_ok]: different images have different digests.
    Missing ([hf_last]): workbooks in which header or footer images come before
    other images or together with embedded images (see the refutations). *)
Theorem C32_background_partial m lower b b' pkg i s name d im :
  reach m lower b -> save_pkg m lower b = Some (b', Saved pkg) -> rels_ok m pkg ->
  hashes_ok (map ps_u (w_sheets b)) -> hf_last (map ps_u (w_sheets b)) ->
  nth_error (w_sheets b) i = Some s -> u_chartsheet (ps_u s) = false -> u_bg (ps_u s) = Some im ->
  sheet_part pkg i (ps_u s) name d ->
  exists id, sd_picture d = Some id /\ shows pkg name id im.
Proof.
  intros Hre Hs Hr Hh Hhf Hi Hc Hbg Hp. destruct (saved_world m lower b b' pkg Hre Hs) as (emb & l & a & W).
  destruct (worksheet_refs m b pkg emb l a W Hr i s Hi Hc) as (n' & d' & P1 & _ & _ & _ & _ & _ & P6 & _).
  destruct (sheet_part_det _ _ _ _ _ _ _ Hp P1) as [<- <-]. rewrite Hbg in P6. cbn [is_some ref_when] in P6.
  destruct P6 as (id & Hid & _). exists id. split; [exact Hid|].
  eapply (background m b pkg emb l a W Hr Hh i s name d id Hhf Hi Hc Hp Hid im Hbg).
Qed.
Print Assumptions C32_background_partial.

(** Inserted images: the pictures of the sheet's drawing are the images, in order,
    each showing its own bytes and linking to its own target; shapes likewise.
    Missing: as above, objects whose links share an address up to the anchor, and
    links of shapes on sheets with several charts. *)
Theorem C32_images_partial m lower b b' pkg i s part anchors :
  reach m lower b -> save_pkg m lower b = Some (b', Saved pkg) -> rels_ok m pkg ->
  hashes_ok (map ps_u (w_sheets b)) -> hf_last (map ps_u (w_sheets b)) ->
  nth_error (w_sheets b) i = Some s -> links_ok (ps_u s) -> has_objects (ps_u s) = true ->
  sheet_drawing pkg i (ps_u s) part anchors ->
  Forall2 (fun x pic => shows pkg part (fst pic) (fst x) /\ click_ok pkg part (snd x) (snd pic)) (u_images (ps_u s)) (pics_in anchors) /\
  ((length (u_charts (ps_u s)) <= 1)%nat ->
   Forall2 (fun x sh => fst sh = Some (fst x) /\ click_ok pkg part (snd x) (snd sh)) (u_shapes (ps_u s)) (shapes_in anchors)).
Proof.
  intros Hre Hs Hr Hh Hhf Hi Hl Ho Hd. destruct (saved_world m lower b b' pkg Hre Hs) as (emb & l & a & W).
  exact (objects m b pkg emb l a W Hr Hh i s part anchors Hhf Hi Hl Hd Ho).
Qed.
Print Assumptions C32_images_partial.

(** Header and footer images. *)
Theorem C32_header_images_partial m lower b b' pkg i s name d id part v :
  reach m lower b -> save_pkg m lower b = Some (b', Saved pkg) -> rels_ok m pkg ->
  hashes_ok (map ps_u (w_sheets b)) -> hf_last (map ps_u (w_sheets b)) ->
  nth_error (w_sheets b) i = Some s ->
  (u_chartsheet (ps_u s) = true -> u_notes (ps_u s) = [] /\ u_buttons (ps_u s) = []) ->
  sheet_part pkg i (ps_u s) name d -> sd_legacy_hf d = Some id -> opens pkg name id "vmlDrawing" part (CVml v) ->
  Forall2 (fun x sh => shows pkg part (snd sh) x) (u_hf (ps_u s)) (vd_images v).
Proof.
  intros Hre Hs Hr Hh Hhf Hi Hn Hp Hid Hop. destruct (saved_world m lower b b' pkg Hre Hs) as (emb & l & a & W).
  exact (header_images m b pkg emb l a W Hr Hh i s name d id part v Hhf Hi Hn Hp Hid Hop).
Qed.
Print Assumptions C32_header_images_partial.

(** Embedded images: the value metadata index of the k-th embedded image selects a
    relationship of the rich value part that shows it.  No condition on headers. *)
Theorem C32_embedded m lower b b' pkg i s name d :
  reach m lower b -> save_pkg m lower b = Some (b', Saved pkg) -> rels_ok m pkg ->
  hashes_ok (map ps_u (w_sheets b)) ->
  nth_error (w_sheets b) i = Some s -> u_chartsheet (ps_u s) = false -> u_embedded (ps_u s) <> [] ->
  sheet_part pkg i (ps_u s) name d ->
  exists ids, find_part pkg (lit "xl/richData/richValueRel.xml") = Some (CRichRel ids) /\
  Forall2 (fun x k => 1 <= k /\ exists id, nth_error ids (N.to_nat (k - 1)) = Some id /\
                        shows pkg (lit "xl/richData/richValueRel.xml") id x)
    (u_embedded (ps_u s)) (sd_vm d).
Proof.
  intros Hre Hs Hr Hh Hi Hc Hn Hp. destruct (saved_world m lower b b' pkg Hre Hs) as (emb & l & a & W).
  exact (embedded m b pkg emb l a W Hr Hh i s name d Hi Hc Hp Hn).
Qed.
Print Assumptions C32_embedded.

Definition with_images (l : list (img * option url)) : usheet :=
  {| u_chartsheet := false; u_links := []; u_bg := None; u_images := l; u_charts := []; u_shapes := []; u_notes := [];
     u_buttons := []; u_hf := []; u_tables := []; u_embedded := []; u_dynamic := false |}.
Definition with_hf (l : list img) : usheet :=
  {| u_chartsheet := false; u_links := []; u_bg := None; u_images := []; u_charts := []; u_shapes := []; u_notes := [];
     u_buttons := []; u_hf := l; u_tables := []; u_embedded := []; u_dynamic := false |}.
(** The hypotheses are met by a workbook with repeated and linked images and a header image. *)
Example C32_example : let l := [full_sheet; with_images [(img_of 3 Jpg, None); (img_of 2 Png, None)]; with_hf [img_of 6 Bmp]] in
  let l' := map (fun u => {| u_chartsheet := u_chartsheet u; u_links := u_links u; u_bg := u_bg u; u_images := u_images u; u_charts := u_charts u;
     u_shapes := u_shapes u; u_notes := u_notes u; u_buttons := u_buttons u; u_hf := u_hf u; u_tables := u_tables u; u_embedded := []; u_dynamic := false |}) l in
  hf_last l' /\ hashes_ok l' /\ Forall links_ok l' /\
  exists b' pkg, save_pkg Debug idf (new_book l') = Some (b', Saved pkg) /\
    map fst (filter (fun x => match snd x with CBytes _ => true | _ => false end) pkg) =
    [lit "xl/media/image1.png"; lit "xl/media/image2.png"; lit "xl/media/image3.jpeg"; lit "xl/media/image4.bmp"].
Proof.
  intros l l'. split; [|split; [|split]].
  - right. split; [intros u [<-|[<-|[<-|[]]]]; reflexivity|].
    exists (firstn 2 l'), (nth 2 l' sheet0), []. split; [reflexivity|]. split; [intros u [<-|[<-|[]]]; reflexivity|intros u []].
  - split.
    + intros i j Hi Hj. vm_compute in Hi, Hj.
      repeat match goal with H : _ \/ _ |- _ => destruct H as [H|H] | H : False |- _ => destruct H end; subst; intros E; try reflexivity; discriminate E.
    + intros i Hi. vm_compute in Hi. repeat match goal with H : _ \/ _ |- _ => destruct H as [H|H] | H : False |- _ => destruct H end; subst; reflexivity.
  - apply Forall_forall. intros u Hu. split.
    + intros x y Hx Hy _. destruct Hu as [<-|[<-|[<-|[]]]]; [|destruct Hx|destruct Hx].
      destruct Hx as [<-|[]]; destruct Hy as [<-|[]]. split; reflexivity.
    + intros x Hx. destruct Hu as [<-|[<-|[<-|[]]]]; [|destruct Hx|destruct Hx].
      destruct Hx as [<-|[]]. split; [vm_compute; reflexivity|vm_compute; discriminate].
  - apply (saved_now _ (fun _ pkg => map fst (filter _ pkg) = _)). vm_compute. reflexivity.
Qed.

(** Finding: the media numbers of header/footer images are counted separately
    from those of other images.  A header image on one sheet and an inserted image
    on a later one: the inserted image's relationship opens the header image. *)
Theorem C32_header_first_refuted :
  let head := img_of 1 Png in let pic := img_of 2 Png in
  exists b' pkg, save_pkg Debug idf (new_book [with_hf [head]; with_images [(pic, None)]]) = Some (b', Saved pkg) /\
  find_part pkg (lit "xl/drawings/drawing1.xml") = Some (CDrawing [APic (lit "rId1") None]) /\
  opens pkg (lit "xl/drawings/drawing1.xml") (lit "rId1") "image" (lit "xl/media/image1.png") (CBytes (im_data head)) /\
  ~ shows pkg (lit "xl/drawings/drawing1.xml") (lit "rId1") pic.
Proof.
  intros head pic.
  apply (saved_now _ (fun _ pkg => find_part pkg _ = _ /\ opens pkg _ _ _ _ _ /\ ~ shows pkg _ _ _)).
  split; [vm_compute; reflexivity|].
  match goal with |- ?A /\ _ => assert (H : A) end.
  { eexists. repeat split; vm_compute; reflexivity. }
  split; [exact H|]. intros [n Hn]. destruct (opens_det _ _ _ _ _ _ _ _ H Hn) as [_ E]. discriminate E.
Qed.
Print Assumptions C32_header_first_refuted.
(** A relationships part whose only possible source is [dr] and which has a
    relationship to a missing part: the package is not closed. *)
Lemma not_closed pkg dr n es id r : In (n, CRels es) pkg -> In (id, r) es -> str_eqb n (lit "_rels/.rels") = false ->
  forallb (fun x => implb (str_eqb (rels_part_of (fst x)) n) (str_eqb (fst x) dr)) pkg = true ->
  r_mode r = [] -> (forall t, r_target r <> 35 :: t) ->
  existsb (fun x => str_eqb (fst x) (resolve dr (r_target r))) pkg = false -> ~ closed pkg.
Proof.
  intros Hn Hid Hroot Hsrc Hm Ht Hex [_ _ _ H]. destruct (H _ _ Hn) as (_ & src & E & Hs & H3).
  assert (src = dr).
  { destruct Hs as [->|[c Hc]]; [subst n; discriminate Hroot|].
    rewrite forallb_forall in Hsrc. specialize (Hsrc _ Hc). cbn [fst] in Hsrc. rewrite <- E, str_eqb_refl in Hsrc. cbn in Hsrc. apply str_eqb_eq, Hsrc. }
  subst src. destruct (H3 _ _ Hid) as [H4|[[t H4]|[c H4]]]; [rewrite Hm in H4; discriminate|exact (Ht t H4)|].
  apply Bool.not_true_iff_false in Hex. apply Hex, existsb_exists. exists (resolve dr (r_target r), c). split; [exact H4|apply str_eqb_refl].
Qed.
(** With different formats the target does not exist at all: the package is not closed (C48). *)
Theorem C48_header_first_refuted :
  exists b' pkg, save_pkg Debug idf (new_book [with_hf [img_of 1 Png]; with_images [(img_of 2 Jpg, None)]]) = Some (b', Saved pkg) /\
  (exists r, rel_of pkg (lit "xl/drawings/drawing1.xml") (lit "rId1") = Some r /\ r_target r = lit "../media/image1.jpeg" /\ r_mode r = []) /\
  find_part pkg (lit "xl/media/image1.jpeg") = None /\ ~ closed pkg.
Proof.
  apply (saved_now _ (fun _ pkg => (exists r, rel_of pkg _ _ = Some r /\ _) /\ find_part pkg _ = None /\ ~ closed pkg)).
  split; [eexists; repeat split; vm_compute; reflexivity|]. split; [vm_compute; reflexivity|].
  apply (not_closed _ (lit "xl/drawings/drawing1.xml") (lit "xl/drawings/_rels/drawing1.xml.rels")
           [(lit "rId1", doc_rel (lit "image") (lit "../media/image1.jpeg") [])] (lit "rId1") (doc_rel (lit "image") (lit "../media/image1.jpeg") [])).
  - apply assoc_In. vm_compute. reflexivity.
  - left. reflexivity.
  - reflexivity.
  - vm_compute. reflexivity.
  - reflexivity.
  - intros t. discriminate.
  - vm_compute. reflexivity.
Qed.
Print Assumptions C48_header_first_refuted.
(** Also with an embedded image: the header image's number ignores it. *)
Theorem C32_embedded_header_refuted :
  let emb := img_of 1 Png in let head := img_of 2 Png in
  exists b' pkg, save_pkg Debug idf (new_book [{| u_chartsheet := false; u_links := []; u_bg := None; u_images := []; u_charts := []; u_shapes := [];
     u_notes := []; u_buttons := []; u_hf := [head]; u_tables := []; u_embedded := [emb]; u_dynamic := false |}]) = Some (b', Saved pkg) /\
  exists v, find_part pkg (lit "xl/drawings/vmlDrawing1.vml") = Some (CVml v) /\ map snd (vd_images v) = [lit "rId1"] /\
  opens pkg (lit "xl/drawings/vmlDrawing1.vml") (lit "rId1") "image" (lit "xl/media/image1.png") (CBytes (im_data emb)) /\
  ~ shows pkg (lit "xl/drawings/vmlDrawing1.vml") (lit "rId1") head.
Proof.
  intros emb head.
  apply (saved_now _ (fun _ pkg => exists v, find_part pkg _ = _ /\ map snd (vd_images v) = _ /\ opens pkg _ _ _ _ _ /\ ~ shows pkg _ _ _)).
  eexists. split; [vm_compute; reflexivity|]. split; [vm_compute; reflexivity|].
  match goal with |- ?A /\ _ => assert (H : A) end.
  { eexists. repeat split; vm_compute; reflexivity. }
  split; [exact H|]. intros [n Hn]. destruct (opens_det _ _ _ _ _ _ _ _ H Hn) as [_ E]. discriminate E.
Qed.
Print Assumptions C32_embedded_header_refuted.

(** Findings: with two charts before it, a shape's link leads to the wrong
    relationship; two images whose links differ only in the anchor share one target. *)
Definition with_objects (ims : list (img * option url)) (ch : list N) (sh : list (N * option url)) : usheet :=
  {| u_chartsheet := false; u_links := []; u_bg := None; u_images := ims; u_charts := ch; u_shapes := sh; u_notes := [];
     u_buttons := []; u_hf := []; u_tables := []; u_embedded := []; u_dynamic := false |}.
Theorem C32_shape_link_refuted :
  let u := url_of "https://a.b/" in
  exists b' pkg, save_pkg Debug idf (new_book [with_objects [] [1; 2] [(3, Some u)]]) = Some (b', Saved pkg) /\
  find_part pkg (lit "xl/drawings/drawing1.xml") =
    Some (CDrawing [AChart (lit "rId1"); AChart (lit "rId2"); AShape (Some 3) (Some (lit "rId2"))]) /\
  opens pkg (lit "xl/drawings/drawing1.xml") (lit "rId2") "chart" (lit "xl/charts/chart2.xml") (CChart 2) /\
  links_to pkg (lit "xl/drawings/drawing1.xml") (lit "rId3") u.
Proof.
  intros u. apply (saved_now _ (fun _ pkg => find_part pkg _ = _ /\ opens pkg _ _ _ _ _ /\ links_to pkg _ _ _)).
  split; [vm_compute; reflexivity|]. split; [eexists; repeat split; vm_compute; reflexivity|vm_compute; reflexivity].
Qed.
Print Assumptions C32_shape_link_refuted.
Definition object_url (s : string) : url := match initialize (url_new (lit s) [] [] true) with Ok u => u | Err _ => url_new [] [] [] false end.
Theorem C32_shared_anchor_refuted :
  let u1 := object_url "https://a.b/#x" in let u2 := object_url "https://a.b/#y" in
  exists b' pkg, save_pkg Debug idf (new_book [with_objects [(img_of 1 Png, Some u1); (img_of 2 Png, Some u2)] [] []]) = Some (b', Saved pkg) /\
  relationship_link u1 <> relationship_link u2 /\
  exists e1 e2, find_part pkg (lit "xl/drawings/drawing1.xml") = Some (CDrawing [APic e1 (Some (lit "rId1")); APic e2 (Some (lit "rId1"))]).
Proof.
  intros u1 u2. apply (saved_now _ (fun _ pkg => _ <> _ /\ exists e1 e2, find_part pkg _ = _)).
  split; [vm_compute; discriminate|]. eexists _, _. vm_compute. reflexivity.
Qed.
Print Assumptions C32_shared_anchor_refuted.

(** ** C33 *)

(** Chart, table and drawing files are numbered 1, 2, 3, ... in sheet order. *)
Theorem C33_part_numbers m lower b b' pkg :
  reach m lower b -> save_pkg m lower b = Some (b', Saved pkg) ->
  let us := map ps_u (w_sheets b) in
  (forall n body, In (n, CChart body) pkg <->
     exists k, nth_error (flat_map u_charts us) k = Some body /\ n = lit "xl/charts/chart" ++ dec (N.of_nat k + 1) ++ lit ".xml") /\
  (forall n id nm body, In (n, CTable id nm body) pkg <->
     exists k nm0, nth_error (flat_map u_tables us) k = Some (nm0, body) /\ id = N.of_nat k + 1 /\
       n = lit "xl/tables/table" ++ dec id ++ lit ".xml" /\ nm = table_name nm0 id) /\
  (forall n, (exists l, In (n, CDrawing l) pkg) <->
     exists k, (k < length (filter has_objects us))%nat /\ n = lit "xl/drawings/drawing" ++ dec (N.of_nat k + 1) ++ lit ".xml").
Proof.
  intros Hre Hs us. destruct (saved_world m lower b b' pkg Hre Hs) as (emb & l & a & W).
  split; [apply (chart_files m b pkg emb l a W)|]. split; [apply (table_files m b pkg emb l a W)|].
  assert (Hsum : forall us, sumN n_dr us = N.of_nat (length (filter has_objects us))).
  { clear. intros us. induction us as [|u us IH]; [reflexivity|]. cbn [sumN filter]. rewrite IH. unfold n_dr. rewrite has_dr_objects.
    destruct (has_objects u); cbn [length b2n]; lia. }
  intros n. split.
  - intros [an H]. apply (drawing_files m b pkg emb l a W) in H as (i & s & Hi & Ho & ->).
    exists (length (filter has_objects (map ps_u (firstn i (w_sheets b))))). split.
    + unfold us. rewrite <- (firstn_skipn i (w_sheets b)) at 2. rewrite map_app, filter_app, app_length.
      enough (H : (0 < length (filter has_objects (map ps_u (skipn i (w_sheets b)))))%nat) by lia.
      destruct (filter has_objects (map ps_u (skipn i (w_sheets b)))) as [|x t] eqn:Ef; [|cbn; lia]. exfalso.
      assert (Hin : In (ps_u s) (filter has_objects (map ps_u (skipn i (w_sheets b))))).
      { apply filter_In. split; [|exact Ho]. apply in_map.
        rewrite <- (firstn_skipn i (w_sheets b)), nth_error_app2 in Hi by (rewrite firstn_length; lia). eapply nth_error_In, Hi. }
      rewrite Ef in Hin. destruct Hin.
    + unfold dr_name. rewrite Hsum, N.add_comm. reflexivity.
  - intros (k & Hk & ->).
    assert (Hsp : exists l1 s l2, w_sheets b = l1 ++ s :: l2 /\ has_objects (ps_u s) = true /\ length (filter has_objects (map ps_u l1)) = k).
    { clear -Hk. unfold us in Hk. revert k Hk. induction (w_sheets b) as [|s L IH]; intros k Hk; [cbn in Hk; lia|].
      cbn [map filter] in Hk. destruct (has_objects (ps_u s)) eqn:E.
      - destruct k as [|k]; [exists [], s, L; auto|]. cbn [length] in Hk.
        destruct (IH k) as (l1 & t & l2 & -> & H1 & H2); [lia|]. exists (s :: l1), t, l2. split; [reflexivity|]. split; [exact H1|].
        cbn [map filter]. rewrite E. cbn [length]. lia.
      - destruct (IH k Hk) as (l1 & t & l2 & -> & H1 & H2). exists (s :: l1), t, l2. split; [reflexivity|]. split; [exact H1|].
        cbn [map filter]. rewrite E. exact H2. }
    destruct Hsp as (l1 & s & l2 & E & Ho & <-).
    assert (Hi : nth_error (w_sheets b) (length l1) = Some s) by (rewrite E, nth_error_app2, Nat.sub_diag by lia; reflexivity).
    destruct (sheet_at m b pkg emb l a W _ s Hi) as (l1' & l2' & pre & post & E1 & El & E2 & Hlen & Epre & Hf & Hcnt & _ & _). cbn zeta in *.
    rewrite E in Hf. rewrite firstn_app, Nat.sub_diag, firstn_all in Hf. cbn [firstn] in Hf. rewrite app_nil_r in Hf. subst l1'.
    eexists. rewrite <- Hsum, <- Hcnt, N.add_comm. eapply (drawing_in m b pkg emb l a W pre _ post E2). change (p_u _) with (ps_u s). rewrite has_dr_objects. exact Ho.
Qed.
Print Assumptions C33_part_numbers.

(** The numbers in the relationships are those of the files: the j-th chart on the
    i-th sheet is reached through that sheet's drawing as chart number
    (charts on earlier sheets) + j + 1, and the j-th table likewise. *)
Theorem C33_chart_references m lower b b' pkg i s :
  reach m lower b -> save_pkg m lower b = Some (b', Saved pkg) -> rels_ok m pkg ->
  nth_error (w_sheets b) i = Some s -> u_charts (ps_u s) <> [] ->
  exists part anchors, sheet_drawing pkg i (ps_u s) part anchors /\
  Forall2 (fun (jc : nat * N) id => opens pkg part id "chart"
             (numbered "xl/charts/chart" (before u_charts i b + N.of_nat (fst jc) + 1) ".xml") (CChart (snd jc)))
    (combine (seq 0 (length (u_charts (ps_u s)))) (u_charts (ps_u s))) (charts_in anchors).
Proof.
  intros Hre Hs Hr Hi Hc. destruct (saved_world m lower b b' pkg Hre Hs) as (emb & l & a & W).
  assert (Ho : has_objects (ps_u s) = true).
  { unfold has_objects. destruct (u_charts (ps_u s)); [contradiction|]. cbn. rewrite orb_true_r. reflexivity. }
  assert (Hd := drawing_of_sheet m b pkg emb l a W Hr i s Hi Ho). eexists _, _. split; [exact Hd|].
  apply (drawing_charts m b pkg emb l a W Hr i s _ _ Hi Hd Ho).
Qed.
Print Assumptions C33_chart_references.
Theorem C33_table_references m lower b b' pkg i s name d :
  reach m lower b -> save_pkg m lower b = Some (b', Saved pkg) -> rels_ok m pkg ->
  nth_error (w_sheets b) i = Some s -> u_chartsheet (ps_u s) = false -> sheet_part pkg i (ps_u s) name d ->
  Forall2 (fun (jt : nat * (str * N)) id => let k := before u_tables i b + N.of_nat (fst jt) + 1 in
             opens pkg name id "table" (numbered "xl/tables/table" k ".xml") (CTable k (table_name (fst (snd jt)) k) (snd (snd jt))))
    (combine (seq 0 (length (u_tables (ps_u s)))) (u_tables (ps_u s))) (sd_tables d).
Proof.
  intros Hre Hs Hr Hi Hc Hp. destruct (saved_world m lower b b' pkg Hre Hs) as (emb & l & a & W).
  destruct (worksheet_refs m b pkg emb l a W Hr i s Hi Hc) as (n' & d' & P1 & _ & _ & _ & _ & _ & _ & P7 & _).
  destruct (sheet_part_det _ _ _ _ _ _ _ Hp P1) as [<- <-]. exact P7.
Qed.
Print Assumptions C33_table_references.

(** Tables have different ids and, ignoring case, different names. *)
Theorem C33_tables_distinct m lower b b' pkg n1 id1 nm1 body1 n2 id2 nm2 body2 :
  reach m lower b -> save_pkg m lower b = Some (b', Saved pkg) ->
  In (n1, CTable id1 nm1 body1) pkg -> In (n2, CTable id2 nm2 body2) pkg -> n1 <> n2 ->
  id1 <> id2 /\ lower nm1 <> lower nm2.
Proof.
  intros Hre Hs H1 H2 Hne. destruct (table_names_distinct m lower b b' pkg Hre Hs _ _ _ _ _ _ _ _ H1 H2) as [A B].
  split; [intros E; apply Hne, A, E|]. intros E. apply Hne, A, B, E.
Qed.
Print Assumptions C33_tables_distinct.
Definition with_tables (l : list (str * N)) : usheet :=
  {| u_chartsheet := false; u_links := []; u_bg := None; u_images := []; u_charts := [9; 9]; u_shapes := []; u_notes := [];
     u_buttons := []; u_hf := []; u_tables := l; u_embedded := []; u_dynamic := false |}.
Example C33_example : exists b' pkg,
  save_pkg Debug idf (new_book [with_tables [([], 1); (lit "Sales", 2)]; sheet0; with_tables [([], 3)]]) = Some (b', Saved pkg) /\
  flat_map (fun x => match snd x with CTable id nm _ => [(id, nm)] | _ => [] end) pkg =
    [(1, lit "Table1"); (2, lit "Sales"); (3, lit "Table3")].
Proof. apply (saved_now _ (fun _ pkg => flat_map _ pkg = _)). vm_compute. reflexivity. Qed.
(** Finding: default names stick.  Saving, then adding a table on an earlier
    sheet: the second save fails, although no name was ever chosen. *)
Theorem C47_default_table_names_refuted : exists b' pkg, save_pkg Debug idf (new_book [sheet0; with_tables [([], 1)]]) = Some (b', Saved pkg) /\
  exists b2 b3, reach Debug idf b2 /\ map (fun s => map snd (u_tables (ps_u s))) (w_sheets b2) = [[2]; [1]] /\
    (forall i s s', nth_error (w_sheets b2) i = Some s -> nth_error (w_sheets b') i = Some s' -> i <> O -> s = s') /\
    save_pkg Debug idf b2 = Some (b3, NotSaved (ETableNameReused (lit "Table1"))).
Proof.
  destruct (saved_now [sheet0; with_tables [([], 1)]] (fun _ _ => True)) as (b' & pkg & Hs & _); [vm_compute; exact I|].
  exists b', pkg. split; [exact Hs|].
  assert (Hb : exists s0 s1, w_sheets b' = [s0; s1] /\ ps_h s0 = hidden_new).
  { apply (f_equal (fun o => match o with Some (x, _) => w_sheets x | None => [] end)) in Hs. rewrite <- Hs. eexists _, _. split; [vm_compute; reflexivity|vm_compute; reflexivity]. }
  destruct Hb as (s0 & s1 & Hb & Hh).
  exists (with_sheets b' [{| ps_u := with_tables [([], 2)]; ps_h := hidden_new |}; s1]). eexists.
  split; [|split; [|split]].
  - eapply reach_edit; [eapply reach_save; [apply new_book_reach|exact Hs]|].
    intros s' [<-|[<-|[]]]; [left; left; reflexivity|right]. exists s1. split; [rewrite Hb; right; left; reflexivity|].
    split; [left; reflexivity|]. auto.
  - cbn [w_sheets with_sheets map ps_u]. apply (f_equal (fun o => match o with Some (x, _) => w_sheets x | None => [] end)) in Hs. rewrite Hb in Hs.
    assert (E : s1 = nth 1 [s0; s1] s0) by reflexivity. rewrite E, <- Hs. vm_compute. reflexivity.
  - intros [|[|i]] s s' H1 H2 Hi; [congruence| |destruct i; discriminate]. cbn [w_sheets with_sheets nth_error] in H1.
    rewrite Hb in H2. cbn [nth_error] in H2. congruence.
  - apply (f_equal (fun o => match o with Some (x, _) => x | None => new_book [] end)) in Hs. rewrite <- Hs in *. clear Hs.
    injection Hb as _ <-. vm_compute. reflexivity.
Qed.
Print Assumptions C47_default_table_names_refuted.

(** ** C34 *)

(** On a worksheet whose default author is [d] and that has no authors left over
    from an earlier save: every note is attributed to its author if and only if
    the authors (the default author first) first appear in increasing order.  The
    property demands it always; see the refutation. *)
Theorem C34_attributed_iff_partial m lower b b' pkg i s c d :
  reach m lower b -> save_pkg m lower b = Some (b', Saved pkg) -> rels_ok m pkg ->
  nth_error (w_sheets b) i = Some s -> u_chartsheet (ps_u s) = false -> u_notes (ps_u s) <> [] ->
  h_authors (ps_h s) = [(d, 0)] -> sheet_comments pkg i (ps_u s) c ->
  (attributed d (u_notes (ps_u s)) c <-> StronglySorted str_lt (firsts [d] (map (author_of d) (u_notes (ps_u s))))).
Proof.
  intros Hre Hs Hr Hi Hc Hn Hd Hcom. destruct (saved_world m lower b b' pkg Hre Hs) as (emb & l & a & W).
  assert (Hinv : authors_inv (h_authors (ps_h s)) [d]) by (rewrite Hd; apply single_inv).
  destruct (comments_authors m b pkg emb l a W Hr i s c d [] Hi Hc Hn Hinv Hcom) as (H1 & H2 & H3 & H4).
  apply attributed_iff; assumption.
Qed.
Print Assumptions C34_attributed_iff_partial.

(** Always (after any number of saves): every author id is valid, the notes are
    listed at their cells, and two notes get the same id exactly when they have
    the same author. *)
Theorem C34_author_ids m lower b b' pkg i s c :
  reach m lower b -> save_pkg m lower b = Some (b', Saved pkg) -> rels_ok m pkg ->
  nth_error (w_sheets b) i = Some s -> u_chartsheet (ps_u s) = false -> u_notes (ps_u s) <> [] ->
  sheet_comments pkg i (ps_u s) c ->
  exists d, am_get d (h_authors (ps_h s)) = Some 0 /\
    (forall n, In n (u_notes (ps_u s)) -> In (author_of d n) (cd_authors c)) /\ NoDup (cd_authors c) /\
    Forall2 (fun n e => fst e = (nt_row n, nt_col n) /\ (N.to_nat (snd e) < length (cd_authors c))%nat) (u_notes (ps_u s)) (cd_list c) /\
    (forall j k n1 n2 e1 e2, nth_error (u_notes (ps_u s)) j = Some n1 -> nth_error (u_notes (ps_u s)) k = Some n2 ->
       nth_error (cd_list c) j = Some e1 -> nth_error (cd_list c) k = Some e2 ->
       (snd e1 = snd e2 <-> author_of d n1 = author_of d n2)).
Proof.
  intros Hre Hs Hr Hi Hc Hn Hcom. destruct (saved_world m lower b b' pkg Hre Hs) as (emb & l & a & W).
  assert (Hau := reach_authors m lower b Hre). rewrite Forall_forall in Hau.
  destruct (Hau s (nth_error_In _ _ Hi)) as (o & d & Hinv). exists d.
  split; [apply (ai_get _ _ d 0 Hinv); reflexivity|].
  destruct (comments_authors m b pkg emb l a W Hr i s c d o Hi Hc Hn Hinv Hcom) as (H1 & H2 & H3 & H4).
  set (order := firsts (d :: o) (map (author_of d) (u_notes (ps_u s)))) in *.
  split; [|split; [apply sorted_nodup, H3|split]].
  - intros n Hin. destruct (Forall2_pick _ _ _ n H4 Hin) as (e & _ & _ & E). apply (Permutation_in _ (Permutation_sym H2)). eapply nth_error_In, E.
  - eapply Forall2_use; [exact H4|]. intros n e _ _ [E1 E2]. split; [exact E1|]. rewrite (Permutation_length H2). apply nth_error_Some. congruence.
  - intros j k n1 n2 e1 e2 A1 A2 B1 B2.
    destruct (Forall2_pick_nth _ _ _ j _ H4 A1) as (y1 & Y1 & _ & G1). destruct (Forall2_pick_nth _ _ _ k _ H4 A2) as (y2 & Y2 & _ & G2).
    rewrite B1 in Y1. injection Y1 as <-. rewrite B2 in Y2. injection Y2 as <-. split; intros E.
    + rewrite E in G1. congruence.
    + rewrite E in G1. assert (E' : N.to_nat (snd e1) = N.to_nat (snd e2)); [|lia].
      eapply NoDup_nth_error; [exact H1|apply nth_error_Some; congruence|congruence].
Qed.
Print Assumptions C34_author_ids.
Definition with_notes (l : list note) (bt : list N) (hf : list img) : usheet :=
  {| u_chartsheet := false; u_links := []; u_bg := None; u_images := []; u_charts := []; u_shapes := []; u_notes := l;
     u_buttons := bt; u_hf := hf; u_tables := []; u_embedded := []; u_dynamic := false |}.
Lemma nil_sorted_dec l : (fix go (l : list str) : bool := match l with
   | a :: (b :: _) as t => str_leb a b && negb (str_eqb a b) && go t | _ => true end) l = true -> StronglySorted str_lt l.
Proof.
  intros H. apply Sorted_StronglySorted; [intros x y z; apply str_lt_trans|].
  induction l as [|a [|b t] IH]; [constructor|repeat constructor|].
  apply andb_true_iff in H as [H1 H2]. apply andb_true_iff in H1 as [H1 H3]. constructor; [apply IH, H2|]. constructor.
  apply str_leb_spec in H1 as [->|H1]; [rewrite str_eqb_refl in H3; discriminate|exact H1].
Qed.
(** Both sides of the equivalence occur. *)
Example C34_example :
  StronglySorted str_lt (firsts [lit "Author"] (map (author_of (lit "Author")) [note_by 0 0 "Bob"; note_by 1 0 ""; note_by 2 0 "Carol"; note_by 3 0 "Bob"])).
Proof. apply nil_sorted_dec. vm_compute. reflexivity. Qed.
(** Finding: a note by "Alice" is attributed to "Author", because the author list
    is sorted while ids are handed out in order of first use. *)
Theorem C34_wrong_author_refuted : exists b' pkg,
  save_pkg Debug idf (new_book [with_notes [note_by 0 0 "Alice"] [] []]) = Some (b', Saved pkg) /\
  exists c, sheet_comments pkg 0 (with_notes [note_by 0 0 "Alice"] [] []) c /\
    cd_authors c = [lit "Alice"; lit "Author"] /\ cd_list c = [(0, 0, 1)] /\ ~ attributed (lit "Author") [note_by 0 0 "Alice"] c.
Proof.
  apply (saved_now _ (fun _ pkg => exists c, sheet_comments pkg _ _ c /\ cd_authors c = _ /\ cd_list c = _ /\ ~ attributed _ _ c)).
  exists {| cd_authors := [lit "Alice"; lit "Author"]; cd_list := [(0, 0, 1)] |}.
  split; [|split; [reflexivity|split; [reflexivity|]]].
  - eexists _, _, (lit "rId2"), _. split.
    + eexists. split; [vm_compute; reflexivity|]. repeat split; vm_compute; reflexivity.
    + eexists. split; [vm_compute; reflexivity|]. repeat split; vm_compute; reflexivity.
  - intros H. inversion H as [|n e ? ? [_ He] _]; subst. vm_compute in He. discriminate.
Qed.
Print Assumptions C34_wrong_author_refuted.

(** ** C35 *)

(** Shape ids of notes and buttons are unique in the whole workbook as long as the
    buttons fit into the blocks reserved for the notes.  Missing: sheets where they
    do not fit, and header images, whose ids are only unique among themselves. *)
Theorem C35_shape_ids_partial m lower b b' pkg :
  reach m lower b -> save_pkg m lower b = Some (b', Saved pkg) ->
  (forall s, In s (w_sheets b) -> shapes_fit (ps_u s)) -> NoDup (note_shape_ids pkg).
Proof.
  intros Hre Hs Hf. destruct (saved_world m lower b b' pkg Hre Hs) as (emb & l & a & W).
  apply (note_ids_unique m b pkg emb l a W). intros u Hu. apply in_map_iff in Hu as (s & <- & H). auto.
Qed.
Print Assumptions C35_shape_ids_partial.
(** In particular for any number of notes, without buttons. *)
Theorem C35_notes_only m lower b b' pkg :
  reach m lower b -> save_pkg m lower b = Some (b', Saved pkg) ->
  (forall s, In s (w_sheets b) -> u_buttons (ps_u s) = []) -> NoDup (note_shape_ids pkg).
Proof.
  intros Hre Hs Hf. eapply C35_shape_ids_partial; try eassumption. intros s H. unfold shapes_fit. rewrite (Hf s H). cbn [length Nat.add].
  assert (Hx := N.mul_succ_div_gt (N.of_nat (length (u_notes (ps_u s)))) 1024). lia.
Qed.
Print Assumptions C35_notes_only.
(** The idmap of a VML part announces the block of every shape id in it. *)
Theorem C35_blocks_announced m lower b b' pkg n v :
  reach m lower b -> save_pkg m lower b = Some (b', Saved pkg) ->
  (forall s, In s (w_sheets b) -> N.of_nat (length (u_buttons (ps_u s)) + length (u_notes (ps_u s))) <
                                  1024 * (N.of_nat (length (u_notes (ps_u s))) / 1024 + 1)) ->
  In (n, CVml v) pkg -> vd_images v = [] ->
  exists ds, vd_data v = commas ds /\ forall x, In x (map fst (vd_buttons v) ++ map fst (vd_notes v)) -> In (x / 1024) ds.
Proof.
  intros Hre Hs Hf Hi Hn. destruct (saved_world m lower b b' pkg Hre Hs) as (emb & l & a & W).
  apply (note_ids_blocks m b pkg emb l a W n v Hi Hn). intros u Hu. apply in_map_iff in Hu as (s & <- & H). auto.
Qed.
Print Assumptions C35_blocks_announced.
Theorem C35_header_ids m lower b b' pkg :
  reach m lower b -> save_pkg m lower b = Some (b', Saved pkg) ->
  (forall s, In s (w_sheets b) -> (length (u_hf (ps_u s)) <= 6)%nat) -> NoDup (header_shape_ids pkg).
Proof.
  intros Hre Hs Hf. destruct (saved_world m lower b b' pkg Hre Hs) as (emb & l & a & W).
  apply (header_ids_unique m b pkg emb l a W). intros u Hu. apply in_map_iff in Hu as (s & <- & H). auto.
Qed.
Print Assumptions C35_header_ids.
Example C35_example : exists b' pkg,
  save_pkg Debug idf (new_book [with_notes [note_by 0 0 ""; note_by 1 1 ""] [1] [img_of 1 Png]; with_notes [note_by 0 0 ""] [] []]) = Some (b', Saved pkg) /\
  note_shape_ids pkg = [1025; 1026; 1027; 2049] /\ header_shape_ids pkg = [1025].
Proof. apply (saved_now _ (fun _ pkg => note_shape_ids pkg = _ /\ header_shape_ids pkg = _)). split; vm_compute; reflexivity. Qed.
(** Findings: header image ids start at 1025 like those of notes, so a header image
    and a note collide (the previous example); 1025 buttons on one sheet collide
    with the next sheet. *)
Theorem C35_header_notes_refuted : exists b' pkg,
  save_pkg Debug idf (new_book [with_notes [note_by 0 0 ""] [] [img_of 1 Png]]) = Some (b', Saved pkg) /\
  In 1025 (note_shape_ids pkg) /\ In 1025 (header_shape_ids pkg).
Proof. apply (saved_now _ (fun _ pkg => In _ (note_shape_ids pkg) /\ In _ (header_shape_ids pkg))). split; left; vm_compute; reflexivity. Qed.
Print Assumptions C35_header_notes_refuted.
Theorem C35_many_buttons_refuted : exists b' pkg,
  save_pkg Debug idf (new_book [with_notes [] (repeat 1 (N.to_nat 1025)) []; with_notes [note_by 0 0 ""] [] []]) = Some (b', Saved pkg) /\
  ~ NoDup (note_shape_ids pkg).
Proof.
  apply (saved_now _ (fun _ pkg => ~ NoDup (note_shape_ids pkg))).
  match goal with |- match ?x with _ => _ end => assert (E : match x with Some (_, Saved pkg) =>
    (nth_error (note_shape_ids pkg) (N.to_nat 1024), nth_error (note_shape_ids pkg) (N.to_nat 1025)) = (Some 2049, Some 2049) | _ => False end) by (vm_compute; reflexivity) end.
  destruct (save_pkg Debug idf _) as [[b' [pkg|]]|]; [|exact E..]. intros H.
  assert (E1 : nth_error (note_shape_ids pkg) (N.to_nat 1024) = Some 2049) by congruence.
  assert (E2 : nth_error (note_shape_ids pkg) (N.to_nat 1025) = Some 2049) by congruence.
  assert (X : N.to_nat 1024 = N.to_nat 1025); [|lia].
  eapply NoDup_nth_error; [exact H|apply nth_error_Some; congruence|congruence].
Qed.
Print Assumptions C35_many_buttons_refuted.

(** ** C48 *)

(** The package is closed: part names are unique, every part has a content type
    (XML parts one of their own), every declared part exists, every relationships
    part belongs to an existing part, has unique ids and leads only to existing
    parts, external targets or places in the workbook.  Missing: layouts of header
    and footer images that are not [hf_last] (refuted above); [urls_ok] says the
    links went through the library's checks, [counts_ok] that there are fewer than
    65536 sheets, charts and tables. *)
Theorem C48_package_closed_partial m lower b b' pkg :
  reach m lower b -> save_pkg m lower b = Some (b', Saved pkg) -> rels_ok m pkg ->
  hashes_ok (map ps_u (w_sheets b)) -> hf_last (map ps_u (w_sheets b)) ->
  urls_ok (map ps_u (w_sheets b)) -> counts_ok (map ps_u (w_sheets b)) -> closed pkg.
Proof. intros Hre Hs Hr Hh Hhf Hu Hc. eapply package_closed; eassumption. Qed.
Print Assumptions C48_package_closed_partial.
(** Without condition on images: names are unique and everything is declared. *)
Theorem C48_names_and_types m lower b b' pkg :
  reach m lower b -> save_pkg m lower b = Some (b', Saved pkg) -> counts_ok (map ps_u (w_sheets b)) ->
  NoDup (map fst pkg) /\
  (forall name c, In (name, c) pkg -> name <> lit "[Content_Types].xml" -> typed pkg name) /\
  (forall d o, In (lit "[Content_Types].xml", CTypes d o) pkg -> forall n, In (lit "/" ++ n) o -> exists c, In (n, c) pkg).
Proof.
  intros Hre Hs Hc. destruct (saved_world m lower b b' pkg Hre Hs) as (emb & l & a & W).
  split; [apply (w_names _ _ _ _ _ _ W)|]. split; [intros name c; eapply closed_types; eassumption|].
  intros d o. eapply closed_declared; eassumption.
Qed.
Print Assumptions C48_names_and_types.
Example C48_example : urls_ok [full_sheet] /\ counts_ok [full_sheet] /\ hf_last [full_sheet] /\
  exists b' pkg, save_pkg Debug idf (new_book [full_sheet]) = Some (b', Saved pkg) /\ length pkg = 28%nat.
Proof.
  split; [|split; [|split]].
  - assert (Hacc : forall x, In x (u_links full_sheet ++ sheet_urls full_sheet) -> accepted x).
    { intros x [<-|[<-|[<-|[<-|[]]]]]; [exists (url_new (lit "https://a.b/") [] [] false)|exists (url_new (lit "internal:Sheet1!A1") [] [] false)|
        exists (url_new (lit "file:///C:\x.txt") [] [] false)|exists (url_new (lit "https://c.d/") [] [] false)]; vm_compute; reflexivity. }
    intros u x [<-|[]]. apply Hacc.
  - unfold counts_ok. repeat split; vm_compute; reflexivity.
  - left. intros u [<-|[]]. reflexivity.
  - apply (saved_now _ (fun _ pkg => length pkg = _)). vm_compute. reflexivity.
Qed.
