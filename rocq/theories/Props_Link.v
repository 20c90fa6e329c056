(** C66: hyperlinks of cells. *)
From Coq Require Import Sorted.
From Verif Require Import Base SMap F64 Fmt_Model Sst_Model Ref_Model Ref_Spec Xml_Model Xml_Spec Xml_Proofs Xml_Read Xml_Read_Proofs Xml_Tree Rich_Model Rich_Proofs Cells_Model Cells_Spec Cells_Proofs
  SheetXml_Spec SheetXml_Proofs Doc_Spec DV_Spec DV_Proofs View_Model View_Spec Setup_Spec View_Hist Part_Model Tag_Proofs Part_Proofs Props_Part Part_Groups
  Sheet_Model Pkg_Model Pkg_Spec Pkg_Proofs Pkg_Proofs6 Url_Model Url_Proofs Link_Model Link_Spec Link_Proofs Link_Hist Link_Read.

(** ** The list of links *)
Lemma links_in l r c u : links_ok l -> In (r, c, u) (links_list l) <-> links_get r c l = Some u.
Proof.
  intros [A B]. unfold links_list, links_get. rewrite in_flat_map. split.
  - intros ([k cs] & H & Q). cbn [fst snd] in Q. apply in_map_iff in Q as ([j v] & E & Q). cbn [fst snd] in E. injection E as <- <- <-. pose proof (In_get _ _ _ A H) as G. rewrite G. apply In_get; [apply (B k cs G)|exact Q].
  - destruct (get r l) as [cs|] eqn:G; [|discriminate]. intros Q. exists (r, cs). split; [apply get_In; exact G|]. cbn [fst snd]. apply in_map_iff. exists (c, u). split; [reflexivity|apply get_In; exact Q].
Qed.
Lemma sorted_app {A} (R : A -> A -> Prop) a b : StronglySorted R a -> StronglySorted R b -> (forall x y, In x a -> In y b -> R x y) -> StronglySorted R (a ++ b).
Proof.
  induction a as [|x a IH]; intros Sa Sb H; [exact Sb|]. inversion_clear Sa as [|? ? S1 F1]. cbn [app]. constructor; [apply IH; [exact S1|exact Sb|intros; apply H; [right|]; assumption]|].
  apply Forall_app. split; [exact F1|]. apply Forall_forall. intros y Hy. apply H; [left; reflexivity|exact Hy].
Qed.
Lemma links_sorted l : links_ok l -> StronglySorted before (map fst (links_list l)).
Proof.
  intros [A B]. assert (B' : forall r cs, In (r, cs) l -> ok cs) by (intros r cs H; apply (B r), In_get; assumption). clear B. unfold links_list. induction l as [|[k cs] l IH]; [constructor|].
  inversion_clear A as [|? ? A1 A2]. cbn [flat_map fst snd]. rewrite map_app, map_map. cbn [fst]. apply sorted_app.
  - assert (O : ok cs) by (apply (B' k); left; reflexivity). clear - O. unfold ok, keys in O. induction cs as [|[j v] cs IH]; [constructor|]. cbn [map fst] in *. inversion_clear O as [|? ? O1 O2]. constructor; [apply IH; exact O1|].
    apply Forall_forall. intros x Hx. apply in_map_iff in Hx as ([i w] & <- & Hi). right. cbn [fst snd]. split; [reflexivity|]. rewrite Forall_forall in O2. apply O2. apply (in_map fst) in Hi. exact Hi.
  - apply IH; [exact A1|]. intros r cs' H. apply (B' r). right. exact H.
  - intros x y Hx Hy. apply in_map_iff in Hx as (p & <- & _). apply in_map_iff in Hy as (q & <- & Hq). apply in_flat_map in Hq as ([k' cs'] & H1 & H2). apply in_map_iff in H2 as (z & <- & _). left. cbn [fst].
    rewrite Forall_forall in A2. apply A2. apply (in_map fst) in H1. exact H1.
Qed.

Lemma stored_known k u : stored_as k u -> ltype u <> LUnknown.
Proof. intros [K _ _ _ _ _ _]. unfold fits_kind in K. destruct (w_inside (k_reading k)); [congruence|]. destruct K; congruence. Qed.
Lemma stored_entry t r c k u w : stored_as k u -> data w = t -> entry_of t r c u = entry_for (plain_cell w r c) k.
Proof.
  intros [K1 K2 K3 K4 K5 K6 K7] <-. unfold entry_of, entry_for, fits_kind in *. rewrite K7, K2, K4, K5, K6.
  assert (P : overwritten (data w) r c = negb (plain_cell w r c)) by (unfold overwritten, plain_cell; destruct (table_get r c (data w)) as [[[] ?]|]; reflexivity). rewrite P.
  destruct (w_inside (k_reading k)); [rewrite K1; reflexivity|]. rewrite (K3 eq_refl). destruct K1 as [-> | ->]; reflexivity.
Qed.

Section Links.
  Variable num_text : f64 -> str.
  Variable m : ovf.
  Hypothesis plain_numbers : forall x, forallb simple (num_text x) = true.
  Variable lower : str -> str.

  (** For every history of calls on a sheet (other calls in between), the sheet part can
      be written, and a reader of the part and of its relationships finds exactly one link
      for each cell where a link was accepted: the last one, at its cell, in order.
      [hyperlinks_ok] is what C31 shows of the package. *)
  Theorem C66_links w0 ops s : constant_memory w0 = false -> (forall o, In o ops -> clean o) ->
    lrun lower {| ls_sheet := sheet_new w0; ls_links := [] |} ops = Some s ->
    let urls := map snd (links_list (ls_links s)) in let sheet := cells (ls_sheet s) in
    exists xs, hyperlinks_xml m (data sheet) (ls_links s) = Some xs /\ section_ok "hyperlinks" xs /\
    forall i pkg name, n_links i = xs -> sections_ok i -> both_extensions i = false -> hyperlinks_ok pkg name urls (fst (fst (write_links 1 urls))) ->
      exists text root l, worksheet_text num_text m i = Some text /\ read_document text = Some root /\ read_links (rel_of pkg name) root = Some l /\
        StronglySorted before (map fst l) /\
        forall r c e, In (r, c, e) l <-> exists k, last_asked ops r c k /\ e = entry_for (plain_cell sheet r c) k.
  Proof.
    intros M0 Cl Run urls sheet. pose proof (inv_run lower ops [] _ _ (inv_start {| ls_sheet := sheet_new w0; ls_links := [] |} M0 eq_refl) Run) as I. cbn [app] in I.
    assert (Fl : Forall (fun p => on_grid (fst (fst p)) (snd (fst p)) = true /\ url_clean (snd p) /\ ltype (snd p) <> LUnknown) (links_list (ls_links s))).
    { apply Forall_forall. intros [[r c] u] H. cbn [fst snd]. apply (links_in _ r c u (i_links _ _ I)) in H. destruct (i_some _ _ I r c u H) as (k & L & S). destruct (last_in _ _ _ _ L) as (o & Ho & A).
      destruct (asked_clean o r c k u (Cl o Ho) A S) as [U G]. split; [exact G|]. split; [exact U|]. exact (stored_known _ _ S). }
    assert (X : exists ks, hyperlinks_xml m (data sheet) (ls_links s) = Some (match links_list (ls_links s) with [] => [] | _ => [WElem (lit "hyperlinks") [] ks] end) /\ Forall wx_ok ks /\
      forall find_rel, Forall2 (find_ok find_rel) urls (fst (fst (write_links 1 urls))) ->
        read_all (read_link find_rel) (map node_of ks) = Some (map (fun p => (fst p, entry_of (data sheet) (fst (fst p)) (snd (fst p)) (snd p))) (links_list (ls_links s)))).
    { unfold hyperlinks_xml. set (l := links_list (ls_links s)) in *. clearbody l. destruct (write_links 1 urls) as [[ids rels] n'] eqn:W. unfold urls in W.
      (* identifiers that resolve exist, so that the part can be written *)
      assert (Ew : Forall2 (find_ok (fun id => assoc id (entries_of 1 rels))) (map snd l) ids).
      { apply write_links_spec in W as [_ W]. clear - W. induction W as [|u id us ids H W IH]; constructor; [|exact IH]. unfold find_ok. destruct (ltype u) eqn:El; try exact H;
          destruct H as (j & -> & Hj); eexists; (split; [reflexivity|]); rewrite (assoc_entries _ _ _ _ Hj); unfold hl_rel, url_mode, target_external; rewrite El; reflexivity. }
      destruct (loop_reads m _ (data sheet) l 1 ids rels n' W Fl Ew) as (ks & Ek & Ok & _). exists ks. split; [destruct l; [reflexivity|rewrite Ek; reflexivity]|]. split; [exact Ok|].
      intros find_rel Fi. cbn [fst] in Fi. destruct (loop_reads m find_rel (data sheet) l 1 ids rels n' W Fl Fi) as (ks' & Ek' & _ & R). assert (ks' = ks) by congruence. subst ks'. exact R. }
    destruct X as (ks & Ex & Ok & Rd). eexists. split; [exact Ex|]. split.
    { destruct (links_list (ls_links s)); [split; [constructor|apply amo_nil]|]. split; [constructor; [|constructor]|apply amo_one; reflexivity]. apply wx_ok_elem. split; [reflexivity|]. split; [apply attrs_nil|exact Ok]. }
    intros i pkg name Hn Sok Be Hk.
    destruct (worksheet_section num_text m plain_numbers i Sok Be) as (text & root & Et & R & _ & _ & _ & _ & _ & _ & _ & K & _). rewrite Hn in K.
    exists text, root, (map (fun p => (fst p, entry_of (data sheet) (fst (fst p)) (snd (fst p)) (snd p))) (links_list (ls_links s))).
    split; [exact Et|]. split; [exact R|]. split.
    { assert (Fi : Forall2 (find_ok (rel_of pkg name)) urls (fst (fst (write_links 1 urls)))).
      { unfold hyperlinks_ok in Hk. clear - Hk. induction Hk as [|u id us ids H Hk IH]; constructor; [|exact IH]. unfold find_ok, links_to in *. destruct (ltype u); try exact H; destruct H as (k & -> & H); exists k; (split; [reflexivity|exact H]). }
      specialize (Rd _ Fi). unfold read_links. rewrite K. destruct (links_list (ls_links s)) as [|p l]; [reflexivity|]. exact Rd. }
    split; [rewrite map_map; cbn [fst]; exact (links_sorted _ (i_links _ _ I))|].
    intros r c e. rewrite in_map_iff. split.
    - intros ([[r' c'] u] & E & H). cbn [fst snd] in E. injection E as -> -> <-. apply (links_in _ r c u (i_links _ _ I)) in H. destruct (i_some _ _ I r c u H) as (k & L & S). exists k. split; [exact L|]. apply stored_entry; [exact S|reflexivity].
    - intros (k & L & ->). destruct (inv_get _ _ _ _ _ I L) as (u & G & S). exists (r, c, u). split; [|apply links_in; [apply I|exact G]]. cbn [fst snd]. f_equal. apply stored_entry; [exact S|reflexivity].
  Qed.

  (** A link call fails exactly when it asks for nothing the sheet can hold, and then
      leaves the links alone. *)
  Theorem C66_refused w0 ops s o s' e : constant_memory w0 = false -> lrun lower {| ls_sheet := sheet_new w0; ls_links := [] |} ops = Some s ->
    (forall q, o <> LSheet q) -> lstep lower s o = Some (s', e) -> (e = None <-> exists r c k, asked o r c k) /\ (e <> None -> ls_links s' = ls_links s).
  Proof.
    intros M0 Run Ns E. pose proof (inv_run lower ops [] _ _ (inv_start {| ls_sheet := sheet_new w0; ls_links := [] |} M0 eq_refl) Run) as I. cbn [app] in I.
    destruct (lstep_spec _ _ _ _ _ (i_std _ _ I) E) as [_ [(A & No & El)|(-> & r & c & k & u & Hk & Hu & El & _)]].
    - destruct A as [A|[q Q]]; [|exfalso; exact (Ns q Q)]. split; [|intros; exact El]. split; [contradiction|]. intros (r & c & k & H). exfalso. exact (No r c k H).
    - split; [|congruence]. split; [intros _; eauto|reflexivity].
  Qed.
  (** ... and no link call can fail to return. *)
  Theorem C66_returns s o : (forall q, o <> LSheet q) -> lstep lower s o <> None.
  Proof. intros Ns. destruct o; cbn [lstep]; [discriminate|destruct (initialize _); discriminate|exfalso; exact (Ns o eq_refl)]. Qed.

  (** The text of an accepted link is in its cell, as a string, in the format given (or
      the hyperlink format). *)
  Theorem C66_cell_text w0 ops s r c l shown tip f s' : constant_memory w0 = false -> lrun lower {| ls_sheet := sheet_new w0; ls_links := [] |} ops = Some s ->
    let w := cells (ls_sheet s) in let w' := cells (ls_sheet s') in let look := match f with Some f => f | None => format_hyperlink end in
    nth_error (xfs w) 0 = Some format_default -> look <> format_default -> lstep lower s (LWrite r c l shown tip f) = Some (s', None) ->
    forall k, asked (LWrite r c l shown tip f) r c k -> k_text k <> [] ->
    exists v xf, table_get r c (data w') = Some (v, xf) /\ contents v = VText (k_text k) /\ nth_error (xfs w') (N.to_nat xf) = Some look.
  Proof.
    intros M0 Run w w' look R0 Nd E k A Ne.
    pose proof (inv_run lower ops [] _ _ (inv_start {| ls_sheet := sheet_new w0; ls_links := [] |} M0 eq_refl) Run) as I. pose proof (i_std _ _ I) as St. unfold standard in St.
    cbn [lstep] in E. unfold store_url in E. destruct (initialize (url_new l shown tip false)) as [u|] eqn:Ei; [|discriminate].
    apply init_ok in Ei as (w1 & Hl & Hw & Hh). inversion A as [r0 c0 l0 sh0 t0 f0 w2 G Hl1 Hw1 Ht|]; subst. pose proof (leads_det _ _ _ Hl Hl1) as Hd; subst w2. cbn [k_text] in *.
    rewrite (h_text _ _ _ _ _ Hh) in E. cbv zeta in E. fold look in E.
    destruct (store_string (cells (ls_sheet s)) r c (text_or shown (w_text w1)) (Some look)) as [w3 [e2|]] eqn:Es; [congruence|].
    assert (s' = {| ls_sheet := with_cells (ls_sheet s) w3; ls_links := links_put r c u (ls_links s) |}) by congruence. subst s'. unfold w'. cbn [ls_sheet cells with_cells].
    pose proof (store_string_outcome _ _ _ _ _ _ _ St Es) as O. destruct (text_or shown (w_text w1)) as [|a t]; [congruence|]. cbn in O.
    destruct O as (k0 & xf & Ck & (M & S & D & L & Cv) & Fx). exists k0, xf. rewrite D, table_get_insert, here_refl. split; [reflexivity|]. split; [exact Ck|]. apply Fx; assumption.
  Qed.
End Links.

(** A link of an embedded image is written with its place twice: at the end of the address
    and apart from it. (A link of a cell has it apart only.) *)
Theorem C66_embedded_place_twice_refuted lower w0 s : constant_memory w0 = false ->
  lrun lower {| ls_sheet := sheet_new w0; ls_links := [] |} [LEmbed 0 0 0 (lit "https://example.com/#part") [] [] None] = Some s ->
  exists k, last_asked [LEmbed 0 0 0 (lit "https://example.com/#part") [] [] None] 0 0 k /\
    forall plain, e_place (entry_for plain k) = Outside (lit "https://example.com/#part") (lit "part").
Proof.
  intros _ _.
  assert (L : leads (lit "https://example.com/#part") {| w_base := lit "https://example.com/"; w_place := lit "part"; w_inside := false; w_text := lit "https://example.com/#part"; w_object := stored_target (lit "https://example.com/#part") |}).
  { apply leads_web; [exists (lit "https://"), (lit "example.com/#part"); split; [right; left; reflexivity|reflexivity]|]. right. split; [reflexivity|]. cbn. intuition discriminate. }
  eexists. split; [exists [], (LEmbed 0 0 0 (lit "https://example.com/#part") [] [] None), []; split; [reflexivity|]; split|].
  - apply asked_embed; [reflexivity|exact L|]. split; [|split]; vm_compute; discriminate.
  - intros o' k' [].
  - intros plain. vm_compute. reflexivity.
Qed.

(** ** An example: a link with a place, replaced text, a link whose cell is overwritten,
    one inside the workbook, one refused, one replaced. *)
Definition demo_links : list lop :=
  [LWrite 4 1 (lit "https://example.com/a b#part") [] (lit "tip") None; LWrite 0 2 (lit "internal:Sheet2!A1") (lit "go") [] None; LWrite 0 0 (lit "mailto:me@example.com") [] [] None;
   LSheet (SCell (WriteBool 0 0 true None)); LWrite 1 1 (lit "nowhere") [] [] None; LWrite 2000000 1 (lit "http://a") [] [] None; LWrite 4 1 (lit "https://example.com/<c>#d") (lit "see") [] None].

Definition demo_start : lsheet := {| ls_sheet := sheet_new (ws_new false false true [format_default] sst_new); ls_links := [] |}.
Definition demo_pkg (urls : list url) : package := [(rels_part_of (lit "xl/worksheets/sheet1.xml"), CRels (entries_of 1 (snd (fst (write_links 1 urls)))))].
Definition demo_end lower : lsheet := match lrun lower demo_start demo_links with Some s => s | None => demo_start end.
Example C66_demo lower m : Forall clean demo_links /\ lrun lower demo_start demo_links = Some (demo_end lower) /\
  let urls := map snd (links_list (ls_links (demo_end lower))) in
  hyperlinks_ok (demo_pkg urls) (lit "xl/worksheets/sheet1.xml") urls (fst (fst (write_links 1 urls))) /\
  match hyperlinks_xml m (data (cells (ls_sheet (demo_end lower)))) (ls_links (demo_end lower)) with
  | Some [x] => read_all (read_link (rel_of (demo_pkg urls) (lit "xl/worksheets/sheet1.xml"))) (kids_of (node_of x)) =
      Some [((0, 0), {| e_place := Outside (lit "mailto:me@example.com") []; e_tip := []; e_display := lit "mailto:me@example.com" |});
            ((0, 2), {| e_place := Inside (lit "Sheet2!A1"); e_tip := []; e_display := lit "go" |});
            ((4, 1), {| e_place := Outside (lit "https://example.com/%3cc%3e") (lit "d"); e_tip := []; e_display := [] |})]
  | _ => False end.
Proof.
  split; [repeat (constructor; [first [exact I|split; [|split]; reflexivity]|]); constructor|].
  split; [unfold demo_end; destruct (lrun lower demo_start demo_links) eqn:E; [reflexivity|vm_compute in E; discriminate]|]. cbv zeta. split; [|destruct m; vm_compute; reflexivity].
  unfold hyperlinks_ok, links_to. vm_compute. repeat (constructor; [first [reflexivity|eexists; split; reflexivity]|]). constructor.
Qed.
