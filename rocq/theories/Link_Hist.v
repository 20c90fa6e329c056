(** Hyperlinks: histories of calls. *)
From Verif Require Import Base SMap F64 Fmt_Model Sst_Model Ref_Model Xml_Model Xml_Spec Xml_Proofs Xml_Read Xml_Read_Proofs Xml_Tree Cells_Model Cells_Spec Cells_Proofs
  Sheet_Model Setup_Spec View_Hist Mode_Frame Pkg_Model Pkg_Spec Part_Proofs Url_Model Url_Proofs Link_Model Link_Spec Link_Proofs.

(** ** The map *)
Definition links_ok (l : smap (smap url)) : Prop := ok l /\ forall r cs, get r l = Some cs -> ok cs /\ cs <> [].
Lemma links_ok_nil : links_ok []. Proof. split; [apply ok_nil|]. intros r cs H. discriminate H. Qed.
Lemma ins_nonempty {V} k (v : V) m : ins k v m <> [].
Proof. destruct m as [|[j w] m]; cbn [ins]; [discriminate|]. destruct (k <? j); [discriminate|]. destruct (k =? j); discriminate. Qed.
Lemma links_put_ok r c u l : links_ok l -> links_ok (links_put r c u l).
Proof.
  intros [A B]. split; [apply ins_ok; exact A|]. intros r' cs. unfold links_put. rewrite get_ins. destruct (N.eqb_spec r r') as [->|_]; [|apply B].
  intros E. assert (E' : cs = ins c u (match get r' l with Some cs => cs | None => [] end)) by congruence. subst cs. split; [|apply ins_nonempty]. apply ins_ok.
  destruct (get r' l) eqn:G; [apply (B r'); exact G|apply ok_nil].
Qed.
Lemma links_get_put r c u l r' c' : links_get r' c' (links_put r c u l) = if (r =? r') && (c =? c') then Some u else links_get r' c' l.
Proof.
  unfold links_get, links_put. rewrite get_ins. destruct (N.eqb_spec r r') as [->|]; cbn [andb]; [|reflexivity]. rewrite get_ins.
  destruct (c =? c'); [reflexivity|]. destruct (get r' l); reflexivity.
Qed.

(** ** What is stored for an accepted call *)
Record stored_as (k : ask) (u : url) : Prop := {
  sa_kind : fits_kind (k_reading k) u; sa_link : link u = stored_target (w_base (k_reading k));
  sa_rel : w_inside (k_reading k) = false -> relationship_link u = (if k_object k then w_object (k_reading k) else stored_target (w_base (k_reading k)));
  sa_place : anchor u = w_place (k_reading k); sa_text : text u = k_text k; sa_tip : tool_tip u = k_tip k; sa_obj : is_object_link u = k_object k }.

Lemma dims_on_grid w r c : snd (check_dimensions w r c) = on_grid r c.
Proof.
  unfold check_dimensions, on_grid, ROW_MAX, COL_MAX. rewrite !N.ltb_antisym. destruct (1048576 <=? r); [reflexivity|]. destruct (16384 <=? c); [reflexivity|].
  cbn [negb andb]. cbv zeta. destruct (_ || _); reflexivity.
Qed.
Lemma string_accepted w r c s f : match snd (store_string w r c s (Some f)) with None => true | Some _ => false end = on_grid r c && (char_count s <=? 32767).
Proof.
  unfold store_string. destruct s as [|a s].
  - unfold store_blank. pose proof (dims_on_grid w r c) as D. destruct (check_dimensions w r c) as [w1 b]. cbn [snd] in D. subst b.
    change (char_count [] <=? 32767) with true. rewrite andb_true_r. destruct (on_grid r c); [|reflexivity]. cbn [negb]. destruct (reg w1 f) as [w2 i]. destruct (i =? 0); [destruct (row_col_format w2 r c)|]; reflexivity.
  - set (t := a :: s). clearbody t. pose proof (dims_on_grid w r c) as D. destruct (check_dimensions w r c) as [w1 b]. cbn [snd] in D. subst b.
    destruct (on_grid r c); [|reflexivity]. cbn [negb andb]. unfold MAX_STRING_LEN. rewrite N.leb_antisym. destruct (32767 <? char_count t); [reflexivity|]. cbn [negb].
    destruct (cell_xf w1 r c (Some f)) as [w2 i]. destruct (inline_strings w2); [reflexivity|]. destruct (global_sst w2); [destruct (shared_string_index (strings_table w2) t)|]; reflexivity.
Qed.

Definition no_ask (o : lop) : Prop := forall r c k, ~ asked o r c k.
Definition standard (s : lsheet) : Prop := constant_memory (cells (ls_sheet s)) = false.
Lemma lstep_spec lower s o s' e : standard s -> lstep lower s o = Some (s', e) ->
  standard s' /\
  ((e <> None \/ (exists q, o = LSheet q)) /\ no_ask o /\ ls_links s' = ls_links s \/
   e = None /\ exists r c k u, asked o r c k /\ stored_as k u /\ ls_links s' = links_put r c u (ls_links s) /\ forall r' c' k', asked o r' c' k' -> r' = r /\ c' = c).
Proof.
  intros St. unfold standard in *. destruct o as [r c l shown tip f|r c image l shown tip f|q]; cbn [lstep].
  - unfold store_url. destruct (initialize (url_new l shown tip false)) as [u|e0] eqn:Ei.
    + apply init_ok in Ei as (w & Hl & Hw & Hh). set (f' := match f with Some f => f | None => format_hyperlink end).
      pose proof (string_accepted (cells (ls_sheet s)) r c (text u) f') as A. pose proof (modes_string (cells (ls_sheet s)) r c (text u) (Some f')) as M.
      destruct (store_string (cells (ls_sheet s)) r c (text u) (Some f')) as [w1 [e1|]]; cbn [snd fst] in *; intros [= <- <-]; cbn [ls_sheet ls_links cells with_cells].
      * split; [destruct M; congruence|]. left. split; [left; discriminate|]. split; [|reflexivity]. intros r' c' k H. inversion H as [r0 c0 l0 sh0 t0 f0 w0 G Hl0 Hw0 Ht|]; subst.
        rewrite (leads_det _ _ _ Hl Hl0) in Ht. rewrite (h_text _ _ _ _ _ Hh), G in A. cbn [andb] in A. apply N.leb_le in Ht. rewrite Ht in A. discriminate A.
      * split; [destruct M; congruence|]. right. split; [reflexivity|]. symmetry in A. apply andb_true_iff in A as [G Ht]. rewrite (h_text _ _ _ _ _ Hh) in Ht. apply N.leb_le in Ht.
        exists r, c, {| k_reading := w; k_text := text_or shown (w_text w); k_tip := tip; k_object := false |}, u.
        split; [constructor; assumption|]. split; [destruct Hh; split; cbn [k_reading k_text k_tip k_object]; assumption|]. split; [reflexivity|]. intros r' c' k' H. inversion H; auto.
    + intros [= <- <-]. split; [exact St|]. left. split; [left; discriminate|]. split; [|reflexivity]. intros r' c' k H. inversion H as [r0 c0 l0 sh0 t0 f0 w0 G Hl0 Hw0 Ht|]; subst.
      pose proof (init_leads l w0 shown tip false Hl0) as Q. rewrite Ei in Q. contradiction.
  - destruct (initialize (url_new l shown tip true)) as [u|e0] eqn:Ei.
    + apply init_ok in Ei as (w & Hl & Hw & Hh). unfold store_embedded.
      pose proof (dims_on_grid (cells (ls_sheet s)) r c) as D. pose proof (modes_cd (cells (ls_sheet s)) r c) as M. destruct (check_dimensions (cells (ls_sheet s)) r c) as [w1 b]. cbn [snd fst] in *. subst b.
      destruct (on_grid r c) eqn:G; cbn [negb].
      * destruct M as [M1 _]. rewrite St in M1. rewrite M1. cbn [andb]. pose proof (modes_reg w1 (match f with Some f => f | None => format_hyperlink end)) as [M2 _].
        destruct (reg w1 _) as [w2 i]. cbn [fst] in M2. intros [= <- <-]. cbn [ls_sheet ls_links cells with_cells].
        split; [destruct (modes_insert w2 r c (CError image, i)); congruence|]. right. split; [reflexivity|].
        exists r, c, {| k_reading := w; k_text := text_or shown (w_text w); k_tip := tip; k_object := true |}, u.
        split; [constructor; assumption|]. split; [destruct Hh; split; cbn [k_reading k_text k_tip k_object]; assumption|]. split; [reflexivity|]. intros r' c' k' H. inversion H; auto.
      * intros [= <- <-]. cbn [ls_sheet ls_links cells with_cells]. split; [destruct M; congruence|]. left. split; [left; discriminate|]. split; [|reflexivity].
        intros r' c' k H. inversion H; subst. congruence.
    + intros [= <- <-]. split; [exact St|]. left. split; [left; discriminate|]. split; [|reflexivity]. intros r' c' k H. inversion H as [|r0 c0 im l0 sh0 t0 f0 w0 G Hl0 Hw0]; subst.
      pose proof (init_leads l w0 shown tip true Hl0) as Q. rewrite Ei in Q. contradiction.
  - destruct (sstep lower (ls_sheet s) q) as [[s1 e1]|] eqn:E; [|discriminate]. intros [= <- <-]. cbn [ls_sheet ls_links]. apply sstep_modes in E as [E _].
    split; [congruence|]. left. split; [right; eauto|]. split; [|reflexivity]. intros r c k H. inversion H.
Qed.

(** ** Histories *)
Record inv (h : list lop) (s : lsheet) : Prop := {
  i_std : standard s; i_links : links_ok (ls_links s);
  i_some : forall r c u, links_get r c (ls_links s) = Some u -> exists k, last_asked h r c k /\ stored_as k u;
  i_none : forall r c, links_get r c (ls_links s) = None -> forall o k, In o h -> ~ asked o r c k }.
Lemma inv_start s : standard s -> ls_links s = [] -> inv [] s.
Proof.
  intros A E. split; rewrite ?E; [exact A|apply links_ok_nil| |].
  - intros r c u H. discriminate H.
  - intros r c _ o k [].
Qed.
Lemma inv_step lower h s o s' e : inv h s -> lstep lower s o = Some (s', e) -> inv (h ++ [o]) s'.
Proof.
  intros [A B C D] E. destruct (lstep_spec _ _ _ _ _ A E) as [A' [(_ & No & El)|(_ & r & c & k & u & Hk & Hu & El & On)]].
  - split; rewrite ?El; [exact A'|exact B| |].
    + intros r c u H. destruct (C r c u H) as (k & (h1 & x & h2 & -> & Ha & Hn) & Hs). exists k. split; [|exact Hs].
      exists h1, x, (h2 ++ [o]). split; [rewrite <- app_assoc; reflexivity|]. split; [exact Ha|]. intros o' k' Hin. apply in_app_or in Hin as [Hin|[<-|[]]]; [apply Hn; exact Hin|apply No].
    + intros r c H x k Hin. apply in_app_or in Hin as [Hin|[<-|[]]]; [apply (D r c H); exact Hin|apply No].
  - split; rewrite ?El; [exact A'|apply links_put_ok; exact B| |].
    + intros r' c' u'. rewrite links_get_put. destruct ((r =? r') && (c =? c')) eqn:Q.
      * apply andb_true_iff in Q as [Q1 Q2]. apply N.eqb_eq in Q1, Q2. subst r' c'. intros H. assert (u' = u) by congruence. subst u'. exists k. split; [|exact Hu].
        exists h, o, []. split; [reflexivity|]. split; [exact Hk|]. intros o' k' [].
      * intros H. destruct (C r' c' u' H) as (k0 & (h1 & x & h2 & -> & Ha & Hn) & Hs). exists k0. split; [|exact Hs].
        exists h1, x, (h2 ++ [o]). split; [rewrite <- app_assoc; reflexivity|]. split; [exact Ha|]. intros o' k' Hin. apply in_app_or in Hin as [Hin|[<-|[]]]; [apply Hn; exact Hin|].
        intros Q2. destruct (On _ _ _ Q2) as [-> ->]. rewrite !N.eqb_refl in Q. discriminate Q.
    + intros r' c'. rewrite links_get_put. destruct ((r =? r') && (c =? c')) eqn:Q; [discriminate|]. intros H x k' Hin. apply in_app_or in Hin as [Hin|[<-|[]]]; [apply (D r' c' H); exact Hin|].
      intros Q2. destruct (On _ _ _ Q2) as [-> ->]. rewrite !N.eqb_refl in Q. discriminate Q.
Qed.
Lemma inv_run lower ops : forall h s s', inv h s -> lrun lower s ops = Some s' -> inv (h ++ ops) s'.
Proof.
  induction ops as [|o ops IH]; intros h s s' I; cbn [lrun]; [intros [= <-]; rewrite app_nil_r; exact I|].
  destruct (lstep lower s o) as [[s1 e]|] eqn:E; [|discriminate]. intros H. pose proof (IH _ _ _ (inv_step _ _ _ _ _ _ I E) H) as Q. rewrite <- app_assoc in Q. exact Q.
Qed.
Lemma asked_det o r c k k' : asked o r c k -> asked o r c k' -> k' = k.
Proof. intros H H'. inversion H; subst; inversion H'; subst; match goal with A : leads ?l ?w, B : leads ?l ?w' |- _ => rewrite (leads_det _ _ _ A B) end; reflexivity. Qed.
Lemma last_asked_det h r c k k' : last_asked h r c k -> last_asked h r c k' -> k' = k.
Proof.
  intros (h1 & o & h2 & E & A & Nn) (h1' & o' & h2' & E' & A' & Nn'). rewrite E in E'. clear E h. revert h1' E'. induction h1 as [|x h1 IH]; intros [|x' h1'] E'; cbn [app] in E'.
  - injection E' as <- _. exact (asked_det _ _ _ _ _ A A').
  - exfalso. injection E' as <- ->. apply (Nn o' k'); [apply in_or_app; right; left; reflexivity|exact A'].
  - exfalso. injection E' as -> <-. apply (Nn' o k); [apply in_or_app; right; left; reflexivity|exact A].
  - injection E' as _ E'. exact (IH _ E').
Qed.
Lemma inv_get h s r c k : inv h s -> last_asked h r c k -> exists u, links_get r c (ls_links s) = Some u /\ stored_as k u.
Proof.
  intros [_ _ C D] L. destruct (links_get r c (ls_links s)) as [u|] eqn:E.
  - exists u. split; [reflexivity|]. destruct (C r c u E) as (k' & L' & S). rewrite (last_asked_det _ _ _ _ _ L L') in S. exact S.
  - exfalso. destruct L as (h1 & o & h2 & -> & A & _). apply (D r c E o k); [apply in_or_app; right; left; reflexivity|exact A].
Qed.
Lemma last_in h r c k : last_asked h r c k -> exists o, In o h /\ asked o r c k.
Proof. intros (h1 & o & h2 & -> & A & _). exists o. split; [apply in_or_app; right; left; reflexivity|exact A]. Qed.
