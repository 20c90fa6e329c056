(** <cols> reads back as the stored options. *)
From Verif Require Import Base Note_Spec SMap F64 Fmt_Model Xml_Model Xml_Spec Xml_Proofs Xml_Read Xml_Read_Proofs Xml_Tree Rich_Model Rich_Proofs Sst_Model Ref_Model
  SheetXml_Spec SheetXml_Proofs SheetXml_Proofs3 View_Spec Tag_Proofs Part_Proofs Opts_Spec Cells_Model Sheet_Model Sheet_Spec Sheet_Proofs2 Sheet_Proofs3 Props_Group Opts_Hist Opts_Hist2 Opts_Hist4 Cols_Model Cols_Spec.
From Coq Require Import Sorted Permutation.
Open Scope N_scope.

Lemma width_is w h : col_width_out w h = file_width w h.
Proof.
  unfold col_width_out, file_width, file_units, DEFAULT_COL_WIDTH. rewrite (andb_comm h). destruct (feq w (f_dec 843 2) && h); [reflexivity|].
  destruct (fgt w fzero); cbn [negb]; [|reflexivity]. change (fadd (f_of_N 7) (f_of_N 5)) with (f_of_N 12). reflexivity.
Qed.
Section Text.
  Variable num_text : f64 -> str.
  Variable g : N -> N.
  Hypothesis NS : forall x, forallb simple (num_text x) = true.
  Definition col_found (d : N * N * colopt) : fcol :=
    let '(first, last, o) := d in
    {| k_min := first + 1; k_max := last + 1; k_width := num_text (col_width_out (c_width o) (c_hidden o));
       k_custom := negb (feq (c_width o) DEFAULT_COL_WIDTH) || c_hidden o; k_style := if 0 <? c_xf o then Some (g (c_xf o)) else None;
       k_fit := c_autofit o; k_hidden := c_hidden o; k_level := c_level o; k_collapsed := c_collapsed o |}.
  Lemma col_ok d : wx_ok (col_wx num_text g d).
  Proof.
    destruct d as [[first last] o]. split; [reflexivity|]. unfold col_attributes.
    assert (A : attr_ok (num_text (col_width_out (c_width o) (c_hidden o)))) by (apply simple_attrs, NS).
    eapply sub_attrs; [apply sub_app; [apply sub_refl|]; repeat (apply sub_app; [apply sub_when|]); apply sub_when|]. cbn [app]. good.
  Qed.
  Lemma col_reads d : read_col (node_of (col_wx num_text g d)) = Some (col_found d).
  Proof.
    destruct d as [[first last] o]. unfold col_wx, read_col, number_attr, flag_of. cbn [node_of]. change (str_eqb (lit "col") (lit "col")) with true. cbv iota.
    unfold col_attributes. rewrite !attr_app, !attr_when, !attr_cons, !attr_nil.
    assert (Z : 0 <? c_level o = false -> c_level o = 0) by (intros H; apply N.ltb_ge in H; lia).
    cbn [String.eqb Ascii.eqb Bool.eqb bind]. rewrite !number_of_dec. cbn [bind]. unfold col_found.
    destruct (0 <? c_xf o), (c_autofit o), (c_hidden o), (negb (feq (c_width o) DEFAULT_COL_WIDTH)), (0 <? c_level o) eqn:L, (c_collapsed o);
      cbn [orb bind]; rewrite ?number_of_dec; cbn [bind]; try rewrite (Z eq_refl); reflexivity.
  Qed.
  Definition cols_text (iter : list (N * colopt)) : str := match cols_wx num_text g iter with Some x => write_wx x | None => [] end.
  Lemma cols_read iter : read_cols (cols_text iter) = Some (map col_found (write_cols iter)).
  Proof.
    unfold cols_text, cols_wx. destruct iter as [|p iter]; [reflexivity|]. set (l := p :: iter).
    assert (W : wx_ok (WElem (lit "cols") [] (map (col_wx num_text g) (write_cols l)))).
    { apply wx_ok_elem. split; [reflexivity|]. split; [apply attrs_nil|]. apply Forall_forall. intros x Hx. apply in_map_iff in Hx as (d & <- & _). apply col_ok. }
    unfold read_cols. rewrite (reads_doc _ _ (write_reads _ W)).
    destruct (write_wx _) eqn:E; [discriminate E|]. cbn [node_of]. change (str_eqb (lit "cols") (lit "cols")) with true. cbv iota.
    rewrite map_map. clear W E. induction (write_cols l) as [|d ds IH]; [reflexivity|]. cbn [map read_all]. rewrite col_reads, IH. reflexivity.
  Qed.
End Text.

(** The elements: in order, apart, and each with the options of its columns. *)
Lemma cols_facts w iter : cols_ok w -> Permutation iter (changed_cols w) ->
  let D := write_cols iter in
  StronglySorted (fun a b : N * N * colopt => snd (fst a) < fst (fst b)) D /\ Forall (fun d => fst (fst d) <= snd (fst d)) D /\
  (forall k, (exists f l q, In (f, l, q) D /\ f <= k <= l) <-> get k (changed_cols w) <> None) /\
  (forall f l q k, In (f, l, q) D -> f <= k <= l -> get k (changed_cols w) = Some q).
Proof.
  intros A HP. cbv zeta. pose proof (cols_sorted iter _ (cc_ok _ A) HP) as E. unfold write_cols. rewrite E.
  destruct (changed_cols w) as [|[c0 o0] rest] eqn:M.
  { split; [constructor|]. split; [constructor|]. split; [|intros f l q k []]. intros k. split; [intros (f & l & q & [] & _)|cbn; congruence]. }
  assert (Hw : Forall (fun p => width_ok (snd p)) ((c0, o0) :: rest)).
  { apply Forall_forall. intros [k p] Hin. apply (cc_w _ A k p). rewrite M. apply In_get; [|exact Hin]. rewrite <- M. apply (cc_ok _ A). }
  pose proof (Forall_inv Hw) as Hwo. pose proof (Forall_inv_tail Hw) as Hwr. pose proof (cc_ok _ A) as Hok. rewrite M in Hok. pose proof Hok as Hok'. unfold ok in Hok. cbn [keys map fst] in Hok.
  destruct (coalesce_spec rest c0 c0 o0 (N.le_refl c0) Hok Hwo Hwr) as (_ & I2 & I3 & I4 & I5 & _).
  split; [exact I2|]. split; [exact I3|]. split.
  - intros k. rewrite I4, get_keys. cbn [keys map fst In]. split; (intros [H|H]; [left; lia|right; exact H]).
  - intros f l q k Hd Hk. apply (In_get k q _ Hok'). destruct (I5 f l q k Hd Hk) as [[Hc ->]|H]; [left; f_equal; lia|right; exact H].
Qed.
Lemma filter_sorted {A} (lo hi : A -> N) (c : N) l : StronglySorted (fun a b => hi a < lo b) l -> Forall (fun a => lo a <= hi a) l ->
  filter (fun a => (lo a <=? c) && (c <=? hi a)) l = match find (fun a => (lo a <=? c) && (c <=? hi a)) l with Some a => [a] | None => [] end.
Proof.
  induction 1 as [|a l S IH F]; intros W; [reflexivity|]. cbn [filter find]. pose proof (Forall_inv W) as Wa. pose proof (Forall_inv_tail W) as Wl.
  destruct (_ && _) eqn:E; [|exact (IH Wl)]. f_equal. apply andb_prop in E as [E1 E2]. apply N.leb_le in E1, E2.
  clear - E2 F. induction F as [|b l Hb F IH]; [reflexivity|]. cbn [filter]. assert (X : lo b <=? c = false) by (apply N.leb_gt; lia). rewrite X. exact IH.
Qed.
