(** Rich strings produce well-formed runs. *)
From Verif Require Import Base Xml_Model Xml_Spec Xml_Proofs Xml_Read Xml_Read_Proofs Xml_Tree Fmt_Model Ref_Proofs Rich_Model.

Lemma digits_attr s : forallb is_ascii_digit s = true -> forallb attr_char s = true.
Proof.
  intros H. apply forallb_forall. intros c Hc. rewrite forallb_forall in H. apply H in Hc.
  unfold is_ascii_digit in Hc. unfold attr_char, xml_char. lia.
Qed.
Lemma dec_attr n : forallb attr_char (dec n) = true.
Proof. apply digits_attr. apply dec_spec. Qed.
Lemma hex_upper_attr d : d < 16 -> attr_char (hex_upper d) = true.
Proof. intros H. pose proof (hex_upper_range d H). unfold attr_char, xml_char. lia. Qed.
Lemma hex_loop_attr f : forall n acc, forallb attr_char acc = true -> forallb attr_char (hex_loop f n acc) = true.
Proof.
  induction f as [|f IH]; intros n acc H; cbn [hex_loop]; [assumption|]. destruct (n =? 0); [assumption|]. apply IH. cbn [forallb].
  rewrite hex_upper_attr by (apply N.mod_lt; lia). assumption.
Qed.
Lemma hex6_attr n : forallb attr_char (hex6 n) = true.
Proof.
  unfold hex6. rewrite forallb_app, hex_loop_attr by reflexivity. rewrite andb_true_r. apply forallb_forall. intros c Hc.
  apply repeat_spec in Hc. subst. reflexivity.
Qed.
Lemma attrs_one k v : good_name k = true -> forallb attr_char v = true -> attrs_good [(k, v)].
Proof. intros G V. split; [repeat constructor; intros []|]. intros p [<-|[]]. auto. Qed.
Lemma attrs_nil : attrs_good [].
Proof. split; [constructor|intros p []]. Qed.
Lemma nth_forall {A} (P : A -> Prop) l d n : Forall P l -> P d -> P (nth n l d).
Proof. revert n. induction l as [|x l IH]; intros n F D; destruct n; cbn; inversion F; auto. Qed.
Lemma color_attrs_good c : attrs_good (color_attributes c).
Proof.
  destruct c as [n|t s| | |n]; try (apply attrs_one; [reflexivity|]; unfold argb_hex_value; rewrite forallb_app; cbn [forallb andb]); try reflexivity.
  - apply hex6_attr.
  - cbn [color_attributes]. assert (T : forall v, tint t s = Some v -> forallb attr_char v = true).
    { intros v. unfold tint. destruct (s =? 0); [discriminate|].
      intros H. destruct (nth_error _ _) as [x|] eqn:E in H; [|discriminate]. injection H as <-. apply nth_error_In in E.
      destruct (t =? 0); [|destruct (t =? 1); [|destruct (t =? 2)]]; repeat (destruct E as [<-|E]; [reflexivity|]); destruct E. }
    destruct (tint t s) as [v|] eqn:E.
    + split; [constructor; [intros [H|[]]; discriminate|constructor; [intros []|constructor]]|].
      intros p [<-|[<-|[]]]; (split; [reflexivity|]); [apply dec_attr|apply T; reflexivity].
    + apply attrs_one; [reflexivity|apply dec_attr].
  - apply (nth_forall (fun v => forallb attr_char v = true)); [|reflexivity]. repeat constructor.
Qed.

(** The strings of a font: any text that an attribute can hold. *)
Definition font_texts (f : Font) : Prop :=
  forallb attr_char (font_name f) = true /\ forallb attr_char (font_size f) = true /\ forallb attr_char (scheme f) = true.
Lemma when_forall {A} (P : A -> Prop) b l : (b = true -> Forall P l) -> Forall P (when b l).
Proof. destruct b; intros H; [apply H; reflexivity|constructor]. Qed.
Lemma ok_empty tag : good_name tag = true -> wx_ok (WEmpty tag []).
Proof. intros G. split; [assumption|apply attrs_nil]. Qed.
Lemma ok_val tag v : good_name tag = true -> forallb attr_char v = true -> wx_ok (WEmpty tag [(lit "val", v)]).
Proof. intros G V. split; [assumption|apply attrs_one; [reflexivity|assumption]]. Qed.

Lemma font_ok rich dxf f : font_texts f -> wx_ok (font_xml rich dxf f).
Proof.
  intros (N1 & N2 & N3). unfold font_xml. apply wx_ok_elem. split; [destruct rich; reflexivity|]. split; [apply attrs_nil|].
  repeat (apply Forall_app; split).
  - apply when_forall. intros _. constructor; [|constructor]. apply ok_empty; reflexivity.
  - apply when_forall. intros _. constructor; [|constructor]. apply ok_empty; reflexivity.
  - apply when_forall. intros _. constructor; [|constructor]. apply ok_empty; reflexivity.
  - apply when_forall. intros _. constructor; [|constructor]. unfold underline_xml.
    destruct (_ =? 2); [apply ok_val; reflexivity|]. destruct (_ =? 3); [apply ok_val; reflexivity|]. destruct (_ =? 4); [apply ok_val; reflexivity|apply ok_empty; reflexivity].
  - apply when_forall. intros _. constructor; [|constructor]. unfold vert_align_xml.
    destruct (_ =? 1); [apply ok_val; reflexivity|]. destruct (_ =? 2); [apply ok_val; reflexivity|apply ok_empty; reflexivity].
  - apply when_forall. intros _. constructor; [|constructor]. apply ok_val; [reflexivity|assumption].
  - assert (K : forall c, Forall wx_ok [WEmpty (lit "color") (color_attributes c)]).
    { intros c. constructor; [|constructor]. split; [reflexivity|apply color_attrs_good]. }
    unfold font_color_xml. destruct (font_color f); try apply K; [|constructor].
    destruct dxf; [constructor|]. constructor; [|constructor]. split; [reflexivity|]. apply attrs_one; reflexivity.
  - apply when_forall. intros _. repeat (apply Forall_app; split).
    + constructor; [|constructor]. apply ok_val; [destruct rich; reflexivity|assumption].
    + apply when_forall. intros _. constructor; [|constructor]. apply ok_val; [reflexivity|apply dec_attr].
    + apply when_forall. intros _. constructor; [|constructor]. apply ok_val; [reflexivity|apply dec_attr].
    + destruct (scheme f); [constructor|]. constructor; [|constructor]. apply ok_val; [reflexivity|assumption].
Qed.

Definition seg_ok (s : Format * str) : Prop := font_texts (font (fst s)) /\ forallb writable (snd s) = true.
Lemma run_ok first s : seg_ok s -> wx_ok (run_xml first s).
Proof.
  intros [F W]. unfold run_xml.
  assert (T : wx_ok (WData (lit "t") (snd s) (if ws_edges (snd s) then [(lit "xml:space", lit "preserve")] else []))).
  { split; [reflexivity|]. split; [|assumption]. destruct (ws_edges _); [apply attrs_one; reflexivity|apply attrs_nil]. }
  destruct (_ && _); apply wx_ok_elem; (split; [reflexivity|]; split; [apply attrs_nil|]); repeat (apply Forall_cons || apply Forall_nil); try assumption.
  apply font_ok; assumption.
Qed.
Lemma runs_ok segs : forall first, Forall seg_ok segs -> Forall wx_ok (runs_xml first segs).
Proof. induction segs as [|s r IH]; intros first F; [constructor|]. inversion F; subst. cbn [runs_xml]. constructor; [apply run_ok; assumption|auto]. Qed.

Lemma rich_reads segs mk raw : get_rich_string segs = Some (mk, raw) -> Forall seg_ok segs ->
  reads mk (map node_of (runs_xml true segs)) /\ segs <> [].
Proof.
  unfold get_rich_string. destruct segs as [|s r]; [discriminate|]. destruct (existsb _ _); [discriminate|].
  intros H F. split; [|discriminate]. assert (E : mk = flat_map write_wx (runs_xml true (s :: r))) by congruence. subst mk.
  apply reads_flat_one. intros x Hx. apply write_reads. pose proof (runs_ok _ true F) as R. rewrite Forall_forall in R. auto.
Qed.
Lemma run_shape first s : exists b, write_wx (run_xml first s) = lit "<r>" ++ b ++ lit "</r>".
Proof. unfold run_xml. destruct (_ && _); cbn [write_wx]; eexists; reflexivity. Qed.
Lemma runs_wrapped r : forall s first, exists b, flat_map write_wx (runs_xml first (s :: r)) = lit "<r>" ++ b ++ lit "</r>".
Proof.
  induction r as [|s2 r IH]; intros s first.
  - cbn [runs_xml flat_map]. rewrite app_nil_r. apply run_shape.
  - destruct (IH s2 false) as [b Hb]. cbn [runs_xml flat_map] in *. rewrite Hb. destruct (run_shape first s) as [b1 ->].
    exists (b1 ++ lit "</r>" ++ lit "<r>" ++ b). rewrite <- !app_assoc. reflexivity.
Qed.
Lemma rich_wrapped segs mk raw : get_rich_string segs = Some (mk, raw) -> exists b, mk = lit "<r>" ++ b ++ lit "</r>".
Proof.
  unfold get_rich_string. destruct segs as [|s r]; [discriminate|]. destruct (existsb _ _); [discriminate|].
  intros H. assert (E : mk = flat_map write_wx (runs_xml true (s :: r))) by congruence. subst mk. apply runs_wrapped.
Qed.
Lemma runs_are_r segs : forall first, forallb (fun n => match n with Elem m _ _ => str_eqb m (lit "r") | Txt _ => false end) (map node_of (runs_xml first segs)) = true.
Proof.
  induction segs as [|s r IH]; intros first; [reflexivity|]. cbn [runs_xml map forallb]. rewrite IH, andb_true_r.
  unfold run_xml. destruct (_ && _); reflexivity.
Qed.
