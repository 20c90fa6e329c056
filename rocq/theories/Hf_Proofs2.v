(** Header and footer pictures: the numbers, and the text of the part. *)
From Verif Require Import Base Xml_Model Xml_Spec Xml_Proofs Xml_Read Xml_Read_Proofs Xml_Tree Fmt_Model Rich_Proofs SheetXml_Spec SheetXml_Proofs SheetXml_Proofs3 Doc_Spec View_Spec Tag_Proofs Part_Proofs
  Setup_Spec Note_Model Note_Spec Note_Proofs4 Note_Proofs5 Hf_Model Hf_Spec Hf_Proofs.
From Verif Require Date_Parse Pkg_Model.

Section Ext.
  Variable ext : str -> str.
  Variable base : N.
  Definition file_name (n : nat) (e : str) : str := lit "../media/image" ++ dec (base + 1 + N.of_nat n) ++ lit "." ++ e.
  Definition inv (ids rels targets : list str) : Prop :=
    length targets = length rels /\ forall k h, nth_error rels k = Some h ->
      exists n, nth_error ids n = Some h /\ nth_error targets k = Some (file_name n (ext h)).
  Definition found (ids targets : list str) (x : bool * hpos * hpic * N) : Prop :=
    let '(_, _, i, rel) := x in
    1 <= rel /\ exists n, nth_error ids n = Some (hp_hash i) /\ nth_error targets (N.to_nat (rel - 1)) = Some (file_name n (hp_ext i)).
  Lemma nth_app_some {A} (l m : list A) k x : nth_error l k = Some x -> nth_error (l ++ m) k = Some x.
  Proof. intros H. rewrite nth_error_app1; [exact H|]. apply nth_error_Some. congruence. Qed.
  Lemma prepare_spec l : Forall (fun x => hp_ext (snd x) = ext (hp_hash (snd x))) l -> forall ids rels targets, inv ids rels targets ->
    let '(ids', targets', infos) := prepare_pics base ids rels targets l in
    (exists more, ids' = ids ++ more) /\ (exists more, targets' = targets ++ more) /\ (NoDup ids -> NoDup ids') /\
    map fst infos = l /\ Forall (found ids' targets') infos.
  Proof.
    induction 1 as [|[[hd p] i] r He _ IH]; intros ids rels targets I; cbn [prepare_pics].
    - split; [exists []; symmetry; apply app_nil_r|]. split; [exists []; symmetry; apply app_nil_r|]. auto.
    - cbn [snd] in He. destruct (number_in (hp_hash i) ids) as [k ids1] eqn:En. destruct (number_in_spec _ _ _ _ En) as ((m1 & E1) & E2 & E3).
      destruct I as [I1 I2].
      assert (J : forall t0 rel rels0, (match index_of (hp_hash i) rels with
          | Some k0 => (targets, k0, rels)
          | None => (targets ++ [lit "../media/image" ++ dec (1 + base + k) ++ lit "." ++ hp_ext i], N.of_nat (length rels), rels ++ [hp_hash i]) end) = (t0, rel, rels0) ->
        inv ids1 rels0 t0 /\ (exists more, t0 = targets ++ more) /\ found ids1 t0 (hd, p, i, 1 + rel)).
      { intros t0 rel rels0. destruct (index_of (hp_hash i) rels) as [j|] eqn:Ej; intros Q; apply pair_equal_spec in Q as [Q <-]; apply pair_equal_spec in Q as [<- <-].
        - split; [split; [exact I1|]|split; [exists []; symmetry; apply app_nil_r|]].
          + intros k0 h Hk. destruct (I2 k0 h Hk) as (n & A & B). exists n. split; [rewrite E1; apply nth_app_some, A|exact B].
          + cbn [found]. split; [lia|]. apply index_some in Ej. destruct (I2 _ _ Ej) as (n & A & B). exists n. split; [rewrite E1; apply nth_app_some, A|].
            replace (1 + j - 1) with j by lia. rewrite B, He. reflexivity.
        - assert (F : lit "../media/image" ++ dec (1 + base + k) ++ lit "." ++ hp_ext i = file_name (N.to_nat k) (hp_ext i)).
          { unfold file_name. replace (base + 1 + N.of_nat (N.to_nat k)) with (1 + base + k) by lia. reflexivity. }
          rewrite F. clear F. split; [split; [rewrite !app_length, I1; reflexivity|]|split; [eauto|]].
          + intros k0 h Hk. destruct (Nat.lt_ge_cases k0 (length rels)) as [L|L].
            * rewrite nth_error_app1 in Hk by exact L. destruct (I2 k0 h Hk) as (n & A & B). exists n. split; [rewrite E1; apply nth_app_some, A|apply nth_app_some, B].
            * rewrite nth_error_app2 in Hk by exact L. destruct (k0 - length rels)%nat as [|z] eqn:Ez; [|destruct z; discriminate]. cbn in Hk. injection Hk as <-.
              exists (N.to_nat k). split; [exact E2|]. rewrite nth_error_app2 by lia. rewrite I1, Ez, He. reflexivity.
          + cbn [found]. split; [lia|]. exists (N.to_nat k). split; [exact E2|]. replace (1 + N.of_nat (length rels) - 1) with (N.of_nat (length rels)) by lia.
            rewrite Nat2N.id, nth_error_app2 by lia. rewrite I1, Nat.sub_diag. reflexivity. }
      destruct (match index_of (hp_hash i) rels with Some _ => _ | None => _ end) as [[t0 rel] rels0] eqn:Em.
      destruct (J _ _ _ eq_refl) as (J1 & (m2 & J2) & J3). specialize (IH ids1 rels0 t0 J1).
      destruct (prepare_pics base ids1 rels0 t0 r) as [[ids' targets'] infos]. destruct IH as ((m3 & F1) & (m4 & F2) & F3 & F4 & F5).
      split; [exists (m1 ++ m3); rewrite F1, E1, app_assoc; reflexivity|]. split; [exists (m2 ++ m4); rewrite F2, J2, app_assoc; reflexivity|].
      split; [auto|]. cbn [map fst]. split; [rewrite F4; reflexivity|]. constructor; [|exact F5].
      cbn [found] in *. destruct J3 as (A & n & B & C). split; [exact A|]. exists n. split; [rewrite F1; apply nth_app_some, B|rewrite F2; apply nth_app_some, C].
  Qed.
End Ext.

(** ** The style *)
Definition hf_pairs (w h : N) : list (str * str) :=
  [(lit "position", lit "absolute"); (lit "margin-left", lit "0"); (lit "margin-top", lit "0");
   (lit "width", dpi_text w ++ lit "pt"); (lit "height", dpi_text h ++ lit "pt")].
Lemma hf_style_eq w h z : image_style w h z = flat_map (fun p => p ++ [59]) (map piece (hf_pairs w h)) ++ piece (lit "z-index", dec z).
Proof.
  unfold image_style, hf_pairs, piece. cbn [flat_map map fst snd].
  change (lit "position:absolute;margin-left:0;margin-top:0;width:") with ((lit "position" ++ 58 :: lit "absolute") ++ [59] ++ (lit "margin-left" ++ 58 :: lit "0") ++ [59] ++ (lit "margin-top" ++ 58 :: lit "0") ++ [59] ++ lit "width" ++ [58]).
  change (lit "pt;height:") with (lit "pt" ++ [59] ++ lit "height" ++ [58]). change (lit "pt;z-index:") with (lit "pt" ++ [59] ++ lit "z-index" ++ [58]).
  repeat rewrite <- app_assoc. cbn [app]. repeat rewrite <- app_assoc. cbn [app]. reflexivity.
Qed.
Lemma hf_words w h : Forall (fun q => word (fst q) /\ word (snd q)) (hf_pairs w h).
Proof. unfold hf_pairs. do 3 (constructor; [split; reflexivity|]). do 2 (constructor; [split; [reflexivity|apply word_app; [apply word_dpi|reflexivity]]|]). constructor. Qed.
Lemma hf_style_reads w h z : read_style (image_style w h z) = hf_pairs w h ++ [(lit "z-index", dec z)].
Proof.
  unfold read_style. change (fun c => c =? 59) with semi. rewrite hf_style_eq. assert (F := hf_words w h). assert (B := word_dec z). assert (A : word (lit "z-index")) by reflexivity.
  rewrite split_pieces.
  - change (fun p0 : str => match Date_Parse.split_on (fun c : char => c =? 58) p0 with [k0; v0] => (k0, v0) | _ => ([], p0) end) with pair_of.
    rewrite map_app. f_equal; [|cbn [map]; rewrite (proj2 (piece_plain (lit "z-index", dec z) A B)); reflexivity].
    induction F as [|q l [Q1 Q2] F IH]; [reflexivity|]. cbn [map]. rewrite (proj2 (piece_plain q Q1 Q2)), IH. reflexivity.
  - induction F as [|q l [Q1 Q2] F IH]; [constructor|]. cbn [map]. constructor; [apply (piece_plain q Q1 Q2)|exact IH].
  - apply (piece_plain (lit "z-index", dec z) A B).
Qed.
Lemma hf_style_attr w h z : attr_ok (image_style w h z).
Proof.
  assert (W : forall s, word s -> attr_ok s).
  { intros s H. unfold attr_ok, word in *. rewrite forallb_forall in *. intros x Hx. specialize (H x Hx). unfold is_ascii_digit, is_ascii_lower, attr_char, xml_char in *. lia. }
  unfold image_style, attr_ok. rewrite !forallb_app, (W _ (word_dpi w)), (W _ (word_dpi h)), (W _ (word_dec z)). reflexivity.
Qed.

(** ** One shape *)
Definition asked_image (id z : N) (x : bool * hpos * hpic * N) : himage :=
  let '(hd, p, i, rel) := x in
  {| hi_place := vml_position hd p; hi_id := shape_name id; hi_rel := rel; hi_title := hp_name i; hi_width := hp_width i * 75; hi_height := hp_height i * 75;
     hi_z := z; hi_keep_ratio := negb (hp_scaled i) |}.
Lemma rid_read n : read_rid (lit "rId" ++ dec n) = Some n.
Proof.
  unfold read_rid. destruct (strip_prefix (lit "rId") (lit "rId" ++ dec n)) as [t|] eqn:E.
  - apply strip_prefix_some in E. apply app_inv_head in E. subst t. apply number_of_dec.
  - exfalso. assert (strip_prefix (lit "rId") (lit "rId" ++ dec n) = Some (dec n)) by (apply strip_prefix_some; reflexivity). congruence.
Qed.
Lemma shape_read id z x : read_himage (node_of (image_shape id z x)) = Some (asked_image id z x).
Proof.
  destruct x as [[[hd p] i] rel]. unfold image_shape. cbn [node_of map]. unfold read_himage. cbn [attrs_of kids_of]. rewrite !attr_cons. eqbs. cbn [bind].
  rewrite hf_style_reads. cbv zeta. unfold hf_pairs, length_of. cbn [app]. rewrite !attr_cons. eqbs. cbn [bind]. rewrite !hundredths_dpi. cbn [bind]. rewrite number_of_dec. cbn [bind].
  match goal with |- context [kid "v:imagedata" ?l] => change (kid "v:imagedata" l) with (Some (Elem (lit "v:imagedata") [(lit "o:relid", lit "rId" ++ dec rel); (lit "o:title", hp_name i)] [])) end.
  cbn [bind attrs_of]. rewrite !attr_cons. eqbs. cbn [bind]. rewrite rid_read. cbn [bind].
  unfold asked_image. destruct (hp_scaled i); reflexivity.
Qed.
Lemma place_attr hd p : attr_ok (vml_position hd p). Proof. destruct hd, p; reflexivity. Qed.
Lemma rid_attr n : attr_ok (lit "rId" ++ dec n). Proof. unfold attr_ok. rewrite forallb_app, (attr_dec n). reflexivity. Qed.
Lemma shape_ok id z x : attr_ok (hp_name (snd (fst x))) -> wx_ok (image_shape id z x).
Proof.
  destruct x as [[[hd p] i] rel]. cbn [fst snd]. intros H. apply ok_elem; [reflexivity| |].
  - apply attrs_check; [reflexivity|]. constructor; [split; [reflexivity|apply place_attr]|]. constructor; [split; [reflexivity|apply name_attr]|].
    constructor; [split; reflexivity|]. constructor; [split; [reflexivity|apply hf_style_attr]|constructor].
  - constructor; [|constructor; [|constructor]].
    + split; [reflexivity|]. apply attrs_check; [reflexivity|]. constructor; [split; [reflexivity|apply rid_attr]|]. constructor; [split; [reflexivity|exact H]|constructor].
    + split; [reflexivity|]. destruct (hp_scaled i); (apply attrs_check; [reflexivity|]); repeat (constructor; [split; reflexivity|]); constructor.
Qed.
Fixpoint asked_images (shape z : N) (l : list (bool * hpos * hpic * N)) : list himage :=
  match l with [] => [] | x :: r => asked_image (shape + 1) (z + 1) x :: asked_images (shape + 1) (z + 1) r end.
Lemma shapes_read l : forall shape z, read_all read_himage (filter (is_elem "v:shape") (map node_of (image_shapes shape z l))) = Some (asked_images shape z l).
Proof.
  induction l as [|x l IH]; intros shape z; [reflexivity|]. cbn [image_shapes map filter].
  replace (is_elem "v:shape" (node_of (image_shape (shape + 1) (z + 1) x))) with true by (destruct x as [[[hd p] i] rel]; reflexivity).
  cbn [read_all]. rewrite shape_read. cbn [bind]. rewrite IH. reflexivity.
Qed.
Lemma part_reads k l : l <> [] -> Forall (fun x => attr_ok (hp_name (snd (fst x)))) l ->
  bind (read_plain (write_wx (hf_vml k l))) read_hf_part = Some (k, asked_images (1024 * k) 0 l).
Proof.
  intros Hn H. assert (W : wx_ok (hf_vml k l)).
  { unfold hf_vml. apply ok_elem; [reflexivity| |].
    - apply attrs_check; [reflexivity|]. repeat (constructor; [split; reflexivity|]). constructor.
    - constructor.
      + apply ok_elem; [reflexivity|apply attrs_one; reflexivity|]. constructor; [|constructor]. split; [reflexivity|].
        apply attrs_check; [reflexivity|]. constructor; [split; reflexivity|]. constructor; [split; [reflexivity|apply attr_dec]|constructor].
      + destruct l as [|x0 l0]; [congruence|]. cbn [Pkg_Model.is_nil]. clear Hn. set (l := x0 :: l0) in *. clearbody l. constructor.
        * unfold image_type. apply ok_elem; [reflexivity| |].
          -- apply attrs_check; [reflexivity|]. repeat (constructor; [split; reflexivity|]). constructor.
          -- constructor; [split; [reflexivity|apply attrs_one; reflexivity]|]. constructor.
             { apply ok_elem; [reflexivity|apply attrs_nil|]. cbn [map]. repeat (constructor; [split; [reflexivity|apply attrs_one; reflexivity]|]). constructor. }
             constructor; [split; [reflexivity|]; apply attrs_check; [reflexivity|]; repeat (constructor; [split; reflexivity|]); constructor|].
             constructor; [split; [reflexivity|]; apply attrs_check; [reflexivity|]; repeat (constructor; [split; reflexivity|]); constructor|constructor].
        * generalize (1024 * k) at 1. generalize 0. induction H as [|x l Hx _ IH]; intros z shape; [constructor|]. cbn [image_shapes]. constructor; [apply shape_ok, Hx|apply IH]. }
  unfold read_plain. rewrite (reads_doc _ _ (write_reads _ W)). unfold hf_vml at 1. cbn [node_of]. cbn [bind]. unfold read_hf_part.
  match goal with |- context [Elem (lit "xml") ?a ?b] => change (is_elem "xml" (Elem (lit "xml") a b)) with true end. cbv iota. cbn [kids_of map].
  match goal with |- context [kid "o:shapelayout" (?x :: ?r)] => change (kid "o:shapelayout" (x :: r)) with (Some x) end. cbn [bind node_of kids_of map].
  match goal with |- context [kid "o:idmap" [?x]] => change (kid "o:idmap" [x]) with (Some x) end. cbn [bind attrs_of].
  match goal with |- context [attr "data" ?q] => change (attr "data" q) with (Some (dec k)) end. cbn [bind]. rewrite number_of_dec. cbn [bind].
  destruct l as [|x0 l0]; [congruence|]. cbn [Pkg_Model.is_nil map filter].
  match goal with |- context [is_elem "v:shape" (Elem (lit "o:shapelayout") ?a ?b)] => change (is_elem "v:shape" (Elem (lit "o:shapelayout") a b)) with false end.
  change (is_elem "v:shape" (node_of image_type)) with false. cbv iota.
  rewrite shapes_read. reflexivity.
Qed.
