(** C97: pictures in headers and footers. *)
From Verif Require Import Base Xml_Model Xml_Spec Xml_Proofs Xml_Read Xml_Tree Fmt_Model Rich_Proofs SheetXml_Spec SheetXml_Proofs SheetXml_Proofs3 Doc_Spec View_Spec Part_Proofs
  Setup_Spec Note_Model Note_Spec Hf_Model Hf_Spec Hf_Proofs Hf_Proofs2.

(** A picture is accepted exactly when the text in force has one section of that
    kind, and that section contains a picture code. *)
Theorem C97_accepted s header p i :
  snd (hstep s (HImage header p i)) = false <->
  exists sec, section_text p (if header then h_header s else h_footer s) sec /\ picture_code sec.
Proof.
  rewrite <- verify_spec. cbn [hstep]. destruct (verify_header_footer_image _ p); cbn [negb snd]; split; intros; congruence.
Qed.
Print Assumptions C97_accepted.
(** A rejected call changes nothing. *)
Theorem C97_rejected_unchanged s o s' : hstep s o = (s', true) -> s' = s.
Proof.
  destruct o as [b t|b p i]; cbn [hstep].
  - destruct (255 <? _); [intros H; congruence|destruct b; intros H; congruence].
  - destruct (negb _); intros H; congruence.
Qed.
Print Assumptions C97_rejected_unchanged.

(** The specification names one picture. *)
Lemma picture_unique header p ops x : picture_after header p ops x -> forall y, picture_after header p ops y -> x = y.
Proof.
  induction 1 as [|i ops H|i ops x H _ IH|o ops x H _ IH]; intros y Hy; inversion Hy; subst; auto; try contradiction; exfalso;
    match goal with H : forall _, _ <> _ |- _ => exact (H _ eq_refl) end.
Qed.
Lemma picture_made header p ops x : picture_after header p ops x -> forall i, x = Some i -> In (HImage header p i) ops.
Proof. induction 1; intros j E; try discriminate; [injection E as ->; left; reflexivity|right; auto|right; auto]. Qed.

Lemma six {A} (l : list A) : length l = 6%nat -> exists a b c d e f, l = [a; b; c; d; e; f].
Proof. destruct l as [|a [|b [|c [|d [|e [|f [|g l]]]]]]]; try discriminate. intros _. exists a, b, c, d, e, f. reflexivity. Qed.
Definition place_name (x : bool * hpos * hpic) : str := vml_position (fst (fst x)) (snd (fst x)).
(** The slots after a history, and their order. *)
Lemma slots ops : exists g : bool -> hpos -> option hpic,
  (forall header p, picture_after header p (rev ops) (g header p)) /\
  let l := flatten (h_pics (hrun hsheet_new ops)) in
  (forall header p i, In (header, p, i) l <-> g header p = Some i) /\ NoDup (map place_name l) /\ (length l <= 6)%nat.
Proof.
  destruct (history ops) as (_ & _ & L & H). set (s := hrun hsheet_new ops) in *. clearbody s. destruct (six _ L) as (a & b & c & d & e & f & E). rewrite E in *. clear E L.
  destruct (H true HLeft) as (x1 & E1 & P1). destruct (H true HCenter) as (x2 & E2 & P2). destruct (H true HRight) as (x3 & E3 & P3).
  destruct (H false HLeft) as (x4 & E4 & P4). destruct (H false HCenter) as (x5 & E5 & P5). destruct (H false HRight) as (x6 & E6 & P6). clear H.
  cbn in E1, E2, E3, E4, E5, E6. injection E1 as ->. injection E2 as ->. injection E3 as ->. injection E4 as ->. injection E5 as ->. injection E6 as ->.
  exists (fun (h : bool) (p : hpos) => if h then match p with HLeft => x1 | HCenter => x2 | HRight => x3 end else match p with HLeft => x4 | HCenter => x5 | HRight => x6 end).
  split; [intros [] []; assumption|]. cbv zeta. split; [|split].
  - assert (K : forall header p i (o : option (bool * hpos * hpic)) (r : list (option (bool * hpos * hpic))), In (header, p, i) (flatten (o :: r)) <-> o = Some (header, p, i) \/ In (header, p, i) (flatten r)).
    { intros header p i [o|] r; unfold flatten; cbn [flat_map app In].
      - split; (intros [K|K]; [left; congruence|right; exact K]).
      - split; [intros K; right; exact K|intros [K|K]; [discriminate K|exact K]]. }
    intros header p i. rewrite !K. unfold flatten. cbn [flat_map In].
    destruct x1, x2, x3, x4, x5, x6, header, p; cbn [option_map]; split; intros Q; repeat (destruct Q as [Q|Q]); try discriminate Q; try contradiction; try congruence; try (injection Q as ->; tauto).
  - apply nodupb_ok. destruct x1, x2, x3, x4, x5, x6; reflexivity.
  - destruct x1, x2, x3, x4, x5, x6; cbn; lia.
Qed.

(** ** The list read *)
Lemma asked_places l : forall shape z, map hi_place (asked_images shape z l) = map place_name (map fst l).
Proof. induction l as [|[[[h p] i] r] l IH]; intros shape z; [reflexivity|]. cbn [asked_images map fst]. rewrite IH. reflexivity. Qed.
Lemma forall2_impl {A B} (P Q : A -> B -> Prop) l r : (forall a b, P a b -> Q a b) -> Forall2 P l r -> Forall2 Q l r.
Proof. intros H. induction 1; constructor; auto. Qed.
Lemma asked_ids l : forall shape z, Forall2 (fun im j => hi_id im = lit "_x0000_s" ++ dec (shape + 1 + N.of_nat j)) (asked_images shape z l) (seq 0 (length l)).
Proof.
  assert (H : forall l shape z n, Forall2 (fun im j => hi_id im = lit "_x0000_s" ++ dec (shape + 1 + N.of_nat j - N.of_nat n)) (asked_images shape z l) (seq n (length l))).
  { clear l. induction l as [|[[[h p] i] r] l IH]; intros shape z n; [constructor|]. cbn [asked_images length seq]. constructor.
    - cbn [asked_image hi_id]. unfold shape_name. do 2 f_equal. lia.
    - assert (X := IH (shape + 1) (z + 1) (S n)). eapply forall2_impl; [|exact X]. cbv beta. intros im j E. rewrite E. do 2 f_equal. lia. }
  intros shape z. assert (X := H l shape z 0%nat). eapply forall2_impl; [|exact X]. cbv beta. intros im j E. rewrite E. do 2 f_equal. lia.
Qed.
Lemma dec_inj a b : dec a = dec b -> a = b.
Proof. intros H. assert (X := number_of_dec a). rewrite H, number_of_dec in X. congruence. Qed.
Lemma ids_good l k z : (length l <= 6)%nat -> let r := asked_images (1024 * k) z l in
  NoDup (map hi_id r) /\ forall im, In im r -> exists n, hi_id im = lit "_x0000_s" ++ dec n /\ 1024 * k < n < 1024 * (k + 1).
Proof.
  intros L r. assert (F := asked_ids l (1024 * k) z). fold r in F. clearbody r.
  assert (G : forall r js, Forall2 (fun im j => hi_id im = lit "_x0000_s" ++ dec (1024 * k + 1 + N.of_nat j)) r js -> (forall im, In im r -> exists j, In j js /\ hi_id im = lit "_x0000_s" ++ dec (1024 * k + 1 + N.of_nat j)) /\ (NoDup js -> NoDup (map hi_id r))).
  { clear. induction 1 as [|im j r js E F [IH1 IH2]]; [split; [intros im []|constructor]|]. split.
    - intros im' [<-|H]; [exists j; split; [left; reflexivity|exact E]|]. destruct (IH1 im' H) as (j' & A & B). exists j'. split; [right; exact A|exact B].
    - intros Nd. inversion Nd as [|? ? N1 N2]; subst. cbn [map]. constructor; [|auto]. intros H. apply in_map_iff in H as (im' & Q & H). destruct (IH1 im' H) as (j' & A & B).
      rewrite B, E in Q. apply app_inv_head in Q. apply dec_inj in Q. assert (j = j') by lia. subst. contradiction. }
  destruct (G _ _ F) as [G1 G2]. split; [apply G2, seq_NoDup|]. intros im H. destruct (G1 im H) as (j & A & B). exists (1024 * k + 1 + N.of_nat j). split; [exact B|].
  apply in_seq in A. lia.
Qed.
Lemma asked_in l : forall shape z h p i r, In (h, p, i, r) l -> exists im, In im (asked_images shape z l) /\ hi_place im = vml_position h p /\ hi_rel im = r /\ hi_title im = hp_name i /\
  hi_width im = hp_width i * 75 /\ hi_height im = hp_height i * 75 /\ hi_keep_ratio im = negb (hp_scaled i).
Proof.
  induction l as [|x l IH]; intros shape z h p i r H; [destruct H|]. cbn [asked_images In] in *. destruct H as [->|H].
  - eexists. split; [left; reflexivity|]. cbn. repeat (split; [reflexivity|]). reflexivity.
  - destruct (IH (shape + 1) (z + 1) h p i r H) as (im & A & B). exists im. split; [right; exact A|exact B].
Qed.

(** What a reader finds for a sheet. *)
Definition sheet_part_says (base : N) (hashes : list str) (k : N) (ops : list hop) (part : option (list str * str)) : Prop :=
  match part with
  | None => forall header p, picture_after header p (rev ops) None
  | Some (targets, text) => exists l, bind (read_plain text) read_hf_part = Some (k, l) /\ NoDup (map hi_place l) /\ NoDup (map hi_id l) /\
      (forall im, In im l -> exists n, hi_id im = lit "_x0000_s" ++ dec n /\ 1024 * k < n < 1024 * (k + 1)) /\
      forall header p name, In (header, p, name) places -> exists x, picture_after header p (rev ops) x /\
        match x with
        | None => ~ In (lit name) (map hi_place l)
        | Some i => exists im t, In im l /\ hi_place im = lit name /\ hi_title im = hp_name i /\ hi_width im = hp_width i * 75 /\ hi_height im = hp_height i * 75 /\
                      hi_keep_ratio im = negb (hp_scaled i) /\ 1 <= hi_rel im /\ nth_error targets (N.to_nat (hi_rel im - 1)) = Some t /\ media_file base hashes i t
        end
  end.
Section Save.
  Variable ext : str -> str.
  Variable base : N.
  Definition pics_fit (ops : list hop) : Prop := forall header p i, In (HImage header p i) ops -> attr_ok (hp_name i) /\ hp_ext i = ext (hp_hash i).
  Lemma parts_say hs : (forall ops, In ops hs -> pics_fit ops) -> forall ids k, NoDup ids ->
    exists more, NoDup (ids ++ more) /\ let parts := hf_parts base ids k (map (hrun hsheet_new) hs) in length parts = length hs /\
    forall j ops part, nth_error hs j = Some ops -> nth_error parts j = Some part ->
      sheet_part_says base (ids ++ more) (k + N.of_nat (length (flatten (firstn j parts)))) ops part.
  Proof.
    induction hs as [|ops hs IH]; intros Hf ids k Nd.
    - exists []. rewrite app_nil_r. split; [exact Nd|]. split; [reflexivity|]. intros [|j] ? ? H; discriminate.
    - assert (Hr : forall o, In o hs -> pics_fit o) by (intros o Ho; apply Hf; right; exact Ho). assert (H0 := Hf ops (or_introl eq_refl)).
      destruct (slots ops) as (g & G & GI & GN & GL). cbv zeta in GI, GN, GL. cbn [map hf_parts].
      set (fl := flatten (h_pics (hrun hsheet_new ops))) in *. assert (Ef : fl = flatten (h_pics (hrun hsheet_new ops))) by reflexivity. clearbody fl.
      assert (Hfit : Forall (fun x => attr_ok (hp_name (snd x)) /\ hp_ext (snd x) = ext (hp_hash (snd x))) fl).
      { apply Forall_forall. intros [[h p] i] H. apply GI in H. cbn [snd]. apply (H0 h p). apply in_rev. exact (picture_made _ _ _ _ (G h p) i H). }
      destruct fl as [|x0 fl0] eqn:Efl.
      + destruct (IH Hr ids k Nd) as (more & N1 & N2 & N3). exists more. split; [exact N1|]. cbv zeta. cbn [length]. split; [rewrite N2; reflexivity|].
        intros [|j] o part Ho Hp; cbn [nth_error] in Ho, Hp; [|cbn [firstn flatten flat_map app]; apply (N3 j); assumption].
        injection Ho as <-. injection Hp as <-. cbn [sheet_part_says]. intros header p. destruct (g header p) as [i|] eqn:Eg; [apply GI in Eg; destruct Eg|rewrite <- Eg; apply G].
      + rewrite <- Efl in *. assert (Hne : fl <> []) by (rewrite Efl; discriminate). clear Efl x0 fl0.
        assert (P := prepare_spec ext base fl (Forall_impl _ (fun x H => proj2 H) Hfit) ids [] []).
        destruct (prepare_pics base ids [] [] fl) as [[ids' targets] infos]. destruct P as ((m & E1) & _ & E3 & E4 & E5).
        { split; [reflexivity|]. intros [|q] h H; discriminate. }
        destruct (IH Hr ids' (k + 1) (E3 Nd)) as (more & N1 & N2 & N3). exists (m ++ more). rewrite app_assoc, <- E1. split; [exact N1|]. cbv zeta. cbn [length]. split; [rewrite N2; reflexivity|].
        intros [|j] o part Ho Hp; cbn [nth_error] in Ho, Hp.
        * injection Ho as <-. injection Hp as <-. cbn [firstn flatten flat_map length]. replace (k + N.of_nat 0) with k by lia. cbn [sheet_part_says].
          assert (Li : (length infos <= 6)%nat) by (rewrite <- (map_length fst), E4; exact GL).
          assert (Ni : infos <> []) by (intros ->; apply Hne; rewrite <- E4; reflexivity).
          exists (asked_images (1024 * k) 0 infos). split.
          { apply part_reads; [exact Ni|]. apply Forall_forall. intros x Hx. rewrite Forall_forall in Hfit. apply (Hfit (fst x)). rewrite <- E4. apply in_map, Hx. }
          destruct (ids_good infos k 0 Li) as [I1 I2]. split; [rewrite asked_places, E4; exact GN|]. split; [exact I1|]. split; [exact I2|].
          intros header p name Hn. exists (g header p). split; [apply G|].
          assert (Hname : lit name = vml_position header p).
          { unfold places in Hn. cbn [In] in Hn. repeat (destruct Hn as [Hn|Hn]; [apply pair_equal_spec in Hn as [Hn <-]; apply pair_equal_spec in Hn as [<- <-]; reflexivity|]). destruct Hn. }
          rewrite Hname. destruct (g header p) as [i|] eqn:Eg.
          -- assert (Hi : In (header, p, i) (map fst infos)) by (rewrite E4; apply GI, Eg). apply in_map_iff in Hi as ([q rel] & Eq & Hi). cbn [fst] in Eq. subst q.
             destruct (asked_in infos (1024 * k) 0 header p i rel Hi) as (im & A1 & A2 & A3 & A4 & A5 & A6 & A7).
             rewrite Forall_forall in E5. destruct (E5 _ Hi) as (B1 & n & B2 & B3). exists im, (file_name base n (hp_ext i)). rewrite A3.
             repeat (split; [assumption|]). exists n. split; [apply nth_app_some, B2|reflexivity].
          -- rewrite asked_places, E4. intros H. apply in_map_iff in H as ([[h q] i] & Q & H). unfold place_name in Q. cbn [fst snd] in Q.
             assert (h = header /\ q = p) as [-> ->] by (destruct h, q, header, p; split; (reflexivity || discriminate Q)). apply GI in H. congruence.
        * cbn [firstn]. match goal with |- context [flatten (Some ?x :: ?l)] => change (length (flatten (Some x :: l))) with (S (length (flatten l))) end. rewrite Nat2N.inj_succ.
          match goal with |- context [k + N.succ ?n] => replace (k + N.succ n) with (k + 1 + n) by lia end.
          apply (N3 j); assumption.
  Qed.
End Save.

(** For every workbook, whatever calls were made on its sheets: a sheet has a header
    picture part exactly when it has pictures; the part, read back, has for each of
    the six places the picture asked for there and no other, with its name, its size
    (in hundredths of a point, 0.75 points to the pixel), and a relationship whose
    target is the file numbered after the picture's contents, the same for equal
    contents on all sheets; shape ids are distinct, within the block of 1024 the
    part reserves, and the blocks are numbered 1, 2, 3, ... *)
Theorem C97_pictures_read_back ext base histories :
  (forall ops header p i, In ops histories -> In (HImage header p i) ops -> attr_text (hp_name i) /\ hp_ext i = ext (hp_hash i)) ->
  let parts := hf_parts base [] 1 (map (hrun hsheet_new) histories) in
  length parts = length histories /\ exists hashes, NoDup hashes /\
  forall j ops part, nth_error histories j = Some ops -> nth_error parts j = Some part ->
    sheet_part_says base hashes (1 + N.of_nat (length (flatten (firstn j parts)))) ops part.
Proof.
  intros H parts. destruct (parts_say ext base histories (fun ops Ho header p i Hi => H ops header p i Ho Hi) [] 1 (NoDup_nil _)) as (more & A & B & C).
  split; [exact B|]. exists more. split; [exact A|exact C].
Qed.
Print Assumptions C97_pictures_read_back.
Theorem C97_one_picture header p ops x y : picture_after header p ops x -> picture_after header p ops y -> x = y.
Proof. intros A B. exact (picture_unique _ _ _ _ A _ B). Qed.

Definition pic1 := {| hp_name := lit "logo"; hp_hash := lit "h1"; hp_ext := lit "png"; hp_scaled := false; hp_width := 32; hp_height := 17 |}.
Definition pic2 := {| hp_name := lit "a&b"; hp_hash := lit "h2"; hp_ext := lit "jpeg"; hp_scaled := true; hp_width := 5; hp_height := 6 |}.
Example C97_example :
  let h1 := [HText true (lit "&L&G&CPage&R&[Picture]"); HImage true HLeft pic1; HImage true HCenter pic1; HImage true HRight pic2] in
  let h2 := [HText false (lit "a&C&G"); HImage false HCenter pic2; HImage false HCenter pic1] in
  exists t1 t2, hf_parts 3 [] 1 (map (hrun hsheet_new) [h1; []; h2]) = [Some ([lit "../media/image4.png"; lit "../media/image5.jpeg"], t1); None; Some ([lit "../media/image4.png"], t2)] /\
    bind (read_plain t1) read_hf_part = Some (1,
      [{| hi_place := lit "LH"; hi_id := lit "_x0000_s1025"; hi_rel := 1; hi_title := lit "logo"; hi_width := 2400; hi_height := 1275; hi_z := 1; hi_keep_ratio := true |};
       {| hi_place := lit "RH"; hi_id := lit "_x0000_s1026"; hi_rel := 2; hi_title := lit "a&b"; hi_width := 375; hi_height := 450; hi_z := 2; hi_keep_ratio := false |}]).
Proof. eexists _, _. split; [vm_compute; reflexivity|vm_compute; reflexivity]. Qed.

(** Findings.  Text before any section letter is the centre section, but a picture
    there is refused; an ampersand written "&&" counts as the start of a code; and a
    later text leaves pictures behind that it has no code for. *)
Theorem C97_no_letter_refuted : snd (hstep (fst (hstep hsheet_new (HText true (lit "&G")))) (HImage true HCenter pic1)) = true.
Proof. reflexivity. Qed.
Theorem C97_ampersand_refuted : snd (hstep (fst (hstep hsheet_new (HText true (lit "&LR&&G")))) (HImage true HLeft pic1)) = false.
Proof. reflexivity. Qed.
Theorem C97_orphan_refuted : let s := hrun hsheet_new [HText true (lit "&L&G"); HImage true HLeft pic1; HText true (lit "Title")] in
  h_header s = lit "Title" /\ flatten (h_pics s) = [(true, HLeft, pic1)].
Proof. split; reflexivity. Qed.
