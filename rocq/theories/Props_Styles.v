(** Property C26: the component tables of styles.xml. *)
From Verif Require Import Base Fmt_Model Styles_Model Styles_Proofs.

(** What a fill means: a single colour without a pattern is a solid fill with
    that colour (documented behaviour); anything else is taken as it is. *)
Definition intended_fill (f : Fill) : Fill :=
  if (pattern f =? 0) || (pattern f =? 1) then
    match foreground_color f, background_color f with
    | CDefault, CDefault => f
    | CDefault, c => {| foreground_color := c; background_color := CDefault; pattern := 1 |}
    | c, CDefault => {| foreground_color := c; background_color := CDefault; pattern := 1 |}
    | _, _ => f
    end
  else f.
Lemma normal_intended f : normal_fill f = intended_fill f.
Proof.
  destruct f as [fg bg p]. unfold normal_fill, intended_fill, none_or_solid, color_is_default. cbn [pattern foreground_color background_color].
  destruct (p =? 0) eqn:E0; destruct (p =? 1) eqn:E1; cbn [orb];
   destruct fg as [x|x y| | |x]; destruct bg as [u|u v| | |u]; cbn -[N.eqb]; try rewrite ?E0, ?E1; try reflexivity.
Qed.

Section C26.
Variables (xfs dxfs : list Format).
(** Excel's own limit on cell formats is 64000; the library counts in u16. *)
Hypothesis few : N.of_nat (length xfs + length dxfs) <= 65000.

Let Lfo : length (fst (prepare_fonts xfs)) = length xfs.
Proof. unfold prepare_fonts. now rewrite assign_length, map_length. Qed.
Let Lfi : length (fst (prepare_fills xfs)) = length xfs.
Proof. unfold prepare_fills. now rewrite assign_length, map_length. Qed.
Let Lbo : length (fst (prepare_borders xfs)) = length xfs.
Proof. unfold prepare_borders. now rewrite assign_length, map_length. Qed.
Let start164 : indexes164 [] [].
Proof. intros s i. cbn. split; [discriminate|]. intros [_ E]. destruct (N.to_nat (i - 164)); discriminate. Qed.
Let nums := num_all xfs dxfs [] [] 164 start164 (NoDup_nil _) eq_refl ltac:(cbn [length]; lia).
Lemma Forall2_len {A B} (P : A -> B -> Prop) l m : Forall2 P l m -> length l = length m.
Proof. intros F. induction F; cbn; lia. Qed.
Lemma xfs_nums : exists ix id, fst (prepare_num_formats xfs dxfs) = ix ++ id /\ length ix = length xfs.
Proof. destruct nums as (r & _ & ix & id & E & F & _). exists ix, id. split; [exact E|]. symmetry. eapply Forall2_len, F. Qed.

Let fonts_spec := assign_spec font_eq_dec (map font xfs) [] [] 0 (indexes_nil _) (NoDup_nil _) eq_refl ltac:(rewrite map_length; cbn [length Nat.add]; lia).
Let borders_spec := assign_spec border_eq_dec (map borders xfs) [] [] 0 (indexes_nil _) (NoDup_nil _) eq_refl ltac:(rewrite map_length; cbn [length Nat.add]; lia).
Lemma fills_start : indexes fill_eq_dec [(fill_default, 0); (gray125, 1)] [fill_default; gray125].
Proof.
  intros a i. cbn [lookup]. destruct (fill_eq_dec fill_default a) as [<-|H1].
  - split; [intros [= <-]; reflexivity|]. destruct (N.to_nat i) as [|[|n]] eqn:E; cbn; intros H; try discriminate; [f_equal; lia|destruct n; discriminate].
  - destruct (fill_eq_dec gray125 a) as [<-|H2].
    + split; [intros [= <-]; reflexivity|]. destruct (N.to_nat i) as [|[|n]] eqn:E; cbn; intros H; try discriminate; [f_equal; lia|destruct n; discriminate].
    + split; [discriminate|]. destruct (N.to_nat i) as [|[|n]]; cbn; intros H; [congruence|congruence|destruct n; discriminate].
Qed.
Let fills_spec := assign_spec fill_eq_dec (map (fun f => normal_fill (fill f)) xfs) [(fill_default, 0); (gray125, 1)] [fill_default; gray125] 2
   fills_start ltac:(constructor; [intros [[=]|[]]|constructor; [tauto|constructor]]) eq_refl ltac:(rewrite map_length; cbn [length Nat.add]; lia).

(** One <xf> per format, in order, whose ids select the format's own font, fill
    and border in the tables written. *)
Theorem C26_ids_select_components :
  length (cell_xfs xfs dxfs) = length xfs /\
  forall k f x, nth_error xfs k = Some f -> nth_error (cell_xfs xfs dxfs) k = Some x ->
    nth_error (fonts_written xfs) (N.to_nat (xf_fontId x)) = Some (font f) /\
    nth_error (fills_written xfs) (N.to_nat (xf_fillId x)) = Some (intended_fill (fill f)) /\
    nth_error (borders_written xfs) (N.to_nat (xf_borderId x)) = Some (borders f) /\
    (xf_xfId x = 1 <-> is_hyperlink (font f) = true).
Proof.
  destruct xfs_nums as (ix & id & En & Ln).
  unfold cell_xfs. rewrite En, (xf_list_cut xfs ix id) by exact Ln. split; [now apply xf_list_length|]. intros k f x Hf Hx.
  destruct (xf_list_nth xfs _ _ _ _ k x f Ln Lfo Lfi Lbo Hx Hf) as (_ & Fo & Fi & Bo & Hy).
  split; [|split; [|split]].
  - destruct fonts_spec as (_ & _ & F & _). cbn [app] in F. destruct (nth_error (fst (prepare_fonts xfs)) k) as [p|] eqn:E; [|discriminate].
    cbn in Fo. injection Fo as <-. exact (Forall2_nth _ _ _ k (font f) p F (map_nth_error font k xfs Hf) E).
  - rewrite <- normal_intended. destruct fills_spec as (_ & _ & F & _). destruct (nth_error (fst (prepare_fills xfs)) k) as [p|] eqn:E; [|discriminate].
    cbn in Fi. injection Fi as <-. exact (Forall2_nth _ _ _ k (normal_fill (fill f)) p F (map_nth_error (fun f => normal_fill (fill f)) k xfs Hf) E).
  - destruct borders_spec as (_ & _ & F & _). cbn [app] in F. destruct (nth_error (fst (prepare_borders xfs)) k) as [p|] eqn:E; [|discriminate].
    cbn in Bo. injection Bo as <-. exact (Forall2_nth _ _ _ k (borders f) p F (map_nth_error borders k xfs Hf) E).
  - rewrite Hy. destruct (is_hyperlink (font f)); split; congruence.
Qed.

(** No component is written twice, the count attributes are right, and the two
    reserved fills come first; with the default format first, index 0 is the
    default font and border. *)
Theorem C26_tables_and_counts :
  NoDup (fonts_written xfs) /\ NoDup (fills_written xfs) /\ NoDup (borders_written xfs) /\
  (forall c, fonts_count xfs c = fonts_elements xfs c) /\
  snd (prepare_fills xfs) = N.of_nat (length (fills_written xfs)) /\
  snd (prepare_borders xfs) = N.of_nat (length (borders_written xfs)) /\
  nth_error (fills_written xfs) 0 = Some fill_default /\ nth_error (fills_written xfs) 1 = Some gray125 /\
  (forall r, xfs = format_default :: r -> nth_error (fonts_written xfs) 0 = Some font_default /\ nth_error (borders_written xfs) 0 = Some border_default).
Proof.
  destruct fonts_spec as (A1 & A2 & _ & A4). destruct fills_spec as (B1 & B2 & _ & B4). destruct borders_spec as (D1 & D2 & _ & D4).
  cbn [app] in A1, A2, D1, D2.
  split; [exact A1|]. split; [exact B1|]. split; [exact D1|]. split.
  { intros c. unfold fonts_count, fonts_elements. change (snd (prepare_fonts xfs)) with (snd (assign font_eq_dec [] 0 (map font xfs))). rewrite A2.
    change (flagged (map font xfs) (fst (assign font_eq_dec [] 0 (map font xfs)))) with (fonts_written xfs). destruct c; [|lia].
    unfold u16_succ. apply N.mod_small.
    assert (length (fonts_written xfs) <= length xfs)%nat; [|lia].
    unfold fonts_written. etransitivity; [apply flagged_length|]. now rewrite map_length. }
  split; [exact B2|]. split; [exact D2|]. split; [reflexivity|]. split; [reflexivity|].
  intros r E. unfold fonts_written, borders_written, prepare_fonts, prepare_borders, flagged. rewrite E. cbn [map assign lookup].
  split.
  - destruct (assign font_eq_dec [(font format_default, 0)] (u16_succ 0) (map font r)). reflexivity.
  - destruct (assign border_eq_dec [(borders format_default, 0)] (u16_succ 0) (map borders r)). reflexivity.
Qed.

(** Number formats.  <numFmts> lists each custom code of a cell format once,
    with ids 164, 165, ... without gaps. *)
Theorem C26_custom_number_formats :
  map fst (num_fmts_written xfs dxfs) = map (fun n => 164 + N.of_nat n) (seq 0 (length (num_fmts_written xfs dxfs))) /\
  NoDup (map snd (num_fmts_written xfs dxfs)) /\
  (forall s, In s (map snd (num_fmts_written xfs dxfs)) -> exists f, In f xfs /\ num_format_index f = 0 /\ num_format f = s /\ s <> []).
Proof.
  destruct nums as (r & Nd & ix & id & _ & F & _ & G). cbn [app] in *. fold (prepare_num_formats xfs dxfs) in *.
  set (codes := snd (prepare_num_formats xfs dxfs)) in *.
  assert (Nc : NoDup codes) by exact (nodup_app_l _ _ Nd).
  assert (L : 164 + N.of_nat (length codes) <= 65535) by (pose proof (codes_bound xfs codes Nc G); lia).
  unfold num_fmts_written. fold codes. destruct (num_elements_ids codes 164 L) as [A B]. rewrite A, B, num_elements_length.
  split; [reflexivity|]. split; [exact Nc|exact G].
Qed.
(** The numFmtId of a cell format: its built-in number if it has one; 0 if it
    has no number format; otherwise the id of its own code in <numFmts>. *)
Theorem C26_number_format_selected k f x : nth_error xfs k = Some f -> nth_error (cell_xfs xfs dxfs) k = Some x ->
  (num_format_index f <> 0 -> xf_numFmtId x = num_format_index f) /\
  (num_format_index f = 0 -> num_format f = [] -> xf_numFmtId x = 0) /\
  (num_format_index f = 0 -> num_format f <> [] -> forall code, In (xf_numFmtId x, code) (num_fmts_written xfs dxfs) <-> code = num_format f).
Proof.
  intros Hf Hx. pose proof C26_custom_number_formats as (Ids & Nc & Codes).
  destruct nums as (r & Nd & ix & id & En & F & _ & G). cbn [app] in *. fold (prepare_num_formats xfs dxfs) in *.
  assert (Ln : length ix = length xfs) by (symmetry; eapply Forall2_len, F).
  assert (R : right_num (snd (prepare_num_formats xfs dxfs)) f (xf_numFmtId x)).
  { assert (Hn : nth_error ix k = Some (xf_numFmtId x)).
    { unfold cell_xfs in Hx. rewrite En in Hx. exact (xf_list_num xfs ix id _ _ _ k x Ln Hx). }
    exact (Forall2_nth _ _ _ k f _ F Hf Hn). }
  unfold right_num in R. split; [|split].
  - intros H. destruct (N.ltb_spec 0 (num_format_index f)); [exact R|lia].
  - intros H1 H2. rewrite H1, H2 in R. exact R.
  - intros H1 H2. rewrite H1 in R. change (0 <? 0) with false in R. cbv iota in R. destruct (num_format f) as [|c s] eqn:Ec; [congruence|]. destruct R as [R1 R2].
    set (codes := snd (prepare_num_formats xfs dxfs)) in *.
    assert (Le : 164 + N.of_nat (length codes) <= 65535) by (pose proof (codes_bound xfs codes (nodup_app_l _ _ Nd) G); lia).
    intros code. split.
    + intros Hin. apply In_nth_error in Hin as [n Hn]. unfold num_fmts_written in Hn. fold codes in Hn.
      destruct (nth_error codes n) as [s0|] eqn:E0.
      * pose proof (num_elements_nth codes 164 n s0 Le E0) as E1. rewrite Hn in E1.
        assert (Ei : xf_numFmtId x = 164 + N.of_nat n) by congruence. assert (code = s0) by congruence. subst s0.
        rewrite Ei in R2. replace (N.to_nat (164 + N.of_nat n - 164)) with n in R2 by lia. congruence.
      * apply nth_error_None in E0. assert (n < length (num_elements 164 codes))%nat by (apply nth_error_Some; congruence).
        rewrite num_elements_length in H. lia.
    + intros ->. pose proof (num_elements_nth codes 164 _ _ Le R2) as E. apply nth_error_In in E.
      replace (164 + N.of_nat (N.to_nat (xf_numFmtId x - 164))) with (xf_numFmtId x) in E by lia. exact E.
Qed.

(** If any cell format has the hyperlink property, the "Hyperlink" cell style
    selects a hyperlink font. *)
Theorem C26_hyperlink_style f : In f xfs -> is_hyperlink (font f) = true ->
  exists g, nth_error (fonts_written xfs) (N.to_nat (hyperlink_font_id xfs)) = Some g /\ is_hyperlink g = true.
Proof.
  intros Hin Hf. destruct fonts_spec as (_ & A2 & _ & A4). cbn [app] in A4.
  change (flagged (map font xfs) (fst (assign font_eq_dec [] 0 (map font xfs)))) with (fonts_written xfs) in A4.
  destruct (hyperlink_font_found (fonts_written xfs) 0 0) as (n & g & E & Hn & Hg).
  - assert (length (fonts_written xfs) <= length xfs)%nat; [|lia]. unfold fonts_written. etransitivity; [apply flagged_length|]. now rewrite map_length.
  - exists (font f). split; [apply A4; right; now apply in_map|exact Hf].
  - exists g. split; [|exact Hg]. unfold hyperlink_font_id. rewrite E. now replace (N.to_nat (0 + N.of_nat n)) with n by lia.
Qed.
End C26.

(** A case with two fonts, a solid fill given by a background colour only and
    a custom number format shared by a cell format and a conditional format. *)
Definition red_bg : Fill := {| foreground_color := CDefault; background_color := CRGB 16711680; pattern := 0 |}.
Definition with_num (s : str) (i : N) (fl : Fill) : Format := {| num_format := s; num_format_index := i; font := font format_hyperlink; alignment := align_default;
     borders := border_default; fill := fl; hidden := false; locked := true; checkbox := false; quote_prefix := false |}.
Example C26_met :
  let xfs := [format_default; with_num (lit "0.000") 0 red_bg; with_num [] 14 fill_default; with_num (lit "0.0") 0 fill_default] in
  let dxfs := [with_num (lit "0.0") 0 fill_default; with_num (lit "[h]") 0 fill_default] in
  N.of_nat (length xfs + length dxfs) <= 65000 /\
  cell_xfs xfs dxfs = [{| xf_numFmtId := 0; xf_fontId := 0; xf_fillId := 0; xf_borderId := 0; xf_xfId := 0 |};
                       {| xf_numFmtId := 164; xf_fontId := 1; xf_fillId := 2; xf_borderId := 0; xf_xfId := 1 |};
                       {| xf_numFmtId := 14; xf_fontId := 1; xf_fillId := 0; xf_borderId := 0; xf_xfId := 1 |};
                       {| xf_numFmtId := 165; xf_fontId := 1; xf_fillId := 0; xf_borderId := 0; xf_xfId := 1 |}] /\
  fst (prepare_num_formats xfs dxfs) = [0; 164; 14; 165; 165; 166] /\ map fst (num_fmts_written xfs dxfs) = [164; 165] /\ hyperlink_font_id xfs = 1.
Proof. cbv zeta. split; [cbn; lia|]. split; [vm_compute; reflexivity|]. split; [vm_compute; reflexivity|]. split; (vm_compute; reflexivity). Qed.

(** set_num_format_index accepts any u8: index 164 and above selects another
    format's custom code instead of a built-in format. *)
Theorem C26_user_index_above_163_refuted :
  exists xfs f x, nth_error xfs 1 = Some f /\ num_format f = [] /\ nth_error (cell_xfs xfs []) 1 = Some x /\
    In (xf_numFmtId x, lit "0.0") (num_fmts_written xfs []).
Proof.
  exists [format_default; with_num [] 164 fill_default; with_num (lit "0.0") 0 fill_default].
  do 2 eexists. split; [reflexivity|]. split; [reflexivity|]. split; [vm_compute; reflexivity|]. vm_compute. now left.
Qed.
