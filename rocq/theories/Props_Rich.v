(** C52: the runs of a rich string, read back segment by segment. *)
From Verif Require Import Base Fmt_Model Xml_Model Xml_Spec Xml_Read Xml_Read_Proofs Xml_Tree Rich_Model Rich_Proofs SheetXml_Spec SheetXml_Proofs SheetXml_Proofs3.

(** ** Reading a run *)
Record fprops := { p_bold : bool; p_italic : bool; p_strike : bool; p_underline : option (option str); p_script : option (option str);
                   p_size : option str; p_name : option str; p_color : option (list (str * str));
                   p_family : option N; p_charset : option N; p_scheme : option str }.
Definition has (k : string) (l : list node) : bool := match kid k l with Some _ => true | None => false end.
Definition val_of (k : string) (l : list node) : option (option str) :=
  match kid k l with Some (Elem _ a _) => Some (attr "val" a) | _ => None end.
Definition val (k : string) (l : list node) : option str := match val_of k l with Some v => v | None => None end.
Definition num_val (k : string) (l : list node) : option N := match val k l with Some s => number_of s | None => None end.
Definition read_props (l : list node) : fprops :=
  {| p_bold := has "b" l; p_italic := has "i" l; p_strike := has "strike" l; p_underline := val_of "u" l; p_script := val_of "vertAlign" l;
     p_size := val "sz" l; p_name := val "rFont" l; p_color := match kid "color" l with Some (Elem _ a _) => Some a | _ => None end;
     p_family := num_val "family" l; p_charset := num_val "charset" l; p_scheme := val "scheme" l |}.
(** A run: its properties, if it has any, and its text. *)
Definition read_run (n : node) : option (option fprops * str) :=
  match n with
  | Elem k _ kids =>
      if str_eqb k (lit "r") then
        match kid_text "t" kids with
        | Some t => Some (match kid "rPr" kids with Some (Elem _ _ ps) => Some (read_props ps) | _ => None end, excel_decode t)
        | None => None
        end
      else None
  | Txt _ => None
  end.

(** ** What a font asks for *)
(** Underline: none, single, double, single accounting, double accounting. *)
Definition underline_says (u : N) : option (option str) :=
  if u =? 0 then None else if u =? 2 then Some (Some (lit "double")) else if u =? 3 then Some (Some (lit "singleAccounting"))
  else if u =? 4 then Some (Some (lit "doubleAccounting")) else Some None.
Definition color_says (c : Color) (a : option (list (str * str))) : Prop :=
  match c with
  | CAutomatic => a = None
  | CDefault => exists l, a = Some l /\ attr "theme" l = Some (lit "1") /\ attr "tint" l = None
  | CRGB n => exists l h, a = Some l /\ attr "rgb" l = Some (lit "FF" ++ h) /\ (n < 16777216 -> length h = 6%nat /\ hex_number 0 h = Some n)
  | CTheme t s => exists l, a = Some l /\ attr "theme" l = Some (dec t) /\ (s = 0 -> attr "tint" l = None) /\ (1 <= s <= 5 -> attr "tint" l <> None)
  | CNamed _ => exists l h, a = Some l /\ attr "rgb" l = Some (lit "FF" ++ h)
  end.
Record font_says (f : Font) (p : fprops) : Prop := {
  fs_bold : p_bold p = bold f; fs_italic : p_italic p = italic f; fs_strike : p_strike p = strikethrough f;
  fs_underline : p_underline p = underline_says (underline f);
  fs_script : script f <= 2 -> p_script p = (if script f =? 0 then None else Some (Some (if script f =? 1 then lit "superscript" else lit "subscript")));
  fs_size : p_size p = Some (font_size f); fs_name : p_name p = Some (font_name f);
  fs_color : color_says (font_color f) (p_color p);
  fs_family : p_family p = (if family f =? 0 then None else Some (family f));
  fs_charset : p_charset p = (if charset f =? 0 then None else Some (charset f));
  fs_scheme : p_scheme p = (match scheme f with [] => None | s => Some s end) }.
(** The default format, in the first segment only, is left out: the run then takes
    the format of the cell. *)
Definition seg_says (first : bool) (seg : Format * str) (run : option fprops * str) : Prop :=
  snd run = snd seg /\
  match fst run with
  | None => first = true /\ fst seg = format_default
  | Some p => font_says (font (fst seg)) p
  end.

(** ** Proofs *)
Lemma kid_skip k n l : is_elem k n = false -> kid k (n :: l) = kid k l.
Proof. intros H. unfold kid. cbn [find]. rewrite H. reflexivity. Qed.
Lemma kid_hit k n l : is_elem k n = true -> kid k (n :: l) = Some n.
Proof. intros H. unfold kid. cbn [find]. rewrite H. reflexivity. Qed.
Lemma kid_app_skip k a l : forallb (fun n => negb (is_elem k n)) a = true -> kid k (a ++ l) = kid k l.
Proof.
  induction a as [|n a IH]; [reflexivity|]. cbn [forallb app]. intros H. apply andb_prop in H as [H1 H2]. rewrite kid_skip; [auto|]. destruct (is_elem k n); [discriminate|reflexivity].
Qed.
Lemma map_when {A B} (f : A -> B) b l : map f (when b l) = when b (map f l).
Proof. destruct b; reflexivity. Qed.
Lemma kid_when_skip k b a l : forallb (fun n => negb (is_elem k n)) a = true -> kid k (when b a ++ l) = kid k l.
Proof. intros H. apply kid_app_skip. destruct b; [assumption|reflexivity]. Qed.
Lemma kid_when_hit k b n l : is_elem k n = true -> kid k (when b [n] ++ l) = if b then Some n else kid k l.
Proof. intros H. destruct b; [apply kid_hit; assumption|reflexivity]. Qed.

Lemma hex_digit d : d < 16 -> hex_value (hex_upper d) = Some d.
Proof.
  intros H. assert (E : In d [0;1;2;3;4;5;6;7;8;9;10;11;12;13;14;15]) by (cbn; lia).
  cbn in E. repeat destruct E as [<-|E]; try reflexivity. destruct E.
Qed.
Lemma hex_number_app a : forall acc b, hex_number acc (a ++ b) = match hex_number acc a with Some x => hex_number x b | None => None end.
Proof. induction a as [|c a IH]; intros acc b; [reflexivity|]. cbn [app hex_number]. destruct (hex_value c); [apply IH|reflexivity]. Qed.
Lemma hex_loop_acc f : forall n acc, hex_loop f n acc = hex_loop f n [] ++ acc.
Proof.
  induction f as [|f IH]; intros n acc; [reflexivity|]. cbn [hex_loop]. destruct (n =? 0); [reflexivity|]. rewrite IH, (IH _ [_]), <- app_assoc. reflexivity.
Qed.
Lemma hex_loop_reads f : forall n, n < 2 ^ N.of_nat f -> hex_number 0 (hex_loop f n []) = Some n.
Proof.
  induction f as [|f IH]; intros n H.
  - cbn in *. f_equal. lia.
  - cbn [hex_loop]. destruct (N.eqb_spec n 0) as [->|Hn]; [reflexivity|]. rewrite hex_loop_acc, hex_number_app, IH.
    + cbn [hex_number]. rewrite hex_digit by (apply N.mod_lt; lia). f_equal. pose proof (N.div_mod n 16). lia.
    + rewrite Nat2N.inj_succ, N.pow_succ_r' in H. apply N.div_lt_upper_bound; [lia|]. assert (0 < 2 ^ N.of_nat f) by (apply N.neq_0_lt_0, N.pow_nonzero; lia). lia.
Qed.
Lemma hex_loop_len k : forall f n, n < 16 ^ N.of_nat k -> (length (hex_loop f n []) <= k)%nat.
Proof.
  induction k as [|k IH]; intros f n H.
  - cbn in H. assert (n = 0) by lia. subst. destruct f; cbn; lia.
  - destruct f as [|f]; [cbn; lia|]. cbn [hex_loop]. destruct (n =? 0); [cbn; lia|]. rewrite hex_loop_acc, app_length. cbn [length].
    rewrite Nat2N.inj_succ, N.pow_succ_r' in H. assert (Hd : n / 16 < 16 ^ N.of_nat k) by (apply N.div_lt_upper_bound; lia). specialize (IH f _ Hd). lia.
Qed.
Lemma hex_zeros k : hex_number 0 (repeat 48 k) = Some 0.
Proof. induction k; [reflexivity|]. exact IHk. Qed.
Lemma hex6_reads n : n < 16777216 -> length (hex6 n) = 6%nat /\ hex_number 0 (hex6 n) = Some n.
Proof.
  intros H. unfold hex6. set (d := hex_loop _ n []).
  assert (L : (length d <= 6)%nat) by (apply hex_loop_len; exact H).
  split; [rewrite app_length, repeat_length; lia|]. rewrite hex_number_app, hex_zeros. apply hex_loop_reads.
  rewrite Nat2N.inj_succ. apply N.lt_le_trans with (2 ^ N.of_nat (N.size_nat n)).
  - destruct n as [|p]; [reflexivity|]. pose proof (N.size_gt (N.pos p)) as S. cbn [N.size N.size_nat] in *.
    replace (N.of_nat (Pos.size_nat p)) with (N.pos (Pos.size p)); [exact S|]. clear. induction p as [p IH|p IH|]; cbn [Pos.size Pos.size_nat]; [| |reflexivity]; rewrite Nat2N.inj_succ, <- IH; lia.
  - apply N.pow_le_mono_r; lia.
Qed.
Lemma color_reads c dflt : color_says c (match kid "color" (map node_of (font_color_xml c false) ++ dflt) with Some (Elem _ a _) => Some a | _ => None end) \/ c = CAutomatic.
Proof.
  destruct c as [n|t s| | |n]; [left|left|left|right; reflexivity|left]; cbn [font_color_xml map app node_of]; rewrite kid_hit by reflexivity; cbn [color_says color_attributes].
  - eexists _, _. split; [reflexivity|]. split; [reflexivity|]. apply hex6_reads.
  - eexists. split; [reflexivity|]. split; [reflexivity|]. split.
    + intros ->. reflexivity.
    + intros Hs. unfold tint. destruct (N.eqb_spec s 0); [lia|]. assert (E : In s [1;2;3;4;5]) by (cbn; lia). cbn in E.
      repeat destruct E as [<-|E]; try (destruct E); (destruct (t =? 0); [|destruct (t =? 1); [|destruct (t =? 2)]]); cbn; discriminate.
  - eexists. split; [reflexivity|]. split; reflexivity.
  - eexists _, _. split; reflexivity.
Qed.
Ltac skip := repeat first [rewrite kid_when_skip by reflexivity | rewrite kid_when_hit by reflexivity].
Definition tail_nodes (f : Font) : list node :=
  [Elem (lit "rFont") [(lit "val", font_name f)] []] ++ when (0 <? family f) [Elem (lit "family") [(lit "val", dec (family f))] []] ++
  when (0 <? charset f) [Elem (lit "charset") [(lit "val", dec (charset f))] []] ++ match scheme f with [] => [] | s => [Elem (lit "scheme") [(lit "val", s)] []] end.
Definition font_nodes (f : Font) : list node :=
  when (bold f) [Elem (lit "b") [] []] ++ when (italic f) [Elem (lit "i") [] []] ++ when (strikethrough f) [Elem (lit "strike") [] []] ++
  when (negb (underline f =? 0)) [node_of (underline_xml (underline f))] ++ when (negb (script f =? 0)) [node_of (vert_align_xml (script f))] ++
  [Elem (lit "sz") [(lit "val", font_size f)] []] ++ map node_of (font_color_xml (font_color f) false) ++ tail_nodes f.
Lemma font_nodes_eq f : node_of (font_xml true false f) = Elem (lit "rPr") [] (font_nodes f).
Proof.
  unfold font_xml, font_nodes, tail_nodes. cbn [node_of negb when app]. f_equal. rewrite !map_app, !map_when. cbn [map node_of]; rewrite ?map_app, ?map_when; cbn [map node_of app].
  destruct (scheme f), (0 <? family f), (0 <? charset f); reflexivity.
Qed.
Lemma u_name k u : str_eqb (lit "u") (lit k) = false -> forallb (fun n => negb (is_elem k n)) [node_of (underline_xml u)] = true.
Proof. intros H. unfold underline_xml. cbn [node_of forallb is_elem]. rewrite H. reflexivity. Qed.
Lemma v_name k u : str_eqb (lit "vertAlign") (lit k) = false -> forallb (fun n => negb (is_elem k n)) [node_of (vert_align_xml u)] = true.
Proof. intros H. unfold vert_align_xml. cbn [node_of forallb is_elem]. rewrite H. reflexivity. Qed.
Lemma c_name k c : str_eqb (lit "color") (lit k) = false -> forallb (fun n => negb (is_elem k n)) (map node_of (font_color_xml c false)) = true.
Proof. intros H. destruct c; cbn [font_color_xml map node_of forallb is_elem]; rewrite ?H; reflexivity. Qed.
(** A child by name, before and after the colour. *)
Lemma kid_head k f : existsb (str_eqb (lit k)) (map lit ["sz"; "color"; "rFont"; "family"; "charset"; "scheme"]%string) = false ->
  kid k (font_nodes f) = kid k (when (bold f) [Elem (lit "b") [] []] ++ when (italic f) [Elem (lit "i") [] []] ++ when (strikethrough f) [Elem (lit "strike") [] []] ++
  when (negb (underline f =? 0)) [node_of (underline_xml (underline f))] ++ when (negb (script f =? 0)) [node_of (vert_align_xml (script f))] ++ []).
Proof.
  intros H. cbn [map existsb] in H. repeat (apply orb_false_elim in H as [? H]).
  assert (S : forall a b, str_eqb (lit a) (lit b) = false -> str_eqb (lit b) (lit a) = false).
  { intros a b E. destruct (str_eqb (lit b) (lit a)) eqn:K; [|reflexivity]. apply str_eqb_eq in K. rewrite K in E. rewrite (proj2 (str_eqb_eq _ _) eq_refl) in E. discriminate. }
  assert (Z : kid k ([Elem (lit "sz") [(lit "val", font_size f)] []] ++ map node_of (font_color_xml (font_color f) false) ++ tail_nodes f) = None).
  { rewrite kid_app_skip by (cbn [forallb is_elem]; rewrite S by assumption; reflexivity).
    rewrite kid_app_skip by (apply c_name; apply S; assumption). unfold tail_nodes.
    rewrite kid_app_skip by (cbn [forallb is_elem]; rewrite S by assumption; reflexivity).
    rewrite kid_when_skip by (cbn [forallb is_elem]; rewrite S by assumption; reflexivity).
    rewrite kid_when_skip by (cbn [forallb is_elem]; rewrite S by assumption; reflexivity).
    destruct (scheme f); [reflexivity|]. rewrite kid_skip by (cbn [is_elem]; apply S; assumption). reflexivity. }
  unfold font_nodes. generalize dependent ([Elem (lit "sz") [(lit "val", font_size f)] []] ++ map node_of (font_color_xml (font_color f) false) ++ tail_nodes f).
  intros l Z. unfold kid in *.
  assert (Fa : forall a, find (is_elem k) (a ++ l) = find (is_elem k) a).
  { induction a as [|n a IH]; [assumption|]. cbn [app find]. destruct (is_elem k n); [reflexivity|assumption]. }
  rewrite !app_nil_r. rewrite !app_assoc. rewrite Fa. reflexivity.
Qed.
Lemma kid_tail k f : existsb (str_eqb (lit k)) (map lit ["b"; "i"; "strike"; "u"; "vertAlign"]%string) = false ->
  kid k (font_nodes f) = kid k ([Elem (lit "sz") [(lit "val", font_size f)] []] ++ map node_of (font_color_xml (font_color f) false) ++ tail_nodes f).
Proof.
  intros H. cbn [map existsb] in H. repeat (apply orb_false_elim in H as [? H]).
  assert (S : forall a b, str_eqb (lit a) (lit b) = false -> str_eqb (lit b) (lit a) = false).
  { intros a b E. destruct (str_eqb (lit b) (lit a)) eqn:K; [|reflexivity]. apply str_eqb_eq in K. rewrite K in E. rewrite (proj2 (str_eqb_eq _ _) eq_refl) in E. discriminate. }
  unfold font_nodes. rewrite 3 kid_when_skip by (cbn [forallb is_elem]; rewrite S by assumption; reflexivity).
  rewrite kid_when_skip by (apply u_name, S; assumption). rewrite kid_when_skip by (apply v_name, S; assumption). reflexivity.
Qed.
Lemma font_reads f : font_says f (read_props (font_nodes f)).
Proof.
  split; cbn [read_props p_bold p_italic p_strike p_underline p_script p_size p_name p_color p_family p_charset p_scheme]; unfold has, num_val, val, val_of.
  - rewrite kid_head by reflexivity. rewrite kid_when_hit by reflexivity. destruct (bold f); [reflexivity|]. skip. try rewrite kid_when_skip by (apply u_name; reflexivity). try rewrite kid_when_skip by (apply v_name; reflexivity). reflexivity.
  - rewrite kid_head by reflexivity. skip. destruct (italic f); [reflexivity|]. try rewrite kid_when_skip by (apply u_name; reflexivity). try rewrite kid_when_skip by (apply v_name; reflexivity). reflexivity.
  - rewrite kid_head by reflexivity. skip. destruct (strikethrough f); [reflexivity|]. try rewrite kid_when_skip by (apply u_name; reflexivity). try rewrite kid_when_skip by (apply v_name; reflexivity). reflexivity.
  - rewrite kid_head by reflexivity. skip. unfold underline_says, underline_xml. destruct (underline f =? 0); cbn [negb]; [reflexivity|].
    cbn [node_of]. destruct (_ =? 2); [reflexivity|]. destruct (_ =? 3); [reflexivity|]. destruct (_ =? 4); reflexivity.
  - intros Hs. rewrite kid_head by reflexivity. skip. unfold vert_align_xml. destruct (N.eqb_spec (script f) 0); cbn [negb]; [reflexivity|].
    cbn [node_of]. destruct (N.eqb_spec (script f) 1); [reflexivity|]. destruct (N.eqb_spec (script f) 2); [reflexivity|lia].
  - rewrite kid_tail by reflexivity. reflexivity.
  - rewrite kid_tail by reflexivity. cbn [app]. rewrite kid_skip by reflexivity. rewrite kid_app_skip by (apply c_name; reflexivity). reflexivity.
  - rewrite kid_tail by reflexivity. cbn [app]. rewrite kid_skip by reflexivity. destruct (color_reads (font_color f) (tail_nodes f)) as [C|C]; [exact C|].
    rewrite C. cbn [font_color_xml map app]. unfold tail_nodes. cbn [color_says app]. rewrite kid_skip by reflexivity. skip. destruct (scheme f); [reflexivity|]. rewrite kid_skip by reflexivity. reflexivity.
  - rewrite kid_tail by reflexivity. cbn [app]. rewrite kid_skip by reflexivity. rewrite kid_app_skip by (apply c_name; reflexivity). unfold tail_nodes. cbn [app]. rewrite kid_skip by reflexivity. skip.
    destruct (N.eqb_spec (family f) 0) as [->|]; [cbn [N.ltb]; destruct (scheme f); reflexivity|]. replace (0 <? family f) with true by lia. cbn [node_of]. change (attr "val" [(lit "val", dec (family f))]) with (Some (dec (family f))). apply number_of_dec.
  - rewrite kid_tail by reflexivity. cbn [app]. rewrite kid_skip by reflexivity. rewrite kid_app_skip by (apply c_name; reflexivity). unfold tail_nodes. cbn [app]. rewrite kid_skip by reflexivity. skip.
    destruct (N.eqb_spec (charset f) 0) as [->|]; [cbn [N.ltb]; destruct (scheme f); reflexivity|]. replace (0 <? charset f) with true by lia. change (attr "val" [(lit "val", dec (charset f))]) with (Some (dec (charset f))). apply number_of_dec.
  - rewrite kid_tail by reflexivity. cbn [app]. rewrite kid_skip by reflexivity. rewrite kid_app_skip by (apply c_name; reflexivity). unfold tail_nodes. cbn [app]. rewrite kid_skip by reflexivity. skip.
    destruct (scheme f); reflexivity.
Qed.

(** Segment texts that can be stored, in a font whose name, size and scheme are
    ordinary texts. *)
Definition seg_good (s : Format * str) : Prop := font_texts (font (fst s)) /\ plain_text (snd s).
Lemma seg_good_ok s : seg_good s -> seg_ok s.
Proof. intros [A B]. split; [assumption|]. apply storable_writable. apply B. Qed.
Lemma run_reads first s : seg_good s -> exists run, read_run (node_of (run_xml first s)) = Some run /\ seg_says first s run.
Proof.
  intros [Fo Pl]. assert (T : excel_decode (data_text (snd s)) = snd s) by (rewrite data_plain by assumption; apply Pl).
  unfold run_xml. set (t := WData _ _ _).
  assert (Et : kid_text "t" [node_of t] = Some (data_text (snd s))) by (unfold kid_text; rewrite kid_hit by reflexivity; apply text_of_data).
  destruct (format_eqb (fst s) format_default && first) eqn:E.
  - eexists. cbn [node_of map]. unfold read_run. change (str_eqb (lit "r") (lit "r")) with true. cbv iota. rewrite Et. split; [reflexivity|].
    cbn [kid find]. change (kid "rPr" [node_of t]) with (@None node). split; [exact T|]. cbn [fst]. apply andb_prop in E as [E1 E2]. split; [assumption|]. destruct (format_eqb_spec (fst s) format_default); [assumption|discriminate].
  - eexists. cbn [node_of map]. rewrite font_nodes_eq. unfold read_run. change (str_eqb (lit "r") (lit "r")) with true. cbv iota.
    assert (Et2 : kid_text "t" [Elem (lit "rPr") [] (font_nodes (font (fst s))); node_of t] = Some (data_text (snd s))).
    { unfold kid_text. rewrite kid_skip by reflexivity. exact Et. }
    rewrite Et2. split; [reflexivity|]. split; [exact T|]. cbn [fst]. rewrite kid_hit by reflexivity. apply font_reads.
Qed.
Lemma runs_read segs : forall first, Forall seg_good segs -> exists runs, read_all read_run (map node_of (runs_xml first segs)) = Some runs /\
  Forall2 (fun p run => seg_says (fst p) (snd p) run) (combine (first :: repeat false (length segs)) segs) runs.
Proof.
  induction segs as [|s r IH]; intros first F.
  - exists []. split; [reflexivity|constructor].
  - inversion F; subst. destruct (run_reads first s) as (x & X1 & X2); [assumption|]. destruct (IH false) as (xs & Y1 & Y2); [assumption|].
    exists (x :: xs). cbn [runs_xml map read_all]. rewrite X1. cbn [bind]. rewrite Y1. split; [reflexivity|]. cbn [combine length repeat]. constructor; [exact X2|exact Y2].
Qed.

(** The mark-up of a rich string is well-formed; read back it has one run per
    segment, in order, with the text of the segment and the font asked for; and the
    plain text recorded for the cell is the texts joined. *)
Theorem C52_rich_string_reads_back segs mk raw : get_rich_string segs = Some (mk, raw) -> Forall seg_good segs ->
  exists nodes runs, read_xml mk = Some nodes /\ read_all read_run nodes = Some runs /\
    Forall2 (fun p run => seg_says (fst p) (snd p) run) (combine (true :: repeat false (length segs)) segs) runs /\
    raw = flat_map (fun s => snd s) segs /\ raw = flat_map (fun x => snd x) runs.
Proof.
  intros E F. destruct (rich_reads segs mk raw E) as [R _].
  { eapply Forall_impl; [|exact F]. intros; apply seg_good_ok; assumption. }
  destruct (runs_read segs true F) as (runs & R1 & R2). exists (map node_of (runs_xml true segs)), runs.
  split; [apply reads_doc; assumption|]. split; [assumption|]. split; [assumption|].
  assert (Er : raw = flat_map (fun s => snd s) segs) by (unfold get_rich_string in E; destruct segs; [discriminate|]; destruct (existsb _ _); [discriminate|congruence]).
  split; [assumption|]. rewrite Er. clear - R2. revert runs R2. generalize true. induction segs as [|s r IH]; intros b runs R2; inversion R2 as [|p run ps rs [H _] F2]; subst; [reflexivity|].
  cbn [flat_map fst snd] in *. rewrite H. f_equal. apply (IH false). assumption.
Qed.
Print Assumptions C52_rich_string_reads_back.
(** Which segment lists are accepted. *)
Theorem C52_accepted_iff segs : (exists mk raw, get_rich_string segs = Some (mk, raw)) <-> (segs <> [] /\ forall s, In s segs -> snd s <> []).
Proof.
  unfold get_rich_string. split.
  - intros (mk & raw & E). destruct segs as [|s r]; [discriminate|]. split; [discriminate|]. destruct (existsb _ (s :: r)) eqn:X; [discriminate|].
    intros s0 H0 Z. assert (Y : existsb (fun s => match snd s with [] => true | _ => false end) (s :: r) = true) by (apply existsb_exists; exists s0; split; [assumption|rewrite Z; reflexivity]).
    congruence.
  - intros [Hn H]. destruct segs as [|s r]; [contradiction|]. destruct (existsb _ (s :: r)) eqn:X; [|eauto].
    apply existsb_exists in X as (s0 & H0 & Z). specialize (H s0 H0). destruct (snd s0); [contradiction|discriminate].
Qed.
(** FINDING: a literal "_xHHHH_" in a segment is not protected. *)
Theorem C52_refuted_literal_escape : exists segs mk raw nodes runs, get_rich_string segs = Some (mk, raw) /\
  read_xml mk = Some nodes /\ read_all read_run nodes = Some runs /\ map (fun s => snd s) segs = [lit "_x0041_"] /\ map (fun x => snd x) runs = [lit "A"].
Proof. exists [(format_default, lit "_x0041_")]. do 4 eexists. repeat (split; [vm_compute; reflexivity|]). vm_compute. reflexivity. Qed.
Example C52_witness : exists mk raw nodes runs p,
  get_rich_string [(format_default, lit "a "); ({| num_format := num_format format_default; num_format_index := 0;
     font := {| bold := true; italic := false; underline := 2; font_name := lit "A&B"; font_size := lit "11"; font_color := CRGB 0xFF00AA;
                strikethrough := false; script := 1; family := 2; charset := 0; scheme := []; condense := false; extend := false; is_hyperlink := false |};
     alignment := alignment format_default; borders := borders format_default; fill := fill format_default;
     Fmt_Model.hidden := false; locked := true; checkbox := false; quote_prefix := false |}, lit "<b>")] = Some (mk, raw) /\
  read_xml mk = Some nodes /\ read_all read_run nodes = Some runs /\ runs = [(None, lit "a "); (Some p, lit "<b>")] /\
  p_bold p = true /\ p_underline p = Some (Some (lit "double")) /\ p_name p = Some (lit "A&B") /\ p_color p = Some [(lit "rgb", lit "FFFF00AA")] /\ raw = lit "a <b>".
Proof. do 5 eexists. repeat (split; [vm_compute; reflexivity|]). vm_compute. reflexivity. Qed.
