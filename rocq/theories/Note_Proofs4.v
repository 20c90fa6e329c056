(** Notes and buttons: the VML part reads back. *)
From Verif Require Import Base Xml_Model Xml_Spec Xml_Proofs Xml_Read Xml_Read_Proofs Xml_Tree SMap Fmt_Model Rich_Model Rich_Proofs SheetXml_Spec SheetXml_Proofs SheetXml_Proofs3 Doc_Spec View_Spec Props_Doc Tag_Proofs Part_Proofs
  CF_Spec CF_Model CF_Build CF_Read Ref_Proofs Setup_Spec Note_Model Note_Spec Note_Proofs Note_Proofs2.
From Verif Require Date_Parse Color_Spec Props_Rich Pkg_Model.

(** ** Lengths *)
Lemma drop_end_app t s : t <> [] -> drop_end t (s ++ t) = Some s.
Proof.
  intros T. induction s as [|c s IH].
  - cbn [app]. destruct t; [congruence|]. cbn [drop_end]. rewrite str_eqb_refl. reflexivity.
  - cbn [app drop_end]. destruct (str_eqb (c :: s ++ t) t) eqn:E; [apply str_eqb_eq, (f_equal (@length _)) in E; cbn in E; rewrite app_length in E; lia|].
    rewrite IH. reflexivity.
Qed.
Lemma dec_plain n (f : char -> bool) : (forall c, is_ascii_digit c = true -> f c = false) -> forallb (fun x => negb (f x)) (dec n) = true.
Proof. intros H. destruct (dec_spec n) as (D & _). rewrite forallb_forall in *. intros x Hx. rewrite (H x (D x Hx)). reflexivity. Qed.
Definition dot (c : char) : bool := c =? 46.
Lemma digit_not c k : is_ascii_digit c = true -> (k <? 48) || (57 <? k) = true -> (c =? k) = false.
Proof. unfold is_ascii_digit. lia. Qed.
Lemma hundredths_dpi n : hundredths (dpi_text n ++ lit "pt") = Some (n * 75).
Proof.
  unfold hundredths. rewrite drop_end_app by discriminate. cbn [bind]. unfold dpi_text, quarter_text.
  assert (P : forallb (fun x => negb (x =? 46)) (dec (n * 3 / 4)) = true) by (apply (dec_plain _ (fun x => x =? 46)); intros c H; apply digit_not; [exact H|reflexivity]).
  pose proof (N.div_mod' (n * 3) 4) as E. pose proof (N.mod_lt (n * 3) 4 ltac:(lia)) as L. set (q := n * 3 / 4) in *. set (r := n * 3 mod 4) in *.
  assert (R : r = 0 \/ r = 1 \/ r = 2 \/ r = 3) by lia. destruct R as [R|[R|[R|R]]]; rewrite R in *.
  - rewrite app_nil_r, Date_Parse.split_on_none by exact P. rewrite number_of_dec. cbn [bind]. f_equal. lia.
  - change (lit ".25") with (46 :: [50; 53]). rewrite Date_Parse.split_on_app by (exact P || reflexivity). change (Date_Parse.split_on (fun c => c =? 46) [50; 53]) with [[50; 53]].
    cbv beta iota. rewrite number_of_dec. change (number_of [50; 53]) with (Some 25). cbn [bind]. f_equal. lia.
  - change (lit ".5") with (46 :: [53]). rewrite Date_Parse.split_on_app by (exact P || reflexivity). change (Date_Parse.split_on (fun c => c =? 46) [53]) with [[53]].
    cbv beta iota. rewrite number_of_dec. change (number_of [53]) with (Some 5). cbn [bind]. f_equal. lia.
  - change (lit ".75") with (46 :: [55; 53]). rewrite Date_Parse.split_on_app by (exact P || reflexivity). change (Date_Parse.split_on (fun c => c =? 46) [55; 53]) with [[55; 53]].
    cbv beta iota. rewrite number_of_dec. change (number_of [55; 53]) with (Some 75). cbn [bind]. f_equal. lia.
Qed.
Lemma dpi_chars n : forallb (fun c => is_ascii_digit c || (c =? 46)) (dpi_text n) = true.
Proof.
  unfold dpi_text, quarter_text. rewrite forallb_app. apply andb_true_iff. split.
  - destruct (dec_spec (n * 3 / 4)) as (D & _). rewrite forallb_forall in *. intros x Hx. rewrite (D x Hx). reflexivity.
  - destruct (n * 3 mod 4) as [|[[]|[]|]]; reflexivity.
Qed.

(** ** Styles *)
Definition semi (c : char) : bool := c =? 59.
Definition colon (c : char) : bool := c =? 58.
Definition plain_piece (s : str) : Prop := forallb (fun x => negb (semi x)) s = true.
Lemma split_pieces l last : Forall plain_piece l -> plain_piece last -> Date_Parse.split_on semi (flat_map (fun p => p ++ [59]) l ++ last) = l ++ [last].
Proof.
  induction 1 as [|p l P F IH]; intros Q; cbn [flat_map app]; [apply Date_Parse.split_on_none; exact Q|].
  rewrite <- app_assoc, <- app_assoc. cbn [app]. rewrite Date_Parse.split_on_app by (exact P || reflexivity). f_equal. apply IH. exact Q.
Qed.
Definition pair_of (p : str) : str * str := match Date_Parse.split_on colon p with [k; v] => (k, v) | _ => ([], p) end.
Lemma pair_eq k v : forallb (fun x => negb (colon x)) k = true -> forallb (fun x => negb (colon x)) v = true -> pair_of (k ++ 58 :: v) = (k, v).
Proof. intros A B. unfold pair_of. rewrite Date_Parse.split_on_app by (exact A || reflexivity). rewrite Date_Parse.split_on_none by exact B. reflexivity. Qed.
Definition style_pairs (p : place) (w h z : N) : list (str * str) :=
  [(lit "position", lit "absolute"); (lit "margin-left", dpi_text (pl_left p) ++ lit "pt"); (lit "margin-top", dpi_text (pl_top p) ++ lit "pt");
   (lit "width", dpi_text w ++ lit "pt"); (lit "height", dpi_text h ++ lit "pt"); (lit "z-index", dec z)].
Definition piece (q : str * str) : str := fst q ++ 58 :: snd q.
Lemma style_eq p w h z k v : frame_style p w h z ++ piece (k, v) = flat_map (fun p => p ++ [59]) (map piece (style_pairs p w h z)) ++ piece (k, v).
Proof.
  f_equal. unfold frame_style, style_pairs, piece. cbn [flat_map map fst snd]. rewrite app_nil_r.
  change (lit "position:absolute;margin-left:") with ((lit "position" ++ 58 :: lit "absolute") ++ [59] ++ (lit "margin-left" ++ [58])).
  change (lit "pt;margin-top:") with (lit "pt" ++ [59] ++ lit "margin-top" ++ [58]). change (lit "pt;width:") with (lit "pt" ++ [59] ++ lit "width" ++ [58]).
  change (lit "pt;height:") with (lit "pt" ++ [59] ++ lit "height" ++ [58]). change (lit "pt;z-index:") with (lit "pt" ++ [59] ++ lit "z-index" ++ [58]). change (lit ";") with [59].
  assert (C : forall (x y : list N) a, x ++ a :: y = x ++ [a] ++ y) by reflexivity.
  repeat rewrite <- app_assoc. cbn [app]. repeat rewrite <- app_assoc. cbn [app]. reflexivity.
Qed.
Lemma no_mark f s : (forall c, is_ascii_digit c || (c =? 46) || is_ascii_lower c || (c =? 45) = true -> f c = false) ->
  forallb (fun c => is_ascii_digit c || (c =? 46) || is_ascii_lower c || (c =? 45)) s = true -> forallb (fun x => negb (f x)) s = true.
Proof. intros H A. rewrite forallb_forall in *. intros x Hx. rewrite (H x (A x Hx)). reflexivity. Qed.
Definition word (s : str) : Prop := forallb (fun c => is_ascii_digit c || (c =? 46) || is_ascii_lower c || (c =? 45)) s = true.
Lemma word_semi s : word s -> forallb (fun x => negb (semi x)) s = true.
Proof. apply no_mark. unfold is_ascii_digit, is_ascii_lower, semi. lia. Qed.
Lemma word_colon s : word s -> forallb (fun x => negb (colon x)) s = true.
Proof. apply no_mark. unfold is_ascii_digit, is_ascii_lower, colon. lia. Qed.
Lemma word_app a b : word a -> word b -> word (a ++ b). Proof. unfold word. intros A B. rewrite forallb_app, A, B. reflexivity. Qed.
Lemma word_dpi n : word (dpi_text n).
Proof. pose proof (dpi_chars n) as H. unfold word. rewrite forallb_forall in *. intros x Hx. rewrite (H x Hx). reflexivity. Qed.
Lemma word_dec n : word (dec n).
Proof. destruct (dec_spec n) as (H & _). unfold word. rewrite forallb_forall in *. intros x Hx. rewrite (H x Hx). reflexivity. Qed.
Lemma pairs_words p w h z : Forall (fun q => word (fst q) /\ word (snd q)) (style_pairs p w h z).
Proof.
  unfold style_pairs. constructor; [split; reflexivity|].
  do 4 (constructor; [split; [reflexivity|apply word_app; [apply word_dpi|reflexivity]]|]). constructor; [split; [reflexivity|apply word_dec]|constructor].
Qed.
Lemma piece_plain q : word (fst q) -> word (snd q) -> plain_piece (piece q) /\ pair_of (piece q) = q.
Proof.
  intros A B. split.
  - unfold plain_piece, piece. rewrite forallb_app. cbn [forallb]. rewrite (word_semi _ A), (word_semi _ B). reflexivity.
  - unfold piece. rewrite pair_eq by (apply word_colon; assumption). destruct q; reflexivity.
Qed.
Lemma style_reads p w h z k v : word k -> word v -> read_style (frame_style p w h z ++ piece (k, v)) = style_pairs p w h z ++ [(k, v)].
Proof.
  intros A B. unfold read_style. change (fun c => c =? 59) with semi. rewrite style_eq.
  assert (F := pairs_words p w h z).
  rewrite split_pieces.
  - change (fun p0 : str => match Date_Parse.split_on (fun c : char => c =? 58) p0 with [k0; v0] => (k0, v0) | _ => ([], p0) end) with pair_of.
    rewrite map_app. f_equal; [|cbn [map]; rewrite (proj2 (piece_plain (k, v) A B)); reflexivity].
    induction F as [|q l [Q1 Q2] F IH]; [reflexivity|]. cbn [map]. rewrite (proj2 (piece_plain q Q1 Q2)), IH. reflexivity.
  - induction F as [|q l [Q1 Q2] F IH]; [constructor|]. cbn [map]. constructor; [apply (piece_plain q Q1 Q2)|exact IH].
  - apply (piece_plain (k, v) A B).
Qed.
Lemma style_attr p w h z k v : word k -> word v -> attr_ok (frame_style p w h z ++ piece (k, v)).
Proof.
  intros A B. rewrite style_eq. assert (W : forall s, word s -> attr_ok s).
  { intros s H. unfold attr_ok, word in *. rewrite forallb_forall in *. intros x Hx. specialize (H x Hx). unfold is_ascii_digit, is_ascii_lower, attr_char, xml_char in *. lia. }
  assert (P : forall q, word (fst q) -> word (snd q) -> attr_ok (piece q)).
  { intros q Q1 Q2. unfold piece, attr_ok. rewrite forallb_app. cbn [forallb]. rewrite (W _ Q1), (W _ Q2). reflexivity. }
  unfold attr_ok. rewrite forallb_app. apply andb_true_iff. split; [|apply P; assumption].
  assert (F := pairs_words p w h z). induction F as [|q l [Q1 Q2] F IH]; [reflexivity|]. cbn [map flat_map]. rewrite !forallb_app, IH. cbn [forallb]. rewrite (P q Q1 Q2). reflexivity.
Qed.

(** ** Anchors *)
Lemma numbers_read l : l <> [] -> read_numbers (join_comma l) = Some l.
Proof.
  intros H. unfold read_numbers.
  assert (D : forall n, forallb (fun x => negb (x =? 44)) (dec n) = true) by (intros n; apply (dec_plain _ (fun x => x =? 44)); intros c Hc; apply digit_not; [exact Hc|reflexivity]).
  assert (N1 : forall n, match dec n with 32 :: r => r | _ => dec n end = dec n).
  { intros n. destruct (dec_spec n) as (Dg & _). destruct (dec n) as [|c r]; [reflexivity|].
    cbn [forallb] in Dg. apply andb_prop in Dg as [Dg _]. assert (c <> 32) by (unfold is_ascii_digit in Dg; lia).
    destruct c as [|p]; [reflexivity|]. repeat (destruct p as [p|p|]; try reflexivity); congruence. }
  set (f := fun t : str => number_of (match t with 32 :: r => r | _ => t end)).
  assert (F1 : forall n, f (dec n) = Some n) by (intros n; unfold f; rewrite N1; apply number_of_dec).
  assert (F2 : forall n, f (32 :: dec n) = Some n) by (intros n; apply number_of_dec).
  assert (G : forall l x, read_all f (Date_Parse.split_on (fun c => c =? 44) (32 :: join_comma (x :: l))) = Some (x :: l)).
  { induction l0 as [|y l0 IH]; intros x.
    - change (join_comma [x]) with (dec x). rewrite Date_Parse.split_on_none by (cbn [forallb]; rewrite D; reflexivity). cbn [read_all]. rewrite F2. reflexivity.
    - change (join_comma (x :: y :: l0)) with (dec x ++ 44 :: 32 :: join_comma (y :: l0)). rewrite app_comm_cons.
      rewrite Date_Parse.split_on_app by (cbn [forallb]; rewrite ?D; reflexivity). cbn [read_all]. rewrite F2. cbn [bind]. rewrite IH. reflexivity. }
  destruct l as [|x [|y l]]; [congruence| |].
  - change (join_comma [x]) with (dec x). rewrite Date_Parse.split_on_none by apply D. cbn [read_all]. rewrite F1. reflexivity.
  - change (join_comma (x :: y :: l)) with (dec x ++ 44 :: 32 :: join_comma (y :: l)). rewrite Date_Parse.split_on_app by (apply D || reflexivity). cbn [read_all]. rewrite F1. cbn [bind].
    rewrite G. reflexivity.
Qed.
Lemma join_doc l : doc_text (join_comma l).
Proof.
  induction l as [|x [|y l] IH]; [reflexivity|apply dec_doc|]. change (join_comma (x :: y :: l)) with (dec x ++ 44 :: 32 :: join_comma (y :: l)).
  unfold doc_text in *. rewrite forallb_app. cbn [forallb]. rewrite IH. pose proof (dec_doc x) as E. unfold doc_text in E. rewrite E. reflexivity.
Qed.

(** ** Colours *)
Lemma hex_fold s : forallb (fun c => is_ascii_digit c || is_ascii_upper c) s = true -> map ascii_upper (map ascii_lower s) = s.
Proof.
  induction s as [|c s IH]; [reflexivity|]. cbn [forallb map]. intros H. apply andb_prop in H as [H1 H2]. rewrite IH by exact H2. f_equal.
  unfold is_ascii_digit, is_ascii_upper in H1. unfold ascii_upper, ascii_lower, is_ascii_upper, is_ascii_lower.
  destruct ((65 <=? c) && (c <=? 90)) eqn:E; [replace ((97 <=? c + 32) && (c + 32 <=? 122)) with true by lia; lia|].
  replace ((97 <=? c) && (c <=? 122)) with false by lia. reflexivity.
Qed.
Lemma hex_upper_char d : d < 16 -> is_ascii_digit (hex_upper d) || is_ascii_upper (hex_upper d) = true.
Proof. unfold hex_upper, is_ascii_digit, is_ascii_upper. intros H. destruct (d <? 10) eqn:E; lia. Qed.
Lemma hex_loop_chars f : forall n acc, forallb (fun c => is_ascii_digit c || is_ascii_upper c) acc = true -> forallb (fun c => is_ascii_digit c || is_ascii_upper c) (hex_loop f n acc) = true.
Proof.
  induction f as [|f IH]; intros n acc H; cbn [hex_loop]; [exact H|]. destruct (n =? 0); [exact H|]. apply IH. cbn [forallb]. rewrite H, hex_upper_char by (apply N.mod_lt; discriminate). reflexivity.
Qed.
Lemma hex_chars c : forallb (fun c => is_ascii_digit c || is_ascii_upper c) (rgb_hex_value c) = true.
Proof.
  destruct c as [n| | | |n]; try reflexivity; cbn [rgb_hex_value].
  - unfold hex6. rewrite forallb_app. apply andb_true_iff. split; [|apply hex_loop_chars; reflexivity].
    generalize (6 - length (hex_loop (S (N.size_nat n)) n []))%nat. intros k. induction k; [reflexivity|exact IHk].
  - assert (F : Forall (fun s => forallb (fun c => is_ascii_digit c || is_ascii_upper c) s = true) named_hex) by (repeat constructor).
    rewrite Forall_forall in F. destruct (nth_in_or_default (N.to_nat n) named_hex (lit "000000")) as [H|H]; [apply F; exact H|rewrite H; reflexivity].
Qed.
Lemma fill_color_reads c : Color_Spec.real_color c = true -> html_color (vml_color c) = Some (fill_seen c) /\ attr_ok (vml_color c).
Proof.
  intros R. assert (P : plain_color c -> html_color (lit "#" ++ map ascii_lower (rgb_hex_value c)) = Some (rgb c)).
  { intros P. change (lit "#" ++ map ascii_lower (rgb_hex_value c)) with (35 :: map ascii_lower (rgb_hex_value c)). cbn [html_color].
    rewrite hex_fold by apply hex_chars. apply (color_rgb c). split; [exact P|]. destruct c; cbn in *; lia || exact I. }
  assert (A : attr_ok (lit "#" ++ map ascii_lower (rgb_hex_value c))).
  { unfold attr_ok. rewrite forallb_app. apply andb_true_iff. split; [reflexivity|]. pose proof (hex_chars c) as H. rewrite forallb_forall in *. intros x Hx. apply in_map_iff in Hx as (y & <- & Hy).
    specialize (H y Hy). unfold is_ascii_digit, is_ascii_upper in H. unfold ascii_lower, is_ascii_upper, attr_char, xml_char. destruct ((65 <=? y) && (y <=? 90)) eqn:E; lia. }
  destruct c as [n|t s| | |n]; try (split; reflexivity); (split; [apply P; cbn in *; lia || exact I|exact A]).
Qed.
Lemma made_color t l : Forall op_colors l -> Color_Spec.real_color (xn_fill (make_note t l)) = true.
Proof.
  intros F. rewrite fill_made. apply (last_all (fun c => Color_Spec.real_color c = true) op_colors); [|reflexivity|exact F].
  intros o v H E. destruct o; try discriminate.
  - rewrite in_range_eq in E. destruct (color_valid c) eqn:V; [|discriminate]. injection E as <-. destruct c; try exact V; try reflexivity. cbn in *. lia.
  - injection E as <-. exact H.
Qed.
