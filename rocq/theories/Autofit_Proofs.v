(** Proofs about Autofit_Model. *)
From Coq Require Import Permutation.
From Verif Require Import Base SMap F64 Fmt_Model Cells_Model Sheet_Model Geom_Model Cells_Proofs Autofit_Model Autofit_Spec.

(** ** Characters and lines *)
Lemma wrap_small m v : v < 65536 -> wrapN m 16 (Z.of_N v) = Some v.
Proof.
  intros H. unfold wrapN. change (2 ^ Z.of_N 16)%Z with 65536%Z.
  destruct (Z.leb_spec 0 (Z.of_N v)); [|lia]. destruct (Z.ltb_spec (Z.of_N v) 65536); [|lia]. cbn [andb]. rewrite N2Z.id. reflexivity.
Qed.
Lemma add_small m a b : a + b < 65536 -> add16 m a b = Some (a + b).
Proof. intros H. unfold add16. rewrite <- N2Z.inj_add. apply wrap_small, H. Qed.
Lemma mul_small m a b : a * b < 65536 -> mul16 m a b = Some (a * b).
Proof. intros H. unfold mul16. rewrite <- N2Z.inj_mul. apply wrap_small, H. Qed.

Lemma char_metric c : char_pixels c = metric c.
Proof.
  unfold char_pixels, metric, metrics. cbn [find fst snd].
  repeat match goal with |- context [existsb (N.eqb c) (lit ?s)] => let l := eval vm_compute in (lit s) in change (lit s) with l end.
  repeat match goal with |- context [existsb (N.eqb c) ?l] => destruct (existsb (N.eqb c) l); [reflexivity|] end.
  reflexivity.
Qed.
Lemma metric_le c : metric c <= 13.
Proof.
  unfold metric, metrics. cbn [find fst snd].
  repeat match goal with |- context [if ?b then _ else _] => destruct b; [cbn; lia|] end. cbn. lia.
Qed.
Lemma pixel_sum m s : forall n, n + 13 * N.of_nat (length s) < 65536 -> pixel_loop m s n = Some (n + fold_right N.add 0 (map metric s)).
Proof.
  induction s as [|c s IH]; intros n H; [cbn; f_equal; lia|]. cbn [pixel_loop length map fold_right] in *.
  rewrite char_metric. pose proof (metric_le c). rewrite add_small by lia. cbn [obind]. rewrite IH by lia. f_equal. lia.
Qed.
Lemma pixel_width_text m s : pixel_width m s = Some (text_pixels s).
Proof.
  unfold pixel_width, text_pixels, char_count. destruct (N.ltb_spec 233 (N.of_nat (length s))); [reflexivity|].
  rewrite pixel_sum by lia. cbn [obind]. rewrite N.add_0_l, N.min_comm. reflexivity.
Qed.
Lemma text_pixels_le s : text_pixels s <= 1790.
Proof. unfold text_pixels. destruct (_ <? _); lia. Qed.

Lemma strip_cr_spec a : strip_cr (a ++ [13]) = a /\ ((forall x, a <> x ++ [13]) -> strip_cr a = a).
Proof.
  unfold strip_cr. split.
  - rewrite rev_app_distr. cbn [rev app]. apply rev_involutive.
  - intros H. destruct (rev a) as [|c r] eqn:E; [reflexivity|].
    assert (Ha : a = rev r ++ [c]) by (rewrite <- (rev_involutive a), E; reflexivity).
    destruct (N.eq_dec c 13) as [->|Hn]; [destruct (H _ Ha)|].
    destruct c as [|p]; [reflexivity|]. do 4 (destruct p as [p|p|]; try reflexivity). congruence.
Qed.
Lemma ends_cr (a : str) : (exists x, a = x ++ [13]) \/ (forall x, a <> x ++ [13]).
Proof.
  destruct a as [|b a]; [right; intros [|]; discriminate|].
  destruct (@exists_last _ (b :: a) ltac:(discriminate)) as (x & c & E). rewrite E.
  destruct (N.eq_dec c 13) as [->|Hn]; [left; exists x; reflexivity|right; intros y K; apply app_inj_tail in K; destruct K; congruence].
Qed.
Ltac unc E := let E' := fresh in let Ex := fresh "Ex" in assert (Ex := f_equal (hd 0) E); assert (E' := f_equal (@tl N) E); cbn [hd tl app] in Ex, E'; clear E; rename E' into E.
(** The first line break is where it is. *)
Lemma first_break a s l after : ~ In 10 a -> ~ In 10 l -> a ++ 10 :: s = l ++ 10 :: after -> a = l /\ s = after.
Proof.
  revert l. induction a as [|x a IH]; intros [|y l] Ha Hl E; cbn [app In] in *; unc E; subst.
  - auto.
  - destruct Hl; auto.
  - destruct Ha; auto.
  - destruct (IH l) as [-> ->]; auto.
Qed.
Lemma break_in a s b l : ~ In 10 a -> a ++ 10 :: s = (b ++ [10]) ++ l -> exists b', (b' = [] \/ exists y, b' = y ++ [10]) /\ s = b' ++ l.
Proof.
  intros Ha. revert b. induction a as [|x a IH]; intros b E.
  - destruct b as [|y b]; cbn [app] in E; unc E; [exists []; auto|].
    exists (b ++ [10]). split; [right; exists b; reflexivity|exact E].
  - destruct b as [|y b]; cbn [app] in E; unc E; subst; [destruct Ha; left; reflexivity|].
    apply (IH ltac:(intros K; apply Ha; right; exact K) b E).
Qed.
Lemma line_after a s l : ~ In 10 a -> line_of s l -> line_of (a ++ 10 :: s) l.
Proof.
  intros Ha H. destruct H as [b l t E K B C|b l t E K B|b l E Nn K B]; subst s.
  - apply (line_ended _ (a ++ 10 :: b) l t); [rewrite <- app_assoc; reflexivity|exact K|right|exact C].
    destruct B as [->|[y ->]]; [exists a; reflexivity|exists (a ++ 10 :: y); rewrite <- app_assoc; reflexivity].
  - apply (line_ended_cr _ (a ++ 10 :: b) l t); [rewrite <- app_assoc; reflexivity|exact K|right].
    destruct B as [->|[y ->]]; [exists a; reflexivity|exists (a ++ 10 :: y); rewrite <- app_assoc; reflexivity].
  - apply (line_last _ (a ++ 10 :: b) l); [rewrite <- app_assoc; reflexivity|exact Nn|exact K|right].
    destruct B as [->|[y ->]]; [exists a; reflexivity|exists (a ++ 10 :: y); rewrite <- app_assoc; reflexivity].
Qed.
Lemma line_cons a s l : ~ In 10 a -> (line_of (a ++ 10 :: s) l <-> l = strip_cr a \/ line_of s l).
Proof.
  intros Ha. split.
  - intros H. destruct H as [b l t E K B C|b l t E K B|b l E Nn K B].
    + destruct B as [->|[y ->]].
      * destruct (first_break a s l t Ha K E) as [-> ->]. left. symmetry. apply strip_cr_spec, C.
      * destruct (break_in _ _ _ _ Ha E) as (b' & Hb & ->). right. apply (line_ended _ b' l t); auto.
    + destruct B as [->|[y ->]].
      * cbn in E. change (l ++ 13 :: 10 :: t) with (l ++ [13] ++ 10 :: t) in E. rewrite app_assoc in E.
        destruct (first_break a s (l ++ [13]) t Ha) as [-> ->]; [|exact E|left; symmetry; apply strip_cr_spec].
        rewrite in_app_iff. intros [?|[?|[]]]; [auto|discriminate].
      * destruct (break_in _ _ _ _ Ha E) as (b' & Hb & ->). right. apply (line_ended_cr _ b' l t); auto.
    + destruct B as [->|[y ->]].
      * cbn in E. subst l. destruct K. rewrite in_app_iff. right. left. reflexivity.
      * destruct (break_in _ _ _ _ Ha E) as (b' & Hb & ->). right. apply (line_last _ b' l); auto.
  - intros [->|H]; [|apply line_after; assumption].
    destruct (ends_cr a) as [[x ->]|Hn].
    + rewrite (proj1 (strip_cr_spec x)). apply (line_ended_cr _ [] x s); [cbn; rewrite <- app_assoc; reflexivity| |left; reflexivity].
      intros K. apply Ha. rewrite in_app_iff. left. exact K.
    + rewrite (proj2 (strip_cr_spec a) Hn). apply (line_ended _ [] a s); auto.
Qed.
Lemma lines_line s : forall acc l, ~ In 10 acc -> (In l (lines_loop acc s) <-> line_of (rev acc ++ s) l).
Proof.
  induction s as [|c s IH]; intros acc l Ha; cbn [lines_loop].
  - rewrite app_nil_r. assert (Hr : ~ In 10 (rev acc)) by (rewrite <- in_rev; exact Ha). split.
    + destruct acc as [|x acc]; [intros []|]. intros [<-|[]]. apply (line_last _ [] (rev (x :: acc))); auto.
      intros K. apply (f_equal (@length N)) in K. rewrite rev_length in K. discriminate.
    + intros H. assert (E : l = rev acc /\ l <> []).
      { destruct H as [b l t E K B C|b l t E K B|b l E Nn K B].
        - destruct Hr. rewrite E, !in_app_iff. right; right; left; reflexivity.
        - destruct Hr. rewrite E, !in_app_iff. right; right; right; left; reflexivity.
        - destruct B as [->|[y ->]]; [auto|]. destruct Hr. rewrite E, !in_app_iff. left; right; left; reflexivity. }
      destruct E as [-> E]. destruct acc as [|x acc]; [destruct E; reflexivity|left; reflexivity].
  - destruct (N.eqb_spec c 10) as [->|Hn].
    + rewrite line_cons by (rewrite <- in_rev; exact Ha). cbn [In]. rewrite (IH [] l ltac:(intros [])). cbn [rev app].
      split; intros [H|H]; auto.
    + rewrite IH by (intros [K|K]; congruence). cbn [rev]. rewrite <- app_assoc. reflexivity.
Qed.
Lemma lines_spec s l : In l (lines s) <-> line_of s l.
Proof. apply (lines_line s [] l). intros []. Qed.

Lemma widest_max m l : forall mx, exists n, widest_segment m l mx = Some n /\ mx <= n /\ (forall x, In x l -> text_pixels x <= n) /\ (n = mx \/ exists x, In x l /\ text_pixels x = n).
Proof.
  induction l as [|s l IH]; intros mx; cbn [widest_segment].
  - exists mx. repeat split; auto; try lia. intros x [].
  - rewrite pixel_width_text. cbn [obind]. destruct (IH (N.max mx (text_pixels s))) as (n & E & L & U & A). exists n. split; [exact E|]. split; [lia|]. split.
    + intros x [<-|H]; [lia|auto].
    + destruct A as [->|(x & Hx & Ex)]; [|right; exists x; split; [right; exact Hx|exact Ex]].
      destruct (N.max_spec mx (text_pixels s)) as [[? ->]|[? ->]]; [right; exists s; split; [left|]; reflexivity|left; reflexivity].
Qed.
Lemma widest_lines m s n : widest_segment m (lines s) 0 = Some n <-> widest_line s n.
Proof.
  destruct (widest_max m (lines s) 0) as (k & E & L & U & A). rewrite E. unfold widest_line. split.
  - intros H. assert (k = n) by congruence. subst k. split; [intros l Hl; apply U, lines_spec, Hl|].
    destruct A as [A|(x & Hx & Ex)]; [left; exact A|right; exists x; split; [apply lines_spec, Hx|exact Ex]].
  - intros [U' A']. f_equal. apply N.le_antisymm.
    + destruct A as [->|(x & Hx & <-)]; [lia|apply U', lines_spec, Hx].
    + destruct A' as [->|(x & Hx & <-)]; [lia|apply U, lines_spec, Hx].
Qed.

Section Fit.
  Variable num_text : f64 -> str.
  Variable m : ovf.
  Hypothesis Hnum : forall x, N.of_nat (length (num_text x)) <= 1100.

  Lemma text_nil : text_pixels [] = 0. Proof. reflexivity. Qed.
  Lemma formula_pixels r : (if str_eqb r (lit "0") || match r with [] => true | _ => false end then Some 0 else pixel_width m r)
    = Some (if str_eqb r (lit "0") then 0 else text_pixels r).
  Proof. destruct (str_eqb r (lit "0")); [reflexivity|]. destruct r; [reflexivity|]. cbn [orb]. apply pixel_width_text. Qed.
  Lemma number_pixels x : mul16 m 7 (char_count (num_text x) mod 65536) = Some (7 * N.of_nat (length (num_text x))).
  Proof. pose proof (Hnum x). unfold char_count. rewrite N.mod_small by lia. apply mul_small. lia. Qed.

  Lemma content_shows k n : content_pixels num_text m k = Some n <-> shows num_text k n.
  Proof.
    split.
    - destruct k; cbn [content_pixels]; intros H.
      all: try (apply widest_lines in H; constructor; exact H).
      + injection H as <-. constructor.
      + injection H as <-. constructor.
      + rewrite number_pixels in H. assert (E : n = 7 * N.of_nat (length (num_text x))) by congruence. subst n. constructor.
      + destruct b; injection H as <-; constructor.
      + rewrite formula_pixels in H. injection H as <-. constructor.
      + injection H as <-. constructor.
      + rewrite formula_pixels in H. injection H as <-. constructor.
    - intros H. destruct H; cbn [content_pixels]; try (apply widest_lines; assumption); try reflexivity.
      + apply number_pixels.
      + apply formula_pixels.
      + apply formula_pixels.
  Qed.
  Lemma content_some k : exists n, content_pixels num_text m k = Some n /\ n <= 7700.
  Proof.
    destruct k; cbn [content_pixels].
    all: try (destruct (widest_max m (lines s) 0) as (n & E & _ & _ & A); exists n; split; [exact E|]; destruct A as [->|(z & _ & <-)]; [lia|pose proof (text_pixels_le z); lia]).
    all: try (eexists; split; [reflexivity|lia]).
    all: try (eexists; split; [apply formula_pixels|]; destruct (str_eqb _ _); [lia|]; match goal with |- text_pixels ?z <= _ => pose proof (text_pixels_le z); lia end).
    - eexists; split; [apply number_pixels|]. pose proof (Hnum x). lia.
    - destruct b; eexists; (split; [reflexivity|lia]).
    - destruct (widest_max m (lines raw) 0) as (n & E & _ & _ & A). exists n. split; [exact E|]. destruct A as [->|(z & _ & <-)]; [lia|pose proof (text_pixels_le z); lia].
  Qed.
  Lemma shows_fun k a b : shows num_text k a -> shows num_text k b -> a = b.
  Proof. rewrite <- !content_shows. congruence. Qed.
  Lemma shows_some k : exists n, shows num_text k n.
  Proof. destruct (content_some k) as (n & E & _). exists n. apply content_shows, E. Qed.
  Lemma cell_needs limit b k n : shows num_text k n -> cell_pixels num_text m limit b k = Some (N.min (needs n b) limit).
  Proof.
    intros H. apply content_shows in H. destruct (content_some k) as (n' & E & L). assert (n' = n) by congruence. subst n'.
    unfold cell_pixels. rewrite H. cbn [obind]. unfold needs.
    destruct (N.ltb_spec 0 n), (N.eqb_spec n 0); try lia; cbn [andb].
    - destruct b; [rewrite add_small by lia|]; cbn [obind].
      + destruct (N.ltb_spec 0 (n + 16)); [|lia]. rewrite add_small by lia. reflexivity.
      + destruct (N.ltb_spec 0 n); [|lia]. rewrite add_small by lia. cbn [obind]. rewrite N.add_0_r. reflexivity.
    - subst n. reflexivity.
  Qed.

  (** ** The widths collected *)
  Definition holds (acc : smap N) (want : N -> N -> Prop) : Prop :=
    ok acc /\ (forall c p, want c p -> 0 < p -> exists q, get c acc = Some q /\ p <= q) /\ (forall c q, get c acc = Some q -> 0 < q /\ want c q).
  Lemma holds_iff acc w1 w2 : (forall c p, w1 c p <-> w2 c p) -> holds acc w1 -> holds acc w2.
  Proof.
    intros E (A & B & C). split; [exact A|]. split; intros c p H.
    - intros Hp. apply (B c p); [apply E, H|exact Hp].
    - destruct (C c p H) as [Hp K]. split; [exact Hp|apply E, K].
  Qed.
  Lemma holds_note acc want c p : holds acc want -> holds (note_width c p acc) (fun c' p' => (c' = c /\ p' = p) \/ want c' p').
  Proof.
    intros (A & B & C). unfold note_width. destruct (N.ltb_spec 0 p) as [Hp|Hp].
    - destruct (get c acc) as [mx|] eqn:E; [destruct (N.ltb_spec mx p) as [L|L]|].
      + split; [apply ins_ok, A|]. split.
        * intros c' p' [[-> ->]|H] Hp'; rewrite get_ins; [rewrite N.eqb_refl; exists p; split; [reflexivity|lia]|].
          destruct (N.eqb_spec c c') as [<-|]; [|apply B; assumption]. exists p. split; [reflexivity|].
          destruct (B c p' H Hp') as (q & Eq & Lq). assert (q = mx) by congruence. lia.
        * intros c' q. rewrite get_ins. destruct (N.eqb_spec c c') as [<-|]; [intros [= <-]; split; auto|].
          intros H. destruct (C c' q H) as [K1 K2]. split; auto.
      + split; [exact A|]. split.
        * intros c' p' [[-> ->]|H] Hp'; [exists mx; split; [exact E|exact L]|apply B; assumption].
        * intros c' q H. destruct (C c' q H) as [K1 K2]. split; auto.
      + split; [apply ins_ok, A|]. split.
        * intros c' p' [[-> ->]|H] Hp'; rewrite get_ins; [rewrite N.eqb_refl; exists p; split; [reflexivity|lia]|].
          destruct (N.eqb_spec c c') as [<-|]; [|apply B; assumption]. exists p. split; [reflexivity|].
          destruct (B c p' H Hp') as (q & Eq & Lq). congruence.
        * intros c' q. rewrite get_ins. destruct (N.eqb_spec c c') as [<-|]; [intros [= <-]; split; auto|].
          intros H. destruct (C c' q H) as [K1 K2]. split; auto.
    - split; [exact A|]. split.
      + intros c' p' [[-> ->]|H] Hp'; [lia|apply B; assumption].
      + intros c' q H. destruct (C c' q H) as [K1 K2]. split; auto.
  Qed.

  Variable s : sheet.
  Variable limit : N.
  Hypothesis Hcm : constant_memory (cells s) = false.
  Hypothesis Hok : table_ok (data (cells s)).
  Definition gives (r c : N) (k : cell) (p : N) : Prop := exists n, shows num_text k n /\ p = N.min (needs n (in_filter s r c)) limit.
  Definition wide (c : N) : Prop := first_col (cells s) <= c <= last_col (cells s).
  Lemma fit_cells_holds r cs : forall acc want, holds acc want ->
    exists acc', fit_cells num_text m s limit r cs acc = Some acc' /\ holds acc' (fun c p => want c p \/ exists k x, In (c, (k, x)) cs /\ wide c /\ gives r c k p).
  Proof.
    induction cs as [|[c [k x]] cs IH]; intros acc want H; cbn [fit_cells].
    - exists acc. split; [reflexivity|]. eapply holds_iff; [|exact H]. intros c p. split; [auto|intros [?|(k & x & [] & _)]; assumption].
    - rewrite Hcm. destruct (shows_some k) as [n Hn]. destruct (N.leb_spec (first_col (cells s)) c) as [L1|L1], (N.leb_spec c (last_col (cells s))) as [L2|L2]; cbn [andb].
      1: { rewrite (cell_needs limit _ k n Hn). cbn [obind]. destruct (IH _ _ (holds_note _ _ c (N.min (needs n (in_filter s r c)) limit) H)) as (acc' & E & H').
        exists acc'. split; [exact E|]. eapply holds_iff; [|exact H']. intros c' p. cbn [In]. split.
        - intros [[[-> ->]|Hw]|(k' & x' & Hi & Hw & Hg)].
          + right. exists k, x. split; [left; reflexivity|]. split; [split; assumption|]. exists n. auto.
          + left. exact Hw.
          + right. exists k', x'. auto.
        - intros [Hw|(k' & x' & [Hi|Hi] & Hw & Hg)]; [auto| |right; exists k', x'; auto].
          assert (c' = c /\ k' = k) as [-> ->] by (split; congruence). left. left. split; [reflexivity|]. destruct Hg as (n' & Hn' & ->). rewrite (shows_fun _ _ _ Hn' Hn). reflexivity. }
      all: destruct (IH _ _ H) as (acc' & E & H'); exists acc'; split; [exact E|]; eapply holds_iff; [|exact H']; intros c' p; cbn [In]; split.
      all: try (intros [Hw|(k' & x' & Hi & Hw & Hg)]; [left; exact Hw|right; exists k', x'; auto]; fail).
      all: intros [Hw|(k' & x' & [Hi|Hi] & Hw & Hg)]; [left; exact Hw| |right; exists k', x'; auto].
      all: assert (c' = c) as -> by congruence; unfold wide in Hw; lia.
  Qed.
  Lemma fit_rows_holds fr lr rows : forall acc want, holds acc want ->
    exists acc', fit_rows num_text m s limit fr lr rows acc = Some acc' /\
      holds acc' (fun c p => want c p \/ exists r cs k x, In (r, cs) rows /\ fr <= r <= lr /\ In (c, (k, x)) cs /\ wide c /\ gives r c k p).
  Proof.
    induction rows as [|[r cs] rows IH]; intros acc want H; cbn [fit_rows].
    - exists acc. split; [reflexivity|]. eapply holds_iff; [|exact H]. intros c p. split; [auto|intros [?|(r & cs & k & x & [] & _)]; assumption].
    - destruct (N.leb_spec fr r) as [L1|L1], (N.leb_spec r lr) as [L2|L2]; cbn [andb].
      1: { destruct (fit_cells_holds r cs acc want H) as (acc1 & E1 & H1). rewrite E1. cbn [obind]. destruct (IH _ _ H1) as (acc' & E & H').
        exists acc'. split; [exact E|]. eapply holds_iff; [|exact H']. intros c' p. cbn [In]. split.
        - intros [[Hw|(k & x & Hi & Hw & Hg)]|(r' & cs' & k' & x' & Hi & Hr & Hc & Hw & Hg)].
          + left. exact Hw.
          + right. exists r, cs, k, x. auto 7.
          + right. exists r', cs', k', x'. auto 7.
        - intros [Hw|(r' & cs' & k' & x' & [Hi|Hi] & Hr & Hc & Hw & Hg)]; [auto| |right; exists r', cs', k', x'; auto 7].
          assert (r' = r /\ cs' = cs) as [-> ->] by (split; congruence). left. right. exists k', x'. auto. }
      all: destruct (IH _ _ H) as (acc' & E & H'); exists acc'; split; [exact E|]; eapply holds_iff; [|exact H']; intros c' p; cbn [In]; split.
      all: try (intros [Hw|(r' & cs' & k' & x' & Hi & Hr & Hc & Hw & Hg)]; [left; exact Hw|right; exists r', cs', k', x'; auto 7]; fail).
      all: intros [Hw|(r' & cs' & k' & x' & [Hi|Hi] & Hr & Hc & Hw & Hg)]; [left; exact Hw| |right; exists r', cs', k', x'; auto 7].
      all: assert (r' = r) as -> by congruence; lia.
  Qed.
  Lemma max_widths_holds : exists mw, max_widths num_text m s limit = Some mw /\
    holds mw (fun c p => exists r k x, table_get r c (data (cells s)) = Some (k, x) /\ covers (cells s) r c /\ gives r c k p).
  Proof.
    unfold max_widths. cbv zeta. rewrite Hcm.
    destruct (fit_rows_holds (first_row (cells s)) (last_row (cells s)) (data (cells s)) [] (fun _ _ => False)) as (mw & E & H).
    { split; [apply ok_nil|]. split; [intros ? ? []|discriminate]. }
    exists mw. split; [exact E|]. eapply holds_iff; [|exact H]. intros c p. destruct Hok as [O1 O2]. split.
    - intros [[]|(r & cs & k & x & Hi & Hr & Hc & Hw & Hg)]. exists r, k, x.
      apply In_get in Hi; [|exact O1]. apply In_get in Hc; [|apply (O2 r), Hi]. unfold table_get. rewrite Hi. split; [exact Hc|]. split; [split; assumption|exact Hg].
    - intros (r & k & x & Ht & [Hr Hw] & Hg). unfold table_get in Ht. destruct (get r (data (cells s))) as [cs|] eqn:Er; [|discriminate].
      right. exists r, cs, k, x. split; [apply get_In, Er|]. split; [exact Hr|]. split; [apply get_In, Ht|]. auto.
  Qed.
End Fit.

(** ** The widths set *)
Definition fitted (w : ws) (c : N) (p : N) : colopt := 
  match get c (changed_cols (store_column_width w c (pixels_to_width p) true)) with Some o => o | None => {| c_width := fzero; c_xf := 0; c_level := 0; c_hidden := false; c_collapsed := false; c_autofit := false; c_format := None |} end.
Lemma store_get w c width b c' : get c' (changed_cols (store_column_width w c width b)) = if c =? c' then get c (changed_cols (store_column_width w c width b)) else get c' (changed_cols w).
Proof. unfold store_column_width. cbv zeta. cbn [changed_cols upd_cols]. rewrite !get_ins, N.eqb_refl. destruct (N.eqb_spec c c') as [<-|]; reflexivity. Qed.
(** Storing a width depends on the entry of the column only. *)
Lemma store_same w w' c width b : get c (changed_cols w) = get c (changed_cols w') ->
  get c (changed_cols (store_column_width w c width b)) = get c (changed_cols (store_column_width w' c width b)).
Proof. intros E. unfold store_column_width. cbv zeta. cbn [changed_cols upd_cols]. rewrite !get_ins, !N.eqb_refl, E. reflexivity. Qed.
Lemma set_widths_get l : NoDup (map fst l) -> forall w c,
  get c (changed_cols (set_widths w l)) = match find (fun p => fst p =? c) l with
    | Some (_, p) => get c (changed_cols (store_column_width w c (pixels_to_width p) true)) | None => get c (changed_cols w) end.
Proof.
  unfold set_widths. induction l as [|[a p] l IH]; intros Hd w c; [reflexivity|]. cbn [fold_left map find fst snd] in *. inversion Hd as [|? ? Hn Hd']; subst.
  rewrite IH by exact Hd'. destruct (N.eqb_spec a c) as [->|Hne].
  - assert (Ef : find (fun p => fst p =? c) l = None).
    { destruct (find _ l) as [q|] eqn:E; [|reflexivity]. apply find_some in E. destruct E as [E1 E2]. apply N.eqb_eq in E2. destruct Hn. rewrite <- E2. apply in_map, E1. }
    rewrite Ef. reflexivity.
  - assert (Eg : get c (changed_cols (store_column_width w a (pixels_to_width p) true)) = get c (changed_cols w)).
    { rewrite store_get. destruct (N.eqb_spec a c); [contradiction|reflexivity]. }
    destruct (find _ l) as [[b q]|]; [|exact Eg]. apply store_same, Eg.
Qed.
(** Nothing else changes. *)
Definition but_cols (w w' : ws) : Prop := w' = upd_cols w (changed_cols w') (max_col_level w).
Lemma but_cols_set l : forall w, but_cols w (set_widths w l).
Proof.
  unfold set_widths. induction l as [|[a p] l IH]; intros w; cbn [fold_left]; [destruct w; reflexivity|].
  unfold but_cols in *. rewrite IH at 1. reflexivity.
Qed.
Lemma set_widths_ok l : forall w, ok (changed_cols w) -> ok (changed_cols (set_widths w l)).
Proof. unfold set_widths. induction l as [|[a p] l IH]; intros w H; cbn [fold_left]; [exact H|]. apply IH. apply ins_ok, H. Qed.
