(** C38: autofit. *)
From Coq Require Import Permutation Reals Lra.
From Flocq Require Import Core.
From Verif Require Import Base SMap F64 F64_Proofs Fmt_Model Sst_Model Ref_Model Cells_Model Cells_Spec Cells_Inv Cells_Proofs Cells_Proofs2 Cells_Save Cells_Hist
  Sheet_Model Sheet_Proofs Opts_Frame Sheet_Hist Sheet_Hist2 Sheet_Hist3 Sheet_Hist4 Sheet_Hist5 Geom_Model Geom_Pixels Props_Pixels Width_Mono Width_Frame Cover_Hist
  Autofit_Model Autofit_Spec Autofit_Proofs.

(** A number that is a width: any f64 but NaN. *)
Definition real_width (x : f64) : Prop := f64_ok x /\ F64.is_nan x = false.
(** The calls of a history give such numbers. *)
Definition real_widths (o : aop) : Prop := match o with ASheet (SCell (SetColumnWidth _ x _)) => real_width x | _ => True end.

Definition width_ok (x : f64) : Prop := real_width x /\ fgt x (f_of_N 255) = false.
Lemma cap_ok x : real_width x -> width_ok (cap x).
Proof.
  intros H. unfold cap. destruct (fgt x (f_of_N 255)) eqn:E; [|split; assumption].
  split; [split|]; vm_compute; reflexivity.
Qed.
Lemma pixels_ok p : 1 <= p <= 1790 -> width_ok (pixels_to_width p) /\ width_pixels (pixels_to_width p) = p /\ cap (pixels_to_width p) = pixels_to_width p.
Proof.
  intros H. pose proof (every _ 1 1791 width_small p ltac:(lia)) as W. apply andb_true_iff in W. destruct W as [W1 W2].
  apply negb_true_iff in W1. destruct (check_split _ _ W2) as [W3 _]. destruct (pixels_rep p H) as (a & (bf & Eb & Hf & _) & _).
  split; [|split; [exact W3|unfold cap; rewrite W1; reflexivity]]. split; [|exact W1]. split.
  - unfold f64_ok. rewrite Eb. apply BinarySingleNaN.valid_binary_B2SF.
  - rewrite Eb. destruct bf; try discriminate Hf; reflexivity.
Qed.

(** A negative width shows no pixels. *)
Definition low (x : f64) : Prop := match x with S754_finite false _ _ | S754_infinity false => False | _ => True end.
Lemma low_round mx ex lx : low (binary_round_aux 53 1024 true mx ex lx).
Proof. unfold binary_round_aux. destruct (shr_fexp _ _ mx ex lx) as [r e]. destruct (shr_fexp _ _ _ e loc_Exact) as [r' e']. destruct (shr_m r'); try exact I. destruct (_ <=? _)%Z; exact I. Qed.
Lemma low_pixels x : low x -> f_to_u32 (fround x) = 0.
Proof.
  destruct x as [g|g| |g mm e]; cbn [low fround]; try (intros _; reflexivity); try (destruct g; [intros _; reflexivity|intros []]).
  destruct g; [intros _|intros []]. destruct (Z.leb_spec 0 e) as [He|He]; [reflexivity|].
  destruct (Z.eqb_spec ((Z.pos mm + 2 ^ (- e - 1)) / 2 ^ (- e)) 0) as [|Hz]; [reflexivity|].
  assert (P : (0 <= (Z.pos mm + 2 ^ (- e - 1)) / 2 ^ (- e))%Z).
  { assert (0 < 2 ^ (- e - 1))%Z by (apply Z.pow_pos_nonneg; lia). apply Z.div_pos; [lia|apply Z.pow_pos_nonneg; lia]. }
  destruct ((Z.pos mm + 2 ^ (- e - 1)) / 2 ^ (- e))%Z as [|z|z]; [lia| |lia]. cbn [Z.opp]. unfold f_of_Z, binary_normalize, binary_round.
  destruct (shl_align _ _ _) as [mz ez]. pose proof (low_round (Z.pos mz) ez loc_Exact) as L. destruct (binary_round_aux _ _ _ _ _ _) as [g|g| |g ? ?]; try reflexivity; destruct g; [reflexivity|destruct L|reflexivity|destruct L].
Qed.
Lemma negative_pixels mm e : width_pixels (S754_finite true mm e) = 0.
Proof. unfold width_pixels. change (flt (S754_finite true mm e) (f_of_N 1)) with true. apply low_pixels. apply low_round. Qed.

Section Prop38.
  Variable num_text : f64 -> str.
  Variable m : ovf.
  Variable lower : str -> str.
  (** No number is printed with more than 1100 characters (the longest take 327). *)
  Hypothesis Hnum : forall x, N.of_nat (length (num_text x)) <= 1100.

  (** ** What holds of every state reached *)
  Definition fine (s : sheet) : Prop := std (cells s) /\ cov (cells s) /\ forall c, width_ok (fst (wid (cells s) c)).

  Lemma start_fine : fine (sheet_new ws_standard).
  Proof.
    split; [exact std_start|]. split; [intros r c k x; discriminate|]. intros c. cbn. split; [split|]; vm_compute; reflexivity.
  Qed.
  Lemma sheet_fine s o s' e : fine s -> real_widths (ASheet o) -> sstep lower s o = Some (s', e) -> fine s'.
  Proof.
    intros (S & C & W) R E. destruct (sstep_std lower s o s' e S E) as (S' & _ & _).
    split; [exact S'|]. split; [exact (cov_sstep _ _ _ _ _ S E C)|].
    pose proof (fun H => sstep_wsame lower s o s' e H E) as Q. destruct o as [o| | | | | | |]; try (intros c; rewrite (proj1 (Q ltac:(intros; discriminate) c)); apply W).
    destruct o; try (intros c; rewrite (proj1 (Q ltac:(intros; discriminate) c)); apply W).
    cbn [sstep step] in E. unfold lift in E.
    assert (Es : s' = with_cells s (fst (set_column_width_internal (cells s) col width autofit))) by congruence. subst s'. clear E.
    cbn [real_widths] in R. unfold set_column_width_internal. cbn [cells with_cells]. intros c.
    destruct (feq width fzero); [rewrite (proj1 (wsame_col_hidden (cells s) col c)); apply W|]. destruct (COL_MAX <=? col); [apply W|]. cbn [fst].
    unfold wid. rewrite store_get. destruct (N.eqb_spec col c) as [->|]; [|apply W].
    unfold store_column_width. cbv zeta. cbn [changed_cols upd_cols]. rewrite get_ins, N.eqb_refl. fold (cap width). specialize (W c). unfold wid in W.
    destruct (get c (changed_cols (cells s))) as [o|]; [|apply cap_ok, R].
    destruct (_ && _); [destruct (fgt _ _)|]; try (apply cap_ok, R). apply W.
  Qed.

  (** The result of autofit, column by column. *)
  Lemma fits_spec s given s' : fine s -> fits num_text m s given s' ->
    exists mw, holds mw (fun c p => exists r k x, table_get r c (data (cells s)) = Some (k, x) /\ covers (cells s) r c /\ gives num_text s (fit_limit given) r c k p) /\
      but_cols (cells s) (cells s') /\ s' = with_cells s (cells s') /\
      forall c, get c (changed_cols (cells s')) = match get c mw with Some p => get c (changed_cols (store_column_width (cells s) c (pixels_to_width p) true)) | None => get c (changed_cols (cells s)) end.
  Proof.
    intros (S & C & W) (mw & l & E & P & ->). destruct (max_widths_holds num_text m Hnum s (fit_limit given) (d_cm _ S) (d_ok _ S)) as (mw' & E' & H).
    assert (mw' = mw) by congruence. subst mw'. exists mw. split; [exact H|]. cbn [cells with_cells]. split; [apply but_cols_set|]. split; [reflexivity|].
    intros c. destruct H as (O & _). assert (Nd : NoDup (map fst mw)).
    { unfold ok, keys in O. clear -O. induction O as [|a l O IH F]; constructor; [|exact IH]. intros K. rewrite Forall_forall in F. specialize (F _ K). lia. }
    assert (Nl : NoDup (map fst l)) by (eapply Permutation_NoDup; [apply Permutation_map, Permutation_sym, P|exact Nd]).
    rewrite (set_widths_get l Nl). destruct (get c mw) as [p|] eqn:Ec.
    - destruct (find (fun q => fst q =? c) l) as [[a q]|] eqn:Ef.
      + apply find_some in Ef. destruct Ef as [Ef1 Ef2]. cbn in Ef2. apply N.eqb_eq in Ef2. subst a.
        apply (Permutation_in _ P), In_get in Ef1; [|exact O]. assert (q = p) by congruence. subst q. reflexivity.
      + exfalso. apply get_In in Ec. apply (Permutation_in _ (Permutation_sym P)) in Ec. pose proof (find_none _ _ Ef _ Ec) as K. cbn in K. rewrite N.eqb_refl in K. discriminate.
    - destruct (find (fun q => fst q =? c) l) as [[a q]|] eqn:Ef; [|reflexivity]. exfalso.
      apply find_some in Ef. destruct Ef as [Ef1 Ef2]. cbn in Ef2. apply N.eqb_eq in Ef2. subst a.
      apply (Permutation_in _ P), In_get in Ef1; [|exact O]. congruence.
  Qed.
  Lemma limit_le given : fit_limit given <= 1790.
  Proof. unfold fit_limit, MAX_AUTOFIT_WIDTH_PIXELS. destruct given; lia. Qed.
  Lemma wanted_bounds s given (mw : smap N) c p : holds mw (fun c p => exists r k x, table_get r c (data (cells s)) = Some (k, x) /\ covers (cells s) r c /\ gives num_text s (fit_limit given) r c k p) ->
    get c mw = Some p -> 1 <= p <= fit_limit given.
  Proof. intros (_ & _ & B) H. destruct (B c p H) as (L & r & k & x & _ & _ & n & _ & ->). split; [lia|]. apply N.le_min_r. Qed.
  (** The entry of a column after its width was stored. *)
  Lemma stored_entry w c p : 1 <= p <= 1790 ->
    exists o', get c (changed_cols (store_column_width w c (pixels_to_width p) true)) = Some o' /\
      match get c (changed_cols w) with
      | None => c_width o' = pixels_to_width p /\ c_hidden o' = false /\ c_level o' = 0 /\ c_xf o' = 0 /\ c_collapsed o' = false /\ c_autofit o' = true
      | Some o => c_hidden o' = c_hidden o /\ c_level o' = c_level o /\ c_xf o' = c_xf o /\ c_collapsed o' = c_collapsed o /\
          (if c_autofit o || fgt (pixels_to_width p) (c_width o) then c_width o' = pixels_to_width p /\ c_autofit o' = true else o' = o)
      end.
  Proof.
    intros Hp. destruct (pixels_ok p Hp) as (_ & _ & Ec). unfold store_column_width. cbv zeta. cbn [changed_cols upd_cols]. rewrite get_ins, N.eqb_refl. fold (cap (pixels_to_width p)). rewrite Ec.
    destruct (get c (changed_cols w)) as [o|]; [|eexists; split; [reflexivity|]; cbn; auto 7].
    destruct (c_autofit o); cbn [negb andb orb]; [eexists; split; [reflexivity|]; cbn; auto 7|].
    destruct (fgt _ _); eexists; (split; [reflexivity|]); cbn; auto 7.
  Qed.
  Lemma fit_fine s given s' : fine s -> fits num_text m s given s' -> fine s'.
  Proof.
    intros F H. pose proof F as (S & C & W). destruct (fits_spec s given s' F H) as (mw & Hm & B & Es & G). split; [|split].
    - apply (std_quiet (cells s)); [|exact S]. rewrite B. split; [repeat split|]. repeat (split; [reflexivity|]). destruct (meta_refl (cells s)) as []; constructor; cbn; assumption.
    - intros r c k x Ht Hk. rewrite B in Ht |- *. exact (C r c k x Ht Hk).
    - intros c. unfold wid. rewrite G. specialize (W c). unfold wid in W. destruct (get c mw) as [p|] eqn:Ec; [|exact W].
      pose proof (wanted_bounds s given mw c p Hm Ec) as Hp. pose proof (limit_le given). destruct (stored_entry (cells s) c p ltac:(lia)) as (o' & Eo & K). rewrite Eo. cbn [fst].
      destruct (pixels_ok p ltac:(lia)) as (Pk & _ & _). destruct (get c (changed_cols (cells s))) as [o|]; [|destruct K as [-> _]; exact Pk].
      destruct K as (_ & _ & _ & _ & K). destruct (_ || _); [destruct K as [-> _]; exact Pk|subst o'; exact W].
  Qed.
  Lemma arun_fine s ops s' : arun num_text m lower s ops s' -> Forall real_widths ops -> fine s -> fine s'.
  Proof.
    induction 1 as [s|s o s1 e rest s2 E _ IH|s given s1 rest s2 E _ IH]; intros R F; [exact F| |]; inversion R as [|? ? R1 R2]; subst; apply IH; auto.
    - exact (sheet_fine _ _ _ _ F R1 E).
    - exact (fit_fine _ _ _ F E).
  Qed.
  Lemma fits_exists s given : fine s -> exists s', fits num_text m s given s'.
  Proof.
    intros (S & _). destruct (max_widths_holds num_text m Hnum s (fit_limit given) (d_cm _ S) (d_ok _ S)) as (mw & E & _).
    eexists. exists mw, mw. split; [exact E|]. split; [apply Permutation_refl|reflexivity].
  Qed.

  Lemma filter_spec s r c b : (b = true <-> filter_head s r c) -> in_filter s r c = b.
  Proof.
    intros H. apply eq_true_iff_eq. rewrite H. unfold in_filter, filter_head. rewrite existsb_exists. split.
    - intros ([[r' c'] v] & Hi & E). cbn in E. apply andb_true_iff in E. destruct E as [E1 E2]. apply N.eqb_eq in E1, E2. subst. exists v. exact Hi.
    - intros [v Hv]. exists (r, c, v). split; [exact Hv|]. cbn. rewrite !N.eqb_refl. reflexivity.
  Qed.
End Prop38.

(** The pixels of a column, hidden or not. *)
Notation column_pixels s c := (column_pixel_width (cells s) true c).
(** The user gave the column its width (or another setting) and no autofit replaced it. *)
Definition own_width (s : sheet) (c : N) : Prop := exists o, get c (changed_cols (cells s)) = Some o /\ c_autofit o = false.
(** [n] is the largest need of a cell of the column. *)
Definition column_needs (num_text : f64 -> str) (s : sheet) (c n : N) : Prop :=
  (forall r k x a b, table_get r c (data (cells s)) = Some (k, x) -> shows num_text k a -> (b = true <-> filter_head s r c) -> needs a b <= n) /\
  (n = 0 \/ exists r k x a b, table_get r c (data (cells s)) = Some (k, x) /\ shows num_text k a /\ (b = true <-> filter_head s r c) /\ needs a b = n).

Lemma fgt_irr u : F64.is_nan u = false -> fgt u u = false.
Proof.
  intros H. unfold fgt, flt, SFltb, SFcompare. destruct u as [s|s| |s mm e]; try discriminate; try reflexivity; destruct s; try reflexivity; rewrite Z.compare_refl, Pos.compare_refl; reflexivity.
Qed.
Lemma fgt_asym a b : fgt a b = true -> fgt b a = false.
Proof.
  unfold fgt, flt, SFltb, SFcompare. destruct a as [s|s| |s mm e], b as [s'|s'| |s' mm' e']; try discriminate; try reflexivity; destruct s; try discriminate; try reflexivity; destruct s'; try discriminate; try reflexivity;
  destruct (Z.compare_spec e e') as [Ee|Ee|Ee], (Z.compare_spec e' e) as [Ef|Ef|Ef]; try lia; try discriminate; try reflexivity;
  change (Pos.compare_cont Eq mm mm') with (mm ?= mm')%positive; change (Pos.compare_cont Eq mm' mm) with (mm' ?= mm)%positive;
  destruct (Pos.compare_spec mm mm'), (Pos.compare_spec mm' mm); try lia; try discriminate; try reflexivity.
Qed.

(** After any history of calls on a worksheet, autofit (with any limit) ends without overflow, and
    whatever it leaves, each cell has the room it needs, or the limit;
    a column of its own width does not get narrower;
    another column with something to show has exactly the room its widest cell needs, or the limit;
    no column gets wider than the limit unless it was;
    cells, formats, levels and hidden columns stay as they were. *)
Theorem C38_autofit : forall num_text m lower, (forall x, N.of_nat (length (num_text x)) <= 1100) ->
  forall ops s given, Forall real_widths ops -> arun num_text m lower (sheet_new ws_standard) ops s ->
  (exists s', fits num_text m s given s') /\
  forall s', fits num_text m s given s' ->
    (forall r c k x a b, table_get r c (data (cells s)) = Some (k, x) -> shows num_text k a -> (b = true <-> filter_head s r c) ->
       N.min (needs a b) (fit_limit given) <= column_pixels s' c) /\
    (forall c, own_width s c -> column_pixels s c <= column_pixels s' c /\ fgt (fst (wid (cells s) c)) (fst (wid (cells s') c)) = false) /\
    (forall c n, ~ own_width s c -> column_needs num_text s c n -> 0 < n -> 0 < fit_limit given -> column_pixels s' c = N.min n (fit_limit given)) /\
    (forall c, column_pixels s' c = column_pixels s c \/ column_pixels s' c <= fit_limit given) /\
    (data (cells s') = data (cells s) /\ changed_rows (cells s') = changed_rows (cells s) /\ xfs (cells s') = xfs (cells s) /\
     merges s' = merges s /\ tables s' = tables s /\ filter_cells s' = filter_cells s /\
     forall c, match get c (changed_cols (cells s)), get c (changed_cols (cells s')) with
       | Some o, Some o' => c_hidden o' = c_hidden o /\ c_level o' = c_level o /\ c_xf o' = c_xf o /\ c_collapsed o' = c_collapsed o
       | None, Some o' => c_hidden o' = false /\ c_level o' = 0 /\ c_xf o' = 0 /\ c_collapsed o' = false
       | None, None => True | Some _, None => False end).
Proof.
  intros num_text m lower Hnum ops s given R A. pose proof (arun_fine num_text m lower Hnum _ _ _ A R start_fine) as F. pose proof F as (S & C & W).
  split; [apply fits_exists; assumption|]. intros s' H. destruct (fits_spec num_text m Hnum s given s' F H) as (mw & Hm & B & Es & G). pose proof Hm as (O & H1 & H2).
  pose proof (limit_le given) as Lim.
  assert (Room : forall c p, get c mw = Some p -> p <= column_pixels s' c).
  { intros c p Ec. pose proof (wanted_bounds num_text s given mw c p Hm Ec) as Hp. destruct (stored_entry (cells s) c p ltac:(lia)) as (o' & Eo & K).
    unfold column_pixel_width. rewrite G, Ec, Eo. cbn [negb]. rewrite andb_false_r. destruct (pixels_ok p ltac:(lia)) as (_ & Pp & _).
    destruct (get c (changed_cols (cells s))) as [o|] eqn:Eg; [|destruct K as [-> _]; lia]. destruct K as (_ & _ & _ & _ & K).
    destruct (c_autofit o || fgt (pixels_to_width p) (c_width o)) eqn:Eb; [destruct K as [-> _]; lia|]. subst o'. apply orb_false_iff in Eb.
    specialize (W c). unfold wid in W. rewrite Eg in W. cbn [fst] in W. destruct W as [[W1 W2] W3]. apply width_at_least; try assumption; try tauto; lia. }
  assert (Exact : forall c p, ~ own_width s c -> get c mw = Some p -> column_pixels s' c = p).
  { intros c p Hn Ec. pose proof (wanted_bounds num_text s given mw c p Hm Ec) as Hp. destruct (stored_entry (cells s) c p ltac:(lia)) as (o' & Eo & K).
    unfold column_pixel_width. rewrite G, Ec, Eo. cbn [negb]. rewrite andb_false_r. destruct (pixels_ok p ltac:(lia)) as (_ & Pp & _).
    destruct (get c (changed_cols (cells s))) as [o|] eqn:Eg; [|destruct K as [-> _]; exact Pp]. destruct K as (_ & _ & _ & _ & K).
    destruct (c_autofit o) eqn:Ea; [destruct K as [-> _]; exact Pp|]. destruct Hn. exists o. auto. }
  assert (Cell : forall r c k x a b, table_get r c (data (cells s)) = Some (k, x) -> shows num_text k a -> (b = true <-> filter_head s r c) -> 0 < N.min (needs a b) (fit_limit given) ->
    exists q, get c mw = Some q /\ N.min (needs a b) (fit_limit given) <= q).
  { intros r c k x a b Ht Hs Hb Hp. apply H1; [|exact Hp]. exists r, k, x. split; [exact Ht|]. split.
    - apply (C r c k x Ht). intros ->. inversion Hs; subst. cbn in Hp. lia.
    - exists a. rewrite (filter_spec s r c b Hb). auto. }
  split; [|split; [|split; [|split]]].
  - intros r c k x a b Ht Hs Hb. destruct (N.eq_dec (N.min (needs a b) (fit_limit given)) 0) as [->|Hne]; [lia|].
    destruct (Cell r c k x a b Ht Hs Hb ltac:(lia)) as (q & Eq & L). specialize (Room c q Eq). lia.
  - intros c (o & Eg & Ea). pose proof (W c) as Wc. unfold wid in Wc. rewrite Eg in Wc. cbn [fst] in Wc. destruct Wc as [[W1 W2] W3].
    unfold column_pixel_width, wid. rewrite G, Eg. cbn [negb fst]. rewrite andb_false_r. destruct (get c mw) as [p|] eqn:Ec.
    + pose proof (wanted_bounds num_text s given mw c p Hm Ec) as Hp. destruct (stored_entry (cells s) c p ltac:(lia)) as (o' & Eo & K).
      rewrite Eg in K. rewrite Eo. cbn [fst]. rewrite andb_false_r. destruct K as (_ & _ & _ & _ & K). rewrite Ea in K. cbn [orb] in K.
      destruct (fgt (pixels_to_width p) (c_width o)) eqn:Ef; [destruct K as [-> _]|subst o'; split; [lia|apply fgt_irr, W2]].
      split; [|apply fgt_asym, Ef]. destruct (pixels_ok p ltac:(lia)) as (Pk & Pp & _).
      destruct (pixels_rep p ltac:(lia)) as (a & Ra & Ba).
      destruct (c_width o) as [g|g| |g mm e] eqn:Ew; try discriminate.
      * assert (Z0 : width_pixels (S754_zero g) = 0) by (destruct g; reflexivity). rewrite Z0. lia.
      * destruct g; [|discriminate W3]. assert (Z0 : width_pixels (S754_infinity true) = 0) by reflexivity. rewrite Z0. lia.
      * destruct g; [rewrite negative_pixels; lia|].
        assert (Rb : frep (S754_finite false mm e) (Defs.F2R (Defs.Float radix2 (Z.pos mm) e))) by (exists (BinarySingleNaN.B754_finite false mm e W1); repeat split).
        assert (Pb : (0 <= Defs.F2R (Defs.Float radix2 (Z.pos mm) e))%R) by (apply Float_prop.F2R_ge_0; cbn; lia).
        unfold fgt in Ef. rewrite (flt_rep _ _ _ _ Rb Ra) in Ef. destruct (Raux.Rlt_bool_spec (Defs.F2R (Defs.Float radix2 (Z.pos mm) e)) a) as [Hlt|]; [|discriminate].
        apply (width_pixels_mono _ _ _ _ Rb Ra); lra.
    + rewrite ?Eg. cbn [fst]. rewrite ?andb_false_r. split; [lia|apply fgt_irr, W2].
  - intros c n Hn [U A'] Hpos Hlim. destruct A' as [->|(r & k & x & a & b & Ht & Hs & Hb & En)]; [lia|].
    destruct (Cell r c k x a b Ht Hs Hb ltac:(lia)) as (q & Eq & L). rewrite (Exact c q Hn Eq).
    destruct (H2 c q Eq) as (Hq & r' & k' & x' & Ht' & _ & a' & Hs' & ->).
    assert (Hb' : in_filter s r' c = true <-> filter_head s r' c).
    { unfold in_filter, filter_head. rewrite existsb_exists. split.
      - intros ([[r1 c1] v] & Hi & E). cbn in E. apply andb_true_iff in E. destruct E as [E1 E2]. apply N.eqb_eq in E1, E2. subst. exists v. exact Hi.
      - intros [v Hv]. exists (r', c, v). split; [exact Hv|]. cbn. rewrite !N.eqb_refl. reflexivity. }
    specialize (U r' k' x' a' _ Ht' Hs' Hb'). lia.
  - intros c. unfold column_pixel_width. rewrite G. destruct (get c mw) as [p|] eqn:Ec; [|left; reflexivity].
    pose proof (wanted_bounds num_text s given mw c p Hm Ec) as Hp. destruct (stored_entry (cells s) c p ltac:(lia)) as (o' & Eo & K). rewrite Eo. cbn [negb]. rewrite !andb_false_r.
    destruct (pixels_ok p ltac:(lia)) as (_ & Pp & _). destruct (get c (changed_cols (cells s))) as [o|]; [|destruct K as [-> _]; right; lia].
    destruct K as (_ & _ & _ & _ & K). destruct (_ || _); [destruct K as [-> _]; right; lia|subst o'; rewrite andb_false_r; left; reflexivity].
  - rewrite B. cbn [data changed_rows xfs upd_cols]. rewrite Es. cbn [merges tables filter_cells with_cells cells]. repeat (split; [reflexivity|]).
    intros c. rewrite <- B. rewrite G. destruct (get c mw) as [p|] eqn:Ec; [|destruct (get c (changed_cols (cells s))); auto].
    pose proof (wanted_bounds num_text s given mw c p Hm Ec) as Hp. destruct (stored_entry (cells s) c p ltac:(lia)) as (o' & Eo & K). rewrite Eo.
    destruct (get c (changed_cols (cells s))) as [o|]; [|tauto]. destruct K as (K1 & K2 & K3 & K4 & _). auto.
Qed.

(** Calls that give column [c] no width leave its width alone. *)
Lemma other_widths lower s o s' e c : (forall x b, o <> SCell (SetColumnWidth c x b)) -> sstep lower s o = Some (s', e) ->
  wid (cells s') c = wid (cells s) c /\ (mem c (changed_cols (cells s)) = true -> mem c (changed_cols (cells s')) = true).
Proof.
  intros Hn E. pose proof (fun H => sstep_wsame lower s o s' e H E c) as Q. destruct o as [o| | | | | | |]; try exact (Q ltac:(intros; discriminate)).
  destruct o; try exact (Q ltac:(intros; discriminate)). clear Q. cbn [sstep step] in E. unfold lift in E.
  assert (Es : s' = with_cells s (fst (set_column_width_internal (cells s) col width autofit))) by congruence. subst s'. cbn [cells with_cells].
  unfold set_column_width_internal. destruct (feq width fzero); [apply wsame_col_hidden|]. destruct (COL_MAX <=? col); [split; [reflexivity|auto]|]. cbn [fst].
  unfold wid, mem. rewrite store_get. destruct (N.eqb_spec col c) as [->|]; [destruct (Hn width autofit); reflexivity|]. split; [reflexivity|auto].
Qed.
Lemma other_widths_run lower c ops : forall s s', (forall o, In o ops -> forall x b, o <> SCell (SetColumnWidth c x b)) -> srun lower s ops = Some s' ->
  wid (cells s') c = wid (cells s) c /\ (mem c (changed_cols (cells s)) = true -> mem c (changed_cols (cells s')) = true).
Proof.
  induction ops as [|o ops IH]; intros s s' Hn E; cbn [srun] in E; [assert (s = s') by congruence; subst; auto|].
  destruct (sstep lower s o) as [[s1 e]|] eqn:E1; [|discriminate].
  destruct (other_widths lower s o s1 e c (fun x b => Hn o (or_introl eq_refl) x b) E1) as [A B].
  destruct (IH s1 s' (fun o' Ho => Hn o' (or_intror Ho)) E) as [A' B']. split; [congruence|auto].
Qed.
Lemma srun_arun num_text m lower ops : forall s s', srun lower s ops = Some s' -> arun num_text m lower s (map ASheet ops) s'.
Proof.
  induction ops as [|o ops IH]; intros s s' E; cbn [srun map] in *; [assert (s = s') by congruence; subst; constructor|].
  destruct (sstep lower s o) as [[s1 e]|] eqn:E1; [|discriminate]. eapply arun_sheet; [exact E1|]. apply IH, E.
Qed.
Lemma arun_app num_text m lower s ops s1 : arun num_text m lower s ops s1 -> forall ops2 s2, arun num_text m lower s1 ops2 s2 -> arun num_text m lower s (ops ++ ops2) s2.
Proof.
  induction 1 as [s|s o s1 e rest s2 E _ IH|s given s1 rest s2 E _ IH]; intros ops2 s3 H; cbn [app]; [exact H| |].
  - eapply arun_sheet; [exact E|apply IH, H].
  - eapply arun_fit; [exact E|apply IH, H].
Qed.

(** A width the user gave a column ([cap u]: at most 255) and did not change since is not made smaller by the next
    autofit, in characters or pixels, whatever else was called in between. *)
Theorem C38_user_width_kept : forall num_text m lower, (forall x, N.of_nat (length (num_text x)) <= 1100) ->
  forall before after s1 s2 s given s' c u, Forall real_widths before -> Forall real_widths (map ASheet after) -> real_width u ->
  arun num_text m lower (sheet_new ws_standard) before s1 -> sstep lower s1 (SCell (SetColumnWidth c u false)) = Some (s2, None) -> feq u fzero = false ->
  (forall o, In o after -> forall x b, o <> SCell (SetColumnWidth c x b)) -> srun lower s2 after = Some s ->
  fits num_text m s given s' ->
  fgt (cap u) (fst (wid (cells s') c)) = false /\ width_pixels (cap u) <= column_pixels s' c.
Proof.
  intros num_text m lower Hnum before after s1 s2 s given s' c u R1 R2 Ru A1 E Hz Hn A2 F.
  assert (A : arun num_text m lower (sheet_new ws_standard) (before ++ ASheet (SCell (SetColumnWidth c u false)) :: map ASheet after) s).
  { apply (arun_app _ _ _ _ _ _ A1). eapply arun_sheet; [exact E|]. apply srun_arun, A2. }
  assert (R : Forall real_widths (before ++ ASheet (SCell (SetColumnWidth c u false)) :: map ASheet after)).
  { apply Forall_app. split; [exact R1|]. constructor; assumption. }
  destruct (C38_autofit num_text m lower Hnum _ s given R A) as [_ K]. destruct (K s' F) as (_ & K2 & _). clear K.
  destruct (other_widths_run lower c after s2 s Hn A2) as [Wc Mc].
  cbn [sstep step] in E. unfold lift in E. unfold set_column_width_internal in E. rewrite Hz in E.
  destruct (COL_MAX <=? c); [discriminate|]. cbn [fst snd] in E.
  assert (Es : s2 = with_cells s1 (store_column_width (cells s1) c u false)) by congruence. clear E.
  assert (W2 : wid (cells s2) c = (cap u, false) /\ mem c (changed_cols (cells s2)) = true).
  { rewrite Es. cbn [cells with_cells]. unfold wid, mem, store_column_width. cbv zeta. cbn [changed_cols upd_cols]. rewrite get_ins, N.eqb_refl. fold (cap u).
    destruct (get c (changed_cols (cells s1))); split; reflexivity. }
  destruct W2 as [W2 M2]. rewrite W2 in Wc. specialize (Mc M2). apply mem_get in Mc. destruct Mc as [o Eo].
  assert (Eo' := Wc). unfold wid in Eo'. rewrite Eo in Eo'. injection Eo' as Ew Ea.
  destruct (K2 c (ex_intro _ o (conj Eo Ea))) as [P Q]. rewrite Wc in Q. cbn [fst] in Q. split; [exact Q|].
  unfold column_pixel_width in P at 1. rewrite Eo, Ew in P. cbn [negb] in P. rewrite andb_false_r in P. exact P.
Qed.

(** ** Examples *)
Definition fit_once (num_text : f64 -> str) (m : ovf) (s : sheet) (given : option N) : option sheet :=
  option_map (fun mw => with_cells s (set_widths (cells s) mw)) (max_widths num_text m s (fit_limit given)).
Fixpoint arun_once (num_text : f64 -> str) (m : ovf) (lower : str -> str) (s : sheet) (ops : list aop) : option sheet :=
  match ops with
  | [] => Some s
  | ASheet o :: ops => match sstep lower s o with Some (s, _) => arun_once num_text m lower s ops | None => None end
  | AFit given :: ops => match fit_once num_text m s given with Some s => arun_once num_text m lower s ops | None => None end
  end.
Lemma fit_once_fits num_text m s given s' : fit_once num_text m s given = Some s' -> fits num_text m s given s'.
Proof.
  unfold fit_once. destruct (max_widths _ _ _ _) as [mw|] eqn:E; [|discriminate]. intros H. assert (Es : s' = with_cells s (set_widths (cells s) mw)) by (cbn in H; congruence).
  exists mw, mw. auto.
Qed.
Lemma arun_once_run num_text m lower ops : forall s s', arun_once num_text m lower s ops = Some s' -> arun num_text m lower s ops s'.
Proof.
  induction ops as [|[o|given] ops IH]; intros s s' H; cbn [arun_once] in H; [assert (s = s') by congruence; subst; constructor| |].
  - destruct (sstep lower s o) as [[s1 e]|] eqn:E; [|discriminate]. eapply arun_sheet; [exact E|apply IH, H].
  - destruct (fit_once _ _ _ _) as [s1|] eqn:E; [|discriminate]. eapply arun_fit; [apply fit_once_fits, E|apply IH, H].
Qed.
Definition twelve_W : str := lit "WWWWWWWWWWWW".
Definition no_text (x : f64) : str := [].
(** The user sets 20 characters (145 pixels), writes a long text, fits, replaces it by a short one and fits again. *)
Definition refit : list aop :=
  [ASheet (SCell (SetColumnWidth 0 (f_of_N 20) false)); ASheet (SCell (WriteString 0 0 twelve_W None)); AFit None;
   ASheet (SCell (WriteString 0 0 (lit "a") None)); AFit None].
Definition same_text (s : str) : str := s.
Lemma refit_pixels : option_map (fun s => column_pixels s 0) (arun_once no_text Release same_text (sheet_new ws_standard) refit) = Some 14 /\
  option_map (fun s => column_pixels s 0) (arun_once no_text Release same_text (sheet_new ws_standard) (firstn 3 refit)) = Some 163 /\ width_pixels (f_of_N 20) = 145.
Proof. vm_compute. auto. Qed.
(** The width of the user does not survive a second autofit: the first one that widens the column forgets it. *)
Theorem C38_user_width_refuted : exists num_text m lower ops s, (forall x, N.of_nat (length (num_text x)) <= 1100) /\ Forall real_widths ops /\
  ops = [ASheet (SCell (SetColumnWidth 0 (f_of_N 20) false)); ASheet (SCell (WriteString 0 0 twelve_W None)); AFit None;
         ASheet (SCell (WriteString 0 0 (lit "a") None)); AFit None] /\
  arun num_text m lower (sheet_new ws_standard) ops s /\ column_pixels s 0 < width_pixels (f_of_N 20).
Proof.
  destruct refit_pixels as (P & _ & Q). destruct (arun_once no_text Release same_text (sheet_new ws_standard) refit) as [s|] eqn:E; [|discriminate].
  exists no_text, Release, same_text, refit, s. split; [intros x; cbn; lia|]. split.
  - repeat constructor; vm_compute; reflexivity.
  - split; [reflexivity|]. split; [apply arun_once_run, E|]. rewrite Q. injection P as ->. lia.
Qed.
(** The theorem at work: a filtered heading, a text of two lines and a column of the user. *)
Definition fit_demo : list aop :=
  [ASheet (SCell (WriteString 0 0 (lit "Name") None)); ASheet (SCell (WriteString 1 0 (lit "ab" ++ [13; 10] ++ lit "W") None));
   ASheet (SAutofilter 0 0 1 0); ASheet (SCell (SetColumnWidth 1 (f_of_N 20) false)); ASheet (SCell (WriteString 0 1 (lit "x") None));
   ASheet (SCell (WriteBool 3 2 true None))].
Example fit_demo_pixels : match arun_once no_text Release same_text (sheet_new ws_standard) (fit_demo ++ [AFit None]) with
  | Some s => (column_pixels s 0, column_pixels s 1, column_pixels s 2, column_pixels s 3) | None => (0, 0, 0, 0) end = (60, 145, 38, 64).
Proof. vm_compute. reflexivity. Qed.
Example fit_demo_limit : match arun_once no_text Release same_text (sheet_new ws_standard) (fit_demo ++ [AFit (Some 30)]) with
  | Some s => (column_pixels s 0, column_pixels s 1, column_pixels s 2, column_pixels s 3) | None => (0, 0, 0, 0) end = (30, 145, 30, 64).
Proof. vm_compute. reflexivity. Qed.

(** set_column_autofit_width: a column without own settings gets the width of those
    pixels; a width set by set_column_width_pixels is not narrowed by it. *)
Theorem C38_autofit_width_call w col a p : (col < 16384)%N -> (1 <= a <= 1790)%N -> (1 <= p <= 1790)%N ->
  (get col (changed_cols w) = None -> column_pixel_width (fst (set_column_autofit_width w col p)) true col = p) /\
  column_pixel_width (fst (set_column_autofit_width (fst (set_column_width_pixels w col a)) col p)) true col = N.max a p.
Proof.
  intros Hc Ha Hp. destruct (pixels_ok a Ha) as (_ & Wa & Ca). destruct (pixels_ok p Hp) as (_ & Wp & Cp).
  destruct (width_all a ltac:(lia)) as [Za _]. destruct (width_all p ltac:(lia)) as [Zp _].
  unfold set_column_autofit_width, set_column_width_pixels. cbn [step]. unfold set_column_width_internal. rewrite Za, Zp.
  change COL_MAX with 16384%N. destruct (N.leb_spec 16384 col) as [|_]; [lia|]. cbn [fst].
  unfold store_column_width. fold (cap (pixels_to_width p)) (cap (pixels_to_width a)). rewrite Ca, Cp. cbv zeta. split.
  - intros ->. unfold column_pixel_width. cbn [changed_cols upd_cols]. rewrite get_ins, N.eqb_refl. cbn [c_hidden c_width negb andb]. exact Wp.
  - unfold column_pixel_width. cbn [changed_cols upd_cols]. rewrite get_ins, N.eqb_refl.
    assert (E : exists o, get col (ins col match get col (changed_cols w) with
         | Some o => if false && negb (c_autofit o) then if fgt (pixels_to_width a) (c_width o) then {| c_width := pixels_to_width a; c_xf := c_xf o; c_level := c_level o; c_hidden := c_hidden o; c_collapsed := c_collapsed o; c_autofit := true; c_format := c_format o |} else o
             else {| c_width := pixels_to_width a; c_xf := c_xf o; c_level := c_level o; c_hidden := c_hidden o; c_collapsed := c_collapsed o; c_autofit := false; c_format := c_format o |}
         | None => {| c_width := pixels_to_width a; c_xf := 0; c_level := 0; c_hidden := false; c_collapsed := false; c_autofit := false; c_format := None |} end (changed_cols w)) = Some o /\
         c_width o = pixels_to_width a /\ c_autofit o = false).
    { rewrite get_ins, N.eqb_refl. eexists. split; [reflexivity|]. destruct (get col (changed_cols w)); split; reflexivity. }
    destruct E as (o & -> & Eo & Ao). rewrite Ao, Eo. cbn [negb andb].
    destruct (pixels_rep p Hp) as (x & X & Bx). destruct (pixels_rep a Ha) as (y & Y & By).
    destruct (fgt (pixels_to_width p) (pixels_to_width a)) eqn:G; cbn [c_hidden c_width negb]; rewrite ?andb_false_r, ?Eo.
    + rewrite Wp. unfold fgt in G. rewrite (flt_rep _ _ _ _ Y X) in G. destruct (Raux.Rlt_bool_spec y x) as [L|]; [|discriminate].
      pose proof (width_pixels_mono _ _ _ _ Y X ltac:(lra) ltac:(lra)) as M. rewrite Wa, Wp in M. lia.
    + rewrite Wa. unfold fgt in G. rewrite (flt_rep _ _ _ _ Y X) in G. destruct (Raux.Rlt_bool_spec y x) as [|L]; [discriminate|].
      pose proof (width_pixels_mono _ _ _ _ X Y ltac:(lra) ltac:(lra)) as M. rewrite Wa, Wp in M. lia.
Qed.
Print Assumptions C38_autofit_width_call.
