From Verif Require Import Base SMap SortLib F64 Fmt_Model Sst_Model Cells_Model Cells_Proofs Sheet_Model Sheet_Spec Opts_Frame Sheet_Proofs.

(** ** Page breaks *)
Lemma sort_id_strict set : NoDup set -> StronglySorted N.lt (sort_by (fun x => x) set) /\ forall x, In x (sort_by (fun x => x) set) <-> In x set.
Proof.
  intros H. pose proof (sort_by_perm (fun x : N => x) set) as P. split.
  - apply (sorted_le_lt (fun x : N => x)); [apply sort_by_sorted|]. rewrite map_id. apply (Permutation_NoDup (Permutation_sym P) H).
  - intros x. split; intros Hx; [exact (Permutation_in _ P Hx)|exact (Permutation_in _ (Permutation_sym P) Hx)].
Qed.

Lemma last_max l m t : StronglySorted N.lt l -> rev l = m :: t -> In m l /\ forall x, In x l -> x <= m.
Proof.
  intros Hs E. assert (El : l = rev t ++ [m]) by (rewrite <- (rev_involutive l), E; reflexivity). subst l. clear E. split; [apply in_or_app; right; left; reflexivity|].
  induction (rev t) as [|y r IH]; cbn in *; intros x Hx; [destruct Hx as [->|[]]; lia|].
  inversion Hs as [|? ? Hs' Hf]; subst. destruct Hx as [->|Hx]; [|exact (IH Hs' x Hx)].
  rewrite Forall_forall in Hf. apply N.lt_le_incl. apply Hf. apply in_or_app. right; left; reflexivity.
Qed.

Lemma process_spec set : NoDup set -> set <> [] -> exists bs, StronglySorted N.lt bs /\ (forall x, In x bs <-> In x set /\ x <> 0) /\
  process_pagebreaks set = Some (if 1023 <? N.of_nat (length bs) then Err STooManyBreaks else Ok bs).
Proof.
  intros Hn Hne. destruct (sort_id_strict set Hn) as [Hs Hin]. unfold process_pagebreaks.
  destruct (sort_by (fun x => x) set) as [|b rest]. { exfalso. apply Hne. destruct set as [|x s]; [reflexivity|]. destruct (proj2 (Hin x) (or_introl eq_refl)). }
  inversion Hs as [|? ? Hs' Hf]; subst. rewrite Forall_forall in Hf.
  destruct (N.eqb_spec b 0) as [->|Hb].
  - exists rest. split; [exact Hs'|]. split; [|reflexivity]. intros x. rewrite <- Hin. cbn [In]. split.
    + intros Hx. split; [right; exact Hx|]. specialize (Hf x Hx). lia.
    + intros [[<-|Hx] Hx0]; [congruence|exact Hx].
  - exists (b :: rest). split; [exact Hs|]. split; [|reflexivity]. intros x. rewrite <- Hin. split; [|tauto].
    intros Hx. split; [exact Hx|]. destruct Hx as [<-|Hx]; [exact Hb|]. specialize (Hf x Hx). lia.
Qed.

(** ** Column definitions *)
Lemma feq_eq a b : feq a b = true -> a = b \/ (exists s t, a = S754_zero s /\ b = S754_zero t).
Proof.
  unfold feq, SFeqb, SFcompare. destruct a as [s|s| |s m e], b as [t|t| |t n f]; intros H; try discriminate;
    try (destruct s, t; try discriminate; left; reflexivity); try (destruct s; discriminate); try (destruct t; discriminate); try solve [right; eauto].
  destruct s, t; try discriminate.
  - destruct (e ?= f)%Z eqn:E; try discriminate. apply Z.compare_eq in E. subst f. cbn in H.
    destruct (Pos.compare_cont Eq m n) eqn:E; try discriminate. apply Pos.compare_eq in E. subst. left; reflexivity.
  - destruct (e ?= f)%Z eqn:E; try discriminate. apply Z.compare_eq in E. subst f.
    destruct (Pos.compare_cont Eq m n) eqn:E; try discriminate. apply Pos.compare_eq in E. subst. left; reflexivity.
Qed.
Definition width_ok (o : colopt) : Prop := match c_width o with S754_zero _ => False | _ => True end.
Lemma colopt_eqb_eq a b : width_ok a -> colopt_eqb a b = true -> a = b.
Proof.
  unfold colopt_eqb. intros Hw H. repeat (apply andb_true_iff in H as [H ?]).
  destruct a as [aw ax al ah ac aa af], b as [bw bx bl bh bc ba bf]; cbn in *.
  apply feq_eq in H as [->|(s & t & -> & ->)]; [|destruct Hw].
  repeat match goal with H : Bool.eqb _ _ = true |- _ => apply Bool.eqb_prop in H; subst | H : (_ =? _) = true |- _ => apply N.eqb_eq in H; subst end.
  destruct af as [x|], bf as [y|]; try discriminate; [|reflexivity].
  match goal with H : format_eqb x y = true |- _ => unfold format_eqb, beq in H; destruct (format_eq_dec x y) as [->|]; [reflexivity|discriminate] end.
Qed.

Section Coalesce.
Let before (a b : N * N * colopt) : Prop := snd (fst a) < fst (fst b).
Lemma coalesce_spec rest : forall first last prev,
  first <= last -> StronglySorted N.lt (last :: keys rest) -> width_ok prev -> Forall (fun p => width_ok (snd p)) rest ->
  let D := coalesce first last prev rest in
  (exists l q D', D = (first, l, q) :: D' /\ last <= l /\ q = prev) /\
  StronglySorted before D /\ Forall (fun d => fst (fst d) <= snd (fst d)) D /\
  (forall k, (exists f l q, In (f, l, q) D /\ f <= k <= l) <-> first <= k <= last \/ In k (keys rest)) /\
  (forall f l q k, In (f, l, q) D -> f <= k <= l -> (first <= k <= last /\ q = prev) \/ In (k, q) rest) /\
  (forall i a b, nth_error D i = Some a -> nth_error D (S i) = Some b -> fst (fst b) = snd (fst a) + 1 ->
     is_nan (c_width (snd a)) = false -> snd b <> snd a).
Proof.
  induction rest as [|[c o] rest IH]; intros first last prev Hfl Hs Hw Hwr.
  - cbn. repeat split.
    + exists last, prev, []. repeat split. lia.
    + constructor; constructor.
    + constructor; [exact Hfl|constructor].
    + intros (f & l & q & [[= <- <- <-]|[]] & Hk). left; exact Hk.
    + intros [Hk|[]]. exists first, last, prev. split; [left; reflexivity|exact Hk].
    + intros f l q k [[= <- <- <-]|[]] Hk. left. split; [exact Hk|reflexivity].
    + intros [|i] a b Ha Hb; cbn in Hb; [discriminate|destruct i; discriminate].
  - inversion Hs as [|? ? Hs' Hf]; subst. cbn [keys map fst] in Hs', Hf. inversion Hf as [|? ? Hlc Hf']; subst.
    inversion Hwr as [|? ? Hwo Hwr']; subst. cbn [snd] in Hwo. cbn [coalesce].
    destruct ((c =? last + 1) && colopt_eqb o prev) eqn:E.
    + apply andb_true_iff in E as [E1 E2]. apply N.eqb_eq in E1. apply (colopt_eqb_eq o prev Hwo) in E2. subst o.
      specialize (IH first c prev ltac:(lia) Hs' Hw Hwr'). destruct IH as ((l & q & D' & I1 & I1' & I1q) & I2 & I3 & I4 & I5 & I6).
      cbv zeta. split; [exists l, q, D'; repeat split; [exact I1|lia|exact I1q]|]. split; [exact I2|]. split; [exact I3|]. split; [|split; [|exact I6]].
      * intros k. rewrite I4. cbn [keys map fst In]. split; [intros [Hk|Hk]|intros [Hk|[<-|Hk]]]; [|right; right; exact Hk|left; lia|left; lia|right; exact Hk].
        destruct (N.eq_dec k c) as [->|]; [right; left; reflexivity|left; lia].
      * intros f l0 q0 k Hin Hk. destruct (I5 f l0 q0 k Hin Hk) as [[Hk' ->]|Hk']; [|right; right; exact Hk'].
        destruct (N.eq_dec k c) as [->|]; [right; left; reflexivity|left; split; [lia|reflexivity]].
    + specialize (IH c c o ltac:(lia) Hs' Hwo Hwr'). destruct IH as ((l & q & D' & I1 & I1' & I1q) & I2 & I3 & I4 & I5 & I6). cbv zeta.
      split; [exists last, prev; eexists; repeat split; lia|]. split; [|split; [|split; [|split]]].
      * constructor; [exact I2|]. apply Forall_forall. intros [[f l0] q0] Hin. unfold before. cbn.
        assert (Hfl0 : f <= l0) by (rewrite Forall_forall in I3; exact (I3 _ Hin)).
        destruct (proj1 (I4 f) ltac:(exists f, l0, q0; split; [exact Hin|lia])) as [Hk|Hk]; [lia|].
        rewrite Forall_forall in Hf'. exact (Hf' f Hk).
      * constructor; [exact Hfl|exact I3].
      * intros k. cbn [keys map fst In]. split.
        -- intros (f & l0 & q0 & [[= <- <- <-]|Hin] & Hk); [left; exact Hk|]. right.
           destruct (proj1 (I4 k) ltac:(exists f, l0, q0; split; [exact Hin|exact Hk])) as [Hk'|Hk']; [left; lia|right; exact Hk'].
        -- intros [Hk|Hk]; [exists first, last, prev; split; [left; reflexivity|exact Hk]|].
           destruct (proj2 (I4 k)) as (f & l0 & q0 & Hin & Hk'); [destruct Hk as [<-|Hk]; [left; lia|right; exact Hk]|].
           exists f, l0, q0. split; [right; exact Hin|exact Hk'].
      * intros f l0 q0 k [[= <- <- <-]|Hin] Hk; [left; split; [exact Hk|reflexivity]|]. right.
        destruct (I5 f l0 q0 k Hin Hk) as [[Hk' ->]|Hk']; [left; f_equal; lia|right; exact Hk'].
      * intros [|i] a b Ha Hb Hab Hnan; [|exact (I6 i a b Ha Hb Hab Hnan)]. cbn in Ha. injection Ha as <-. cbn [nth_error] in Hb. rewrite I1 in Hb. cbn in Hb. injection Hb as <-.
        cbn in Hab, Hnan |- *. subst q c. rewrite N.eqb_refl in E. cbn in E. intros ->. clear - E Hnan.
        assert (colopt_eqb prev prev = true); [|congruence]. clear E. unfold colopt_eqb. rewrite !N.eqb_refl, !Bool.eqb_reflx.
        assert (feq (c_width prev) (c_width prev) = true) as ->.
        { destruct (c_width prev) as [s|s| |s m e]; try reflexivity; [destruct s; reflexivity|discriminate|]. unfold feq, SFeqb, SFcompare.
          destruct s; rewrite Z.compare_refl, ?Pos.compare_cont_refl; reflexivity. }
        cbn. destruct (c_format prev) as [x|]; [|reflexivity]. unfold format_eqb, beq. destruct (format_eq_dec x x); [reflexivity|congruence].
Qed.
End Coalesce.

Lemma cols_sorted (iter m : smap colopt) : ok m -> Permutation iter m -> sort_by fst iter = m.
Proof.
  intros Hok HP. apply sort_by_canonical; [|exact HP]. unfold ok in Hok. clear HP.
  induction m as [|[k v] m IH]; [constructor|]. cbn [keys map fst] in Hok. inversion Hok as [|? ? Hs Hf]; subst.
  constructor; [exact (IH Hs)|]. apply Forall_forall. intros [j u] Hin. unfold key_lt. cbn. rewrite Forall_forall in Hf. apply Hf.
  apply (in_map fst) in Hin. exact Hin.
Qed.

(** The column options kept by a worksheet. *)
Record cols_ok (w : ws) : Prop := {
  cc_ok : ok (changed_cols w); cc_w : forall c o, get c (changed_cols w) = Some o -> width_ok o;
  cc_lim : forall c o, get c (changed_cols w) = Some o -> c < 16384;
  cc_lev : forall c o, get c (changed_cols w) = Some o -> c_level o <= 7;
  cc_max : max_col_level w <= 7 /\ (forall c, 2 <= col_level w c -> col_level w c <= max_col_level w) /\
           (max_col_level w = 0 \/ exists c, max_col_level w <= col_level w c) }.
Lemma cols_ok_kept w w' : kept w w' -> cols_ok w -> cols_ok w'.
Proof. intros [A B C D E] []. split; unfold col_level in *; rewrite ?B, ?D; assumption. Qed.
Lemma cols_ok_cd w r c : cols_ok w -> cols_ok (fst (check_dimensions w r c)).
Proof. apply cols_ok_kept, kept_cd. Qed.
Lemma cols_ok_ins w c o l : cols_ok w -> c < 16384 -> width_ok o -> c_level o <= 7 -> 
  col_level w c <= c_level o -> max_col_level w <= l -> l <= 7 -> (2 <= c_level o -> c_level o <= l) ->
  (l = max_col_level w \/ l <= c_level o) ->
  cols_ok (upd_cols w (ins c o (changed_cols w)) l).
Proof.
  intros [A B C D (E1 & E2 & E3)] Hc Hw Hl Hge Hml Hl7 Hl2 Hex. split; cbn [changed_cols upd_cols max_col_level].
  - apply ins_ok, A.
  - intros c' o'. rewrite get_ins. destruct (c =? c'); [intros [= <-]; exact Hw|apply B].
  - intros c' o'. rewrite get_ins. destruct (N.eqb_spec c c') as [<-|]; [intros [= <-]; exact Hc|apply C].
  - intros c' o'. rewrite get_ins. destruct (c =? c'); [intros [= <-]; exact Hl|apply D].
  - split; [exact Hl7|]. unfold col_level in *. cbn [changed_cols upd_cols]. split.
    + intros c'. rewrite get_ins. destruct (N.eqb_spec c c') as [<-|Hne]; [exact Hl2|]. intros H. specialize (E2 c' H). lia.
    + destruct Hex as [->|Hex].
      * destruct E3 as [E3|(c' & E3)]; [left; exact E3|]. right. destruct (N.eq_dec c c') as [<-|Hne].
        -- exists c. rewrite get_ins, N.eqb_refl. lia.
        -- exists c'. rewrite get_ins. destruct (N.eqb_spec c c'); [contradiction|exact E3].
      * right. exists c. rewrite get_ins, N.eqb_refl. exact Hex.
Qed.
Lemma max_le7 w : cols_ok w -> max_col_level w <= 7. Proof. intros []. tauto. Qed.
Lemma lvl_max w c o : cols_ok w -> get c (changed_cols w) = Some o -> 2 <= c_level o -> c_level o <= max_col_level w.
Proof. intros [A B C D (E1 & E2 & E3)] H H2. specialize (E2 c). unfold col_level in E2. rewrite H in E2. auto. Qed.
Lemma lvl_get w c o : get c (changed_cols w) = Some o -> col_level w c = c_level o.
Proof. intros H. unfold col_level. rewrite H. reflexivity. Qed.
Lemma lvl_none w c : get c (changed_cols w) = None -> col_level w c = 0.
Proof. intros H. unfold col_level. rewrite H. reflexivity. Qed.


Lemma dcw : forall a b c d e f, width_ok {| c_width := DEFAULT_COL_WIDTH; c_xf := a; c_level := b; c_hidden := c; c_collapsed := d; c_autofit := e; c_format := f |}.
Proof. intros. exact I. Qed.

(** Rewriting the options of a column without changing its level. *)
Lemma cols_ok_same_level w c o : cols_ok w -> c < 16384 -> width_ok o -> c_level o = col_level w c ->
  cols_ok (upd_cols w (ins c o (changed_cols w)) (max_col_level w)).
Proof.
  intros H Hc Hw Hl. pose proof (max_le7 w H) as H7.
  assert (Hl7 : c_level o <= 7 /\ (2 <= c_level o -> c_level o <= max_col_level w)).
  { rewrite Hl. destruct (get c (changed_cols w)) as [o0|] eqn:E; [rewrite (lvl_get w c o0 E)|rewrite (lvl_none w c E); lia].
    split; [exact (cc_lev w H c o0 E)|]. exact (lvl_max w c o0 H E). }
  apply cols_ok_ins; try assumption; try lia; try tauto.
Qed.
