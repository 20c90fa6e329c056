(** Package level, part 3: tables, part names, reachable states, the saved package. *)
From Verif Require Import Base Xml_Model Url_Model Book_Model Book_Proofs Pkg_Model Pkg_Spec Pkg_Names Pkg_Proofs Pkg_Proofs2.
From Coq Require FinFun.

(** ** Tables *)
Definition ctable (kt : N * (str * N)) : content := CTable (fst kt) (fst (tnum (fst kt) (snd kt))) (snd (snd kt)).
Lemma combine_tables l : forall tid, map (fun it => CTable (fst it) (fst (snd it)) (snd (snd it)))
   (combine (seq_from tid (length l)) (map (fun kt => tnum (fst kt) (snd kt)) (number_from tid l)))
  = map ctable (number_from tid l).
Proof.
  induction l as [|t l IH]; intros tid; [reflexivity|].
  cbn [length seq_from number_from map combine fst snd]. f_equal. apply IH.
Qed.
Lemma tables_flat sheets : forall st, flat_map (fun p => map (fun it => CTable (fst it) (fst (snd it)) (snd (snd it)))
                                           (combine (t_ids (p_t p)) (t_tables (p_t p)))) (prep_st st sheets)
  = map ctable (number_from (s_t st) (flat_map u_tables (map ps_u sheets))).
Proof.
  induction sheets as [|s l IH]; intros st; [reflexivity|].
  cbn [prep_st flat_map map]. rewrite number_from_app, map_app, <- combine_tables. f_equal.
  - unfold prep1. cbn [p_t t_ids t_tables]. rewrite name_tables_eq. cbn [fst snd]. reflexivity.
  - rewrite IH. reflexivity.
Qed.
Lemma number_from_map {A B} (f : A -> B) l : forall n, number_from n (map f l) = map (fun kx => (fst kx, f (snd kx))) (number_from n l).
Proof. induction l as [|x l IH]; intros n; [reflexivity|]. cbn [map number_from fst snd]. f_equal. apply IH. Qed.
Lemma number_from_twice {A} (l : list A) : forall n, number_from n (number_from n l) = map (fun kx => (fst kx, kx)) (number_from n l).
Proof. induction l as [|x l IH]; intros n; [reflexivity|]. cbn [map number_from fst snd]. f_equal. apply IH. Qed.
Lemma in_tables sheets e x : In x (write_tables (prep_st (st0 e) sheets)) <->
  exists k t, 1 <= k /\ nth_error (flat_map u_tables (map ps_u sheets)) (N.to_nat (k - 1)) = Some t /\
              x = (render (NTable k), CTable k (fst (tnum k t)) (snd t)).
Proof.
  unfold write_tables. rewrite tables_flat, number_from_map, number_from_twice, !map_map. cbn [fst snd st0 s_t].
  rewrite in_map_iff. split.
  - intros ((k, t) & <- & H). apply in_number_from in H as [H1 H2]. exists k, t. auto.
  - intros (k & t & H1 & H2 & ->). exists (k, t). rewrite in_number_from. auto.
Qed.
Lemma table_names sheets : forall st, flat_map (fun p => map fst (t_tables (p_t p))) (prep_st st sheets)
  = map (fun kt => fst (tnum (fst kt) (snd kt))) (number_from (s_t st) (flat_map u_tables (map ps_u sheets))).
Proof.
  induction sheets as [|s l IH]; intros st; [reflexivity|].
  cbn [prep_st flat_map map]. rewrite number_from_app, map_app. f_equal.
  - unfold prep1. cbn [p_t t_ids t_tables]. rewrite name_tables_eq. cbn [fst snd]. rewrite map_map. reflexivity.
  - rewrite IH. reflexivity.
Qed.

(** ** Names *)
Definition kind (p : pname) : N :=
  match p with
  | NTypes => 0 | NRoot => 1 | NWbR => 2 | NTheme => 3 | NStyles => 4 | NWb => 5 | NWs _ | NWsR _ => 6
  | NCs _ | NCsR _ => 7 | NSst => 8 | NCore => 9 | NApp => 10 | NCustom => 11 | NDr _ => 12
  | NVml _ | NVmlR _ => 13 | NCom _ => 14 | NMedia _ _ => 15 | NChart _ => 16 | NTable _ => 17 | NVba => 18
  | NSig => 19 | NVbaR => 20 | NDrR _ => 21 | NMeta => 22 | NRichR => 23 | NRv => 24 | NRvT => 25 | NRvS => 26
  | NRvRel => 27 | NBag => 28 end.
(** The parts [ps] have distinct names, of kinds in [lo, hi). *)
Definition named (lo hi : N) (ps : package) : Prop :=
  exists ns, map fst ps = map render ns /\ NoDup ns /\ Forall (fun n => lo <= kind n < hi) ns.
Lemma named_nil lo hi : named lo hi [].
Proof. exists []. split; [reflexivity|]. split; constructor. Qed.
Lemma named_app lo mid hi a b : named lo mid a -> named mid hi b -> lo <= mid -> mid <= hi -> named lo hi (a ++ b).
Proof.
  intros (n1 & E1 & D1 & F1) (n2 & E2 & D2 & F2) H1 H2. exists (n1 ++ n2).
  rewrite !map_app, E1, E2. split; [reflexivity|]. split.
  - apply NoDup_app_intro; [assumption|assumption|]. intros x Hx Hy.
    rewrite Forall_forall in F1, F2. apply F1 in Hx. apply F2 in Hy. lia.
  - apply Forall_app. split; eapply Forall_impl; try eassumption; cbn; intros; lia.
Qed.
Lemma named_wider lo hi lo' hi' ps : named lo hi ps -> lo' <= lo -> hi <= hi' -> named lo' hi' ps.
Proof. intros (ns & E & D & F) H1 H2. exists ns. split; [exact E|]. split; [exact D|]. eapply Forall_impl; [|exact F]. cbn; intros; lia. Qed.
Lemma named_one n c : named (kind n) (kind n + 1) [(render n, c)].
Proof. exists [n]. split; [reflexivity|]. split; [repeat constructor; intros []|repeat constructor; lia]. Qed.
Lemma named_when n c (b : bool) : named (kind n) (kind n + 1) (when b [(render n, c)]).
Proof. destruct b; [apply named_one|apply named_nil]. Qed.
Lemma named_cons n c lo hi ps : lo = kind n -> named (kind n + 1) hi ps -> kind n + 1 <= hi -> named lo hi ((render n, c) :: ps).
Proof. intros -> H1 H2. apply (named_app _ _ _ [_] ps (named_one n c) H1); lia. Qed.
Lemma named_NoDup lo hi ps : named lo hi ps -> NoDup (map fst ps).
Proof.
  intros (ns & -> & D & _). apply FinFun.Injective_map_NoDup; [|exact D]. intros a b. apply render_inj.
Qed.

(** Names with numbers at least [ix]. *)
Definition num_of (p : pname) : N :=
  match p with
  | NWs n | NWsR n | NCs n | NCsR n | NDr n | NVml n | NVmlR n | NCom n | NMedia n _ | NChart n | NTable n | NDrR n => n
  | _ => 0 end.
Definition numd (k ix : N) (ps : package) : Prop :=
  exists ns, map fst ps = map render ns /\ NoDup ns /\ Forall (fun n => kind n = k /\ ix <= num_of n) ns.
Lemma numd_named k ix ps : numd k ix ps -> named k (k + 1) ps.
Proof. intros (ns & E & D & F). exists ns. split; [exact E|]. split; [exact D|]. eapply Forall_impl; [|exact F]. cbn; intros; lia. Qed.
Lemma numd_nil k ix : numd k ix [].
Proof. exists []. split; [reflexivity|]. split; constructor. Qed.
Lemma numd_cons k ix n c ps : numd k (num_of n + 1) ps -> kind n = k -> ix <= num_of n -> numd k ix ((render n, c) :: ps).
Proof.
  intros (ns & E & D & F) Hk Hi. exists (n :: ns). cbn [map fst]. rewrite E. split; [reflexivity|]. split.
  - constructor; [|exact D]. intros Hn. rewrite Forall_forall in F. apply F in Hn. lia.
  - constructor; [auto|]. eapply Forall_impl; [|exact F]. cbn; intros ? []; split; [assumption|lia].
Qed.
Lemma numd_cons2 k ix n n' c c' ps : numd k (num_of n + 1) ps -> kind n = k -> kind n' = k -> num_of n' = num_of n -> n <> n' ->
  ix <= num_of n -> numd k ix ((render n, c) :: (render n', c') :: ps).
Proof.
  intros (ns & E & D & F) Hk Hk' Hn Hne Hi. exists (n :: n' :: ns). cbn [map fst]. rewrite E. split; [reflexivity|]. split.
  - rewrite Forall_forall in F. constructor; [|constructor; [|exact D]].
    + intros [X|X]; [congruence|apply F in X; lia].
    + intros X. apply F in X. lia.
  - constructor; [auto|]. constructor; [split; [auto|lia]|]. eapply Forall_impl; [|exact F]. cbn; intros ? []; split; [assumption|lia].
Qed.
Lemma numd_weaken k a b ps : numd k a ps -> b <= a -> numd k b ps.
Proof. intros (ns & E & D & F) H. exists ns. split; [exact E|]. split; [exact D|]. eapply Forall_impl; [|exact F]. cbn; intros ? []; split; [assumption|lia]. Qed.

Lemma ws_named m l : forall ix ps, write_worksheets m ix l = Some ps -> numd 6 ix ps.
Proof.
  induction l as [|p l IH]; intros ix ps; cbn [write_worksheets]; [intros [= <-]; apply numd_nil|].
  destruct (u_chartsheet (p_u p)); [apply IH|].
  destruct (write_sheet_doc p) as [doc links]. intros H.
  destruct (has_relationships links p).
  - destruct (write_rels m _) as [es|]; cbn [obind] in H; [|discriminate].
    destruct (write_worksheets m (ix + 1) l) as [rest|] eqn:Er; cbn [obind] in H; [|discriminate]. injection H as <-.
    apply (numd_cons2 6 ix (NWs ix) (NWsR ix)); try reflexivity; [apply IH, Er|discriminate].
  - cbn [obind] in H. destruct (write_worksheets m (ix + 1) l) as [rest|] eqn:Er; cbn [obind] in H; [|discriminate]. injection H as <-.
    apply (numd_cons 6 ix (NWs ix)); try reflexivity. apply IH, Er.
Qed.
Lemma cs_named m l : forall ix ps, write_chartsheets m ix l = Some ps -> numd 7 ix ps.
Proof.
  induction l as [|p l IH]; intros ix ps; cbn [write_chartsheets]; [intros [= <-]; apply numd_nil|].
  destruct (negb (u_chartsheet (p_u p))); [apply IH|]. intros H.
  destruct (has_relationships [] p).
  - destruct (write_rels m _) as [es|]; cbn [obind] in H; [|discriminate].
    destruct (write_chartsheets m (ix + 1) l) as [rest|] eqn:Er; cbn [obind] in H; [|discriminate]. injection H as <-.
    apply (numd_cons2 7 ix (NCs ix) (NCsR ix)); try reflexivity; [apply IH, Er|discriminate].
  - cbn [obind] in H. destruct (write_chartsheets m (ix + 1) l) as [rest|] eqn:Er; cbn [obind] in H; [|discriminate]. injection H as <-.
    apply (numd_cons 7 ix (NCs ix)); try reflexivity. apply IH, Er.
Qed.
Lemma dr_named l : forall ix, numd 12 ix (write_drawings ix l).
Proof.
  induction l as [|p l IH]; intros ix; cbn [write_drawings]; [apply numd_nil|].
  destruct (is_nil (d_infos (p_d p))); [apply IH|]. apply (numd_cons 12 ix (NDr ix)); try reflexivity. apply IH.
Qed.
Lemma vml_named m l : forall ix h ps, write_vmls m ix h l = Some ps -> numd 13 ix ps.
Proof.
  induction l as [|p l IH]; intros ix h ps; cbn [write_vmls]; [intros [= <-]; apply numd_nil|].
  fold (notes_vml p). fold (hf_vml h p).
  assert (G : forall k ps', numd 13 k ps' -> k = (if has_vml (p_u p) then ix + 1 else ix) ->
     numd 13 ix ((if has_vml (p_u p) then [(numbered "xl/drawings/vmlDrawing" ix ".vml", CVml (notes_vml p))] else []) ++ ps')).
  { intros k ps' H ->. destruct (has_vml (p_u p)); [|exact H]. apply (numd_cons 13 ix (NVml ix)); try reflexivity. exact H. }
  destruct (is_nil (u_hf (p_u p))); cbn [obind].
  - intros H. destruct (write_vmls m _ h l) as [rest|] eqn:Er; cbn [obind] in H; [|discriminate]. injection H as <-.
    cbn [app]. eapply G; [|reflexivity]. eapply IH, Er.
  - intros H. destruct (write_rels m _) as [es|]; cbn [obind] in H; [|discriminate].
    destruct (write_vmls m _ (h + 1) l) as [rest|] eqn:Er; cbn [obind] in H; [|discriminate]. injection H as <-.
    eapply G; [|reflexivity]. cbn [app].
    set (k := if has_vml (p_u p) then ix + 1 else ix) in *.
    apply (numd_cons2 13 k (NVml k) (NVmlR k)); try reflexivity; [eapply IH, Er|discriminate].
Qed.
Lemma com_named l : forall ix, numd 14 ix (write_comments ix l).
Proof.
  induction l as [|p l IH]; intros ix; cbn [write_comments]; [apply numd_nil|].
  destruct (is_nil (u_notes (p_u p))); [apply IH|]. apply (numd_cons 14 ix (NCom ix)); try reflexivity. apply IH.
Qed.
Lemma numd_app k ix mid a b : numd k ix a -> Forall (fun n => forall p, render p = n -> num_of p < mid) (map fst a) ->
  numd k mid b -> ix <= mid -> numd k ix (a ++ b).
Proof.
  intros (n1 & E1 & D1 & F1) HF (n2 & E2 & D2 & F2) H. exists (n1 ++ n2).
  rewrite !map_app, E1, E2. split; [reflexivity|].
  rewrite E1 in HF. rewrite Forall_forall in *. split.
  - apply NoDup_app_intro; [assumption|assumption|]. intros x Hx Hy.
    apply F2 in Hy. assert (num_of x < mid) by (apply (HF (render x)); [apply in_map, Hx|reflexivity]). lia.
  - intros x Hx. apply in_app_iff in Hx as [Hx|Hx]; [auto|]. apply F2 in Hx. split; [tauto|lia].
Qed.
(** Media files. *)
Lemma new_images_named l : forall ix seen ps ix' seen', write_new_images ix seen l = (ps, ix', seen') ->
  numd 15 ix ps /\ Forall (fun n => forall p, render p = n -> num_of p < ix') (map fst ps) /\ ix <= ix'.
Proof.
  induction l as [|i l IH]; intros ix seen ps ix' seen'; cbn [write_new_images].
  - intros [= <- <- <-]. split; [apply numd_nil|]. split; [constructor|lia].
  - destruct (existsb (str_eqb (im_hash i)) seen); [apply IH|].
    destruct (write_new_images (ix + 1) (im_hash i :: seen) l) as [[ps0 ix0] seen0] eqn:E.
    intros H. injection H as <- <- <-. apply IH in E as (H1 & H2 & H3). split; [|split].
    + apply (numd_cons 15 ix (NMedia ix (im_ext i))); try reflexivity. exact H1.
    + cbn [map fst]. constructor; [|exact H2]. intros p Hp.
      apply (render_inj p (NMedia ix (im_ext i))) in Hp. subst p. cbn [num_of]. lia.
    + lia.
Qed.
Lemma sheet_images_named l : forall ix ws hf bg, numd 15 ix (write_sheet_images ix ws hf bg l).
Proof.
  induction l as [|u l IH]; intros ix ws hf bg; cbn [write_sheet_images]; [apply numd_nil|].
  destruct (write_new_images ix bg _) as [[p1 i1] bg'] eqn:E1.
  destruct (write_new_images i1 ws _) as [[p2 i2] ws'] eqn:E2.
  destruct (write_new_images i2 hf _) as [[p3 i3] hf'] eqn:E3.
  apply new_images_named in E1 as (A1 & B1 & C1), E2 as (A2 & B2 & C2), E3 as (A3 & B3 & C3).
  eapply numd_app; [exact A1|exact B1| |exact C1]. eapply numd_app; [exact A2|exact B2| |exact C2].
  eapply numd_app; [exact A3|exact B3| |exact C3]. apply IH.
Qed.
Lemma embedded_named l : forall ix, numd 15 ix (write_embedded ix l) /\
  Forall (fun n => forall p, render p = n -> num_of p < ix + N.of_nat (length l)) (map fst (write_embedded ix l)).
Proof.
  induction l as [|i l IH]; intros ix; cbn [write_embedded].
  - split; [apply numd_nil|constructor].
  - destruct (IH (ix + 1)) as [H1 H2]. split.
    + apply (numd_cons 15 ix (NMedia ix (im_ext i))); try reflexivity. exact H1.
    + cbn [map fst length]. constructor.
      * intros p Hp. apply (render_inj p (NMedia ix (im_ext i))) in Hp. subst p. cbn [num_of]. lia.
      * eapply Forall_impl; [|exact H2]. cbn. intros a Ha p Hp. specialize (Ha p Hp). lia.
Qed.
Lemma images_named emb us : numd 15 1 (write_images emb us).
Proof.
  destruct (embedded_named emb 1) as [H1 H2]. eapply numd_app; [exact H1|exact H2|apply sheet_images_named|lia].
Qed.
Lemma numbered_named k (f : N -> pname) (c : N -> content) n : (forall i, kind (f i) = k /\ num_of (f i) = i) ->
  forall ix, numd k ix (map (fun i => (render (f i), c i)) (seq_from ix n)).
Proof.
  intros Hf. induction n as [|n IH]; intros ix; cbn [seq_from map]; [apply numd_nil|].
  apply numd_cons; [|apply Hf|destruct (Hf ix); lia]. destruct (Hf ix) as [_ ->]. apply IH.
Qed.
Lemma charts_named us : numd 16 1 (write_charts us).
Proof.
  unfold write_charts. generalize (flat_map u_charts us), 1. intros l; induction l as [|x l IH]; intros n; cbn [number_from map]; [apply numd_nil|].
  apply (numd_cons 16 n (NChart n)); try reflexivity. apply IH.
Qed.
Lemma tables_named l : numd 17 1 (write_tables l).
Proof.
  unfold write_tables. generalize (flat_map (fun p => map (fun it => CTable (fst it) (fst (snd it)) (snd (snd it)))
     (combine (t_ids (p_t p)) (t_tables (p_t p)))) l), 1. intros l0; induction l0 as [|x l0 IH]; intros n; cbn [number_from map]; [apply numd_nil|].
  apply (numd_cons 17 n (NTable n)); try reflexivity. apply IH.
Qed.
Lemma drr_named m l : Forall infos_ok l -> Forall (fun p => d_rels (p_d p) <> [] -> has_dr (p_u p) = true) l ->
  forall ix ps, write_drawing_rels m ix l = Some ps -> numd 21 (ix + 1) ps.
Proof.
  induction 1 as [|p l Hp Hl IH]; intros HF ix ps; cbn [write_drawing_rels]; [intros [= <-]; apply numd_nil|].
  inversion HF as [|x y Hx Hy]; subst. intros H.
  assert (Hk : (if is_nil (d_infos (p_d p)) then ix else ix + 1) = ix + n_dr (p_u p)).
  { rewrite Hp. unfold n_dr. destruct (has_dr (p_u p)); cbn [negb b2n]; lia. }
  rewrite Hk in H. destruct (is_nil (d_rels (p_d p))) eqn:En.
  - cbn [obind] in H. destruct (write_drawing_rels m _ l) as [rest|] eqn:Er; cbn [obind] in H; [|discriminate]. injection H as <-.
    apply (IH Hy) in Er. eapply numd_weaken; [exact Er|]. lia.
  - apply is_nil_false in En. specialize (Hx En).
    destruct (write_rels m _) as [es|]; cbn [obind] in H; [|discriminate].
    destruct (write_drawing_rels m _ l) as [rest|] eqn:Er; cbn [obind] in H; [|discriminate]. injection H as <-.
    apply (IH Hy) in Er. unfold n_dr in Er |- *. rewrite Hx in Er |- *. cbn [b2n] in Er |- *.
    apply (numd_cons 21 (ix + 1) (NDrR (ix + 1))); try reflexivity. exact Er.
Qed.
