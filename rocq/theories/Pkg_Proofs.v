(** Package level, part 1: relationship numbering, lookups, and preparation as one pass. *)
From Verif Require Import Base Xml_Model Url_Model Book_Model Book_Proofs Pkg_Model Pkg_Spec Pkg_Names.

(** ** Relationship ids *)
Lemma add16_ok m n n' : add16 m n 1 = Some n' -> (m = Debug \/ n + 1 < 65536) -> n' = n + 1.
Proof.
  unfold add16, wrapN. change (2 ^ Z.of_N 16)%Z with 65536%Z.
  destruct ((0 <=? Z.of_N n + Z.of_N 1)%Z && (Z.of_N n + Z.of_N 1 <? 65536)%Z) eqn:E.
  - intros H _. injection H as <-. lia.
  - destruct m; [discriminate|]. intros _ [H|H]; [discriminate|lia].
Qed.
Lemma write_rels_from_len m l : forall n es, write_rels_from m n l = Some es -> length es = length l.
Proof.
  induction l as [|r l IH]; intros n es; cbn [write_rels_from].
  - intros [= <-]. reflexivity.
  - destruct (add16 m n 1) as [n'|]; cbn [obind]; [|discriminate].
    destruct (write_rels_from m n' l) as [rest|] eqn:E; cbn [obind]; [|discriminate].
    intros [= <-]. cbn [length]. f_equal. eapply IH, E.
Qed.
Definition entries_of (n : N) (l : list rel) : list (str * rel) :=
  map (fun kr => (rid (fst kr), snd kr)) (number_from n l).
Lemma write_rels_from_ok m l : forall n es, write_rels_from m n l = Some es ->
  (m = Debug \/ n + N.of_nat (length l) < 65536) -> es = entries_of n l.
Proof.
  induction l as [|r l IH]; intros n es; cbn [write_rels_from].
  - intros [= <-] _. reflexivity.
  - destruct (add16 m n 1) as [n'|] eqn:Ea; cbn [obind]; [|discriminate].
    destruct (write_rels_from m n' l) as [rest|] eqn:E; cbn [obind]; [|discriminate].
    intros [= <-] Hb. cbn [length] in Hb.
    assert (n' = n + 1) as -> by (apply (add16_ok m); [exact Ea|destruct Hb; [left|right]; [assumption|lia]]).
    unfold entries_of. cbn [number_from map fst snd]. f_equal. apply IH; [exact E|].
    destruct Hb as [Hb|Hb]; [left; exact Hb|right; lia].
Qed.
Lemma write_rels_ok m l es : write_rels m l = Some es ->
  (m = Debug \/ N.of_nat (length es) < 65535) -> es = entries_of 1 l.
Proof.
  intros H Hb. apply (write_rels_from_ok m); [exact H|].
  rewrite <- (write_rels_from_len m l 1 es H). destruct Hb; [left|right]; [assumption|lia].
Qed.
Lemma number_from_fst {A} (l : list A) : forall n, map fst (number_from n l) = seq_from n (length l).
Proof. induction l as [|x l IH]; intros n; cbn [number_from map fst length seq_from]; [reflexivity|]. f_equal. apply IH. Qed.
Lemma number_from_nth {A} (l : list A) : forall n j, nth_error (number_from n l) j = option_map (fun x => (n + N.of_nat j, x)) (nth_error l j).
Proof.
  induction l as [|x l IH]; intros n [|j]; cbn [number_from nth_error option_map]; try reflexivity.
  - f_equal. f_equal. lia.
  - rewrite IH. destruct (nth_error l j); cbn [option_map]; [|reflexivity]. f_equal. f_equal. lia.
Qed.
Lemma number_from_app {A} (l1 l2 : list A) : forall n, number_from n (l1 ++ l2) = number_from n l1 ++ number_from (n + N.of_nat (length l1)) l2.
Proof.
  induction l1 as [|x l1 IH]; intros n; cbn [number_from app length].
  - f_equal. lia.
  - f_equal. rewrite IH. f_equal. f_equal. lia.
Qed.
Lemma seq_from_In k : forall n x, In x (seq_from n k) <-> n <= x < n + N.of_nat k.
Proof.
  induction k as [|k IH]; intros n x; cbn [seq_from In]; [lia|]. rewrite IH. lia.
Qed.
Lemma seq_from_NoDup k : forall n, NoDup (seq_from n k).
Proof. induction k as [|k IH]; intros n; cbn [seq_from]; constructor; [rewrite seq_from_In; lia|apply IH]. Qed.
Lemma entries_NoDup l n : NoDup (map fst (entries_of n l)).
Proof.
  unfold entries_of. rewrite map_map. cbn [fst]. rewrite <- map_map with (f := fst) (g := rid), number_from_fst.
  generalize (seq_from_NoDup (length l) n). generalize (seq_from n (length l)).
  intros k; induction k as [|x k IH]; cbn [map]; intros H; inversion H; subst; constructor; [|apply IH; assumption].
  rewrite in_map_iff. intros (y & E & Hy). apply rid_inj in E. subst. contradiction.
Qed.
Lemma assoc_entries l : forall n j r, nth_error l j = Some r -> assoc (rid (n + N.of_nat j)) (entries_of n l) = Some r.
Proof.
  induction l as [|x l IH]; intros n j r H; [destruct j; discriminate|].
  unfold entries_of. cbn [number_from map fst snd assoc].
  destruct j as [|j].
  - injection H as ->. replace (n + N.of_nat 0) with n by lia. rewrite str_eqb_refl. reflexivity.
  - destruct (str_eqb_spec (rid (n + N.of_nat (S j))) (rid n)) as [E|_]; [apply rid_inj in E; lia|].
    replace (n + N.of_nat (S j)) with (n + 1 + N.of_nat j) by lia. apply IH, H.
Qed.
Lemma entries_In l n id r : In (id, r) (entries_of n l) -> In r l.
Proof.
  unfold entries_of. rewrite in_map_iff. intros ((k, x) & E & H). cbn [fst snd] in E. injection E as _ <-.
  revert n H. induction l as [|y l IH]; intros n; cbn [number_from In]; [tauto|].
  intros [E|H]; [injection E as _ ->; auto|right; eapply IH, H].
Qed.

(** ** Parts *)
Lemma assoc_In {A} (l : list (str * A)) k v : assoc k l = Some v -> In (k, v) l.
Proof.
  induction l as [|[k' v'] l IH]; cbn [assoc]; [discriminate|].
  destruct (str_eqb_spec k k') as [->|_]; [intros [= ->]; left; reflexivity|intros H; right; auto].
Qed.
Lemma In_assoc {A} (l : list (str * A)) k v : NoDup (map fst l) -> In (k, v) l -> assoc k l = Some v.
Proof.
  induction l as [|[k' v'] l IH]; cbn [assoc map fst In]; [tauto|].
  intros Hn H. inversion Hn as [|x y Hx Hy]; subst.
  destruct H as [E|H].
  - injection E as -> ->. rewrite str_eqb_refl. reflexivity.
  - destruct (str_eqb_spec k k') as [->|_]; [|auto].
    exfalso. apply Hx. apply in_map_iff. exists (k', v). auto.
Qed.

(** ** Association maps *)
Lemma am_get_insert k v m j : am_get j (am_insert k v m) = if str_eqb j k then Some v else am_get j m.
Proof.
  induction m as [|[k' v'] m IH]; cbn [am_insert am_get].
  - destruct (str_eqb j k); reflexivity.
  - destruct (str_eqb_spec k k') as [->|Hne]; cbn [am_get].
    + destruct (str_eqb j k'); reflexivity.
    + rewrite IH. destruct (str_eqb_spec j k') as [->|_]; [|reflexivity].
      destruct (str_eqb_spec k' k) as [->|_]; [congruence|reflexivity].
Qed.
Lemma am_len_insert k v m : am_get k m = None -> am_len (am_insert k v m) = am_len m + 1.
Proof.
  unfold am_len. induction m as [|[k' v'] m IH]; cbn [am_insert am_get]; [reflexivity|].
  destruct (str_eqb k k') eqn:E; [discriminate|]. intros H. cbn [length]. specialize (IH H). lia.
Qed.

(** ** Preparation in one pass *)
Fixpoint prep_from (g : dstate) (q : vstate) (tid : N) (ids : amap) (nx : N) (acc : list img) (l : list psheet) : list prep :=
  match l with
  | [] => []
  | s :: l' =>
      let '(g', d) := prepare_sheet_drawings g (h_linkage (ps_h s)) (ps_u s) in
      let '(q', v) := prepare_sheet_vml q (h_authors (ps_h s)) (ps_u s) in
      let '(tid', ts, tids, trels) := name_tables tid (u_tables (ps_u s)) in
      let '(ids', nx', acc', out) := embed_loop ids nx acc (u_embedded (ps_u s)) in
      {| p_sheet := s; p_d := d; p_v := v; p_t := {| t_tables := ts; t_ids := tids; t_rels := trels |}; p_emb := out |}
      :: prep_from g' q' tid' ids' nx' acc' l'
  end.
Lemma zip_prep_from l : forall g q tid ids nx acc,
  zip_prep l (prepare_drawings_from g l) (prepare_vml_from q l) (prepare_tables_from tid (map ps_u l))
    (snd (embed_sheets ids nx acc (map ps_u l))) = prep_from g q tid ids nx acc l.
Proof.
  induction l as [|s l IH]; intros g q tid ids nx acc; [reflexivity|].
  cbn [map prepare_drawings_from prepare_vml_from prepare_tables_from embed_sheets prep_from].
  destruct (prepare_sheet_drawings g (h_linkage (ps_h s)) (ps_u s)) as [g' d].
  destruct (prepare_sheet_vml q (h_authors (ps_h s)) (ps_u s)) as [q' v].
  destruct (name_tables tid (u_tables (ps_u s))) as [[[tid' ts] tids] trels].
  destruct (embed_loop ids nx acc (u_embedded (ps_u s))) as [[[ids' nx'] acc'] out].
  specialize (IH g' q' tid' ids' nx' acc').
  destruct (embed_sheets ids' nx' acc' (map ps_u l)) as [all rest]. cbn [snd zip_prep] in *.
  f_equal. exact IH.
Qed.
Definition g0 (e : N) : dstate := {| g_chart := 1; g_drawing := 1; g_shape := 1; g_image := e; g_ws := []; g_hf := []; g_bg := [] |}.
Definition q0 : vstate := {| q_comment := 1; q_vml := 1; q_data := 1; q_shape := 1024 |}.
Lemma prepare_eq b emb l : prepare b = (emb, l) ->
  emb = fst (prepare_embedded (map ps_u (w_sheets b))) /\
  l = prep_from (g0 (N.of_nat (length emb))) q0 1 [] 0 [] (w_sheets b).
Proof.
  unfold prepare. destruct (prepare_embedded (map ps_u (w_sheets b))) as [e es] eqn:E.
  intros H. injection H as <- <-. split; [reflexivity|].
  rewrite <- zip_prep_from. unfold prepare_drawings, prepare_vml, prepare_tables.
  fold (g0 (N.of_nat (length e))). fold q0. f_equal. unfold prepare_embedded in E. rewrite E. reflexivity.
Qed.
Lemma prep_from_sheets l : forall g q tid ids nx acc, map p_sheet (prep_from g q tid ids nx acc l) = l.
Proof.
  induction l as [|s l IH]; intros; [reflexivity|]. cbn [prep_from].
  destruct (prepare_sheet_drawings _ _ _) as [g' d].
  destruct (prepare_sheet_vml _ _ _) as [q' v].
  destruct (name_tables _ _) as [[[tid' ts] tids] trels].
  destruct (embed_loop _ _ _ _) as [[[ids' nx'] acc'] out].
  cbn [map p_sheet]. f_equal. apply IH.
Qed.
Lemma prep_from_us l : forall g q tid ids nx acc, map p_u (prep_from g q tid ids nx acc l) = map ps_u l.
Proof.
  intros. rewrite <- (prep_from_sheets l g q tid ids nx acc) at 2. rewrite map_map. reflexivity.
Qed.
