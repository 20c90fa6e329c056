(** Numbering of images: each hash gets one number, the place of its first image. *)
From Verif Require Import Base F64 Xml_Model Fmt_Model Cells_Model Pkg_Model Pkg_Proofs Embed_Model.

Definition same (h : str) (x : image) : bool := str_eqb (i_hash x) h.
Fixpoint pos (h : str) (l : list image) : option nat :=
  match l with [] => None | x :: r => if same h x then Some O else option_map S (pos h r) end.
Lemma pos_app h a b : pos h (a ++ b) = match pos h a with Some n => Some n | None => option_map (fun n => (length a + n)%nat) (pos h b) end.
Proof.
  induction a as [|x a IH]; cbn [app pos length]; [destruct (pos h b); reflexivity|]. destruct (same h x); [reflexivity|]. rewrite IH.
  destruct (pos h a); [reflexivity|]. destruct (pos h b); reflexivity.
Qed.
Lemma pos_find h l : forall n, pos h l = Some n -> find (same h) l = nth_error l n /\ (n < length l)%nat.
Proof.
  induction l as [|x l IH]; intros n; [discriminate|]. cbn [pos find length]. destruct (same h x) eqn:E; [intros [= <-]; split; [reflexivity|lia]|].
  destruct (pos h l) as [k|]; [|discriminate]. cbn [option_map]. intros [= <-]. destruct (IH k eq_refl). split; [assumption|lia].
Qed.
Lemma pos_none h l : pos h l = None <-> find (same h) l = None.
Proof.
  induction l as [|x l IH]; [tauto|]. cbn [pos find]. destruct (same h x); [split; discriminate|]. destruct (pos h l); cbn [option_map]; [split; [discriminate|]|tauto].
  intros H. apply IH in H. discriminate.
Qed.
Lemma pos_same h l n x : pos h l = Some n -> nth_error l n = Some x -> i_hash x = h.
Proof.
  intros P Q. destruct (pos_find _ _ _ P) as [F _]. rewrite Q in F. apply find_some in F as [_ F]. apply str_eqb_eq in F. exact F.
Qed.
Lemma find_app {A} (f : A -> bool) a b : find f (a ++ b) = match find f a with Some x => Some x | None => find f b end.
Proof. induction a as [|x a IH]; [reflexivity|]. cbn [app find]. destruct (f x); [reflexivity|exact IH]. Qed.

(** ids holds the place of the first image of each hash, counted from [base]. *)
Definition indexed (base : N) (ids : amap) (acc : list image) : Prop :=
  forall h, am_get h ids = option_map (fun n => base + N.of_nat n) (pos h acc).
Lemma indexed_nil base : indexed base [] []. Proof. intros h. reflexivity. Qed.
Lemma indexed_add base ids acc x : indexed base ids acc -> am_get (i_hash x) ids = None ->
  indexed base (am_insert (i_hash x) (base + N.of_nat (length acc)) ids) (acc ++ [x]).
Proof.
  intros I G h. rewrite am_get_insert, pos_app. cbn [pos]. unfold same. destruct (str_eqb_spec h (i_hash x)) as [->|Ne].
  - rewrite I in G. destruct (pos (i_hash x) acc); [discriminate|]. rewrite str_eqb_refl. cbn [option_map]. rewrite Nat.add_0_r. reflexivity.
  - rewrite I. destruct (pos h acc); [reflexivity|]. destruct (str_eqb_spec (i_hash x) h); [congruence|]. reflexivity.
Qed.

Definition numbered_as (all : list image) (x : image) (k : N) : Prop :=
  exists n, pos (i_hash x) all = Some n /\ k = 1 + N.of_nat n.
Lemma numbered_more all d x k : numbered_as all x k -> numbered_as (all ++ d) x k.
Proof. intros (n & P & E). exists n. split; [rewrite pos_app, P; reflexivity|exact E]. Qed.
Lemma number_images_ok l : forall ids acc ids' acc' ks, indexed 1 ids acc -> number_images ids acc l = (ids', acc', ks) ->
  indexed 1 ids' acc' /\ (exists d, acc' = acc ++ d) /\ Forall2 (numbered_as acc') l ks /\ forall h, find (same h) acc' = find (same h) (acc ++ l).
Proof.
  induction l as [|x l IH]; intros ids acc ids' acc' ks I E; cbn [number_images] in E.
  - assert (H : (ids', acc', ks) = (ids, acc, [])) by congruence. apply pair_equal_spec in H as [H ->]. apply pair_equal_spec in H as [-> ->].
    split; [exact I|]. split; [exists []; rewrite app_nil_r; reflexivity|]. split; [constructor|]. intros h. rewrite app_nil_r. reflexivity.
  - destruct (am_get (i_hash x) ids) as [k|] eqn:G.
    + destruct (number_images ids acc l) as [[i1 a1] k1] eqn:E1. assert (H : (ids', acc', ks) = (i1, a1, k :: k1)) by congruence.
      apply pair_equal_spec in H as [H ->]. apply pair_equal_spec in H as [-> ->]. destruct (IH _ _ _ _ _ I E1) as (A & (d & ->) & C & D).
      rewrite I in G. destruct (pos (i_hash x) acc) as [n|] eqn:P; [|discriminate]. cbn [option_map] in G.
      split; [exact A|]. split; [exists d; reflexivity|]. split.
      * constructor; [|exact C]. apply numbered_more. exists n. split; [exact P|congruence].
      * intros h. rewrite D, !find_app. destruct (find (same h) acc) eqn:F; [reflexivity|]. cbn [find]. destruct (same h x) eqn:S; [|reflexivity].
        apply str_eqb_eq in S. subst h. apply pos_none in F. congruence.
    + cbv zeta in E. rewrite N.add_comm in E. destruct (number_images (am_insert (i_hash x) (1 + N.of_nat (length acc)) ids) (acc ++ [x]) l) as [[i1 a1] k1] eqn:E1.
      assert (H : (ids', acc', ks) = (i1, a1, 1 + N.of_nat (length acc) :: k1)) by congruence.
      apply pair_equal_spec in H as [H ->]. apply pair_equal_spec in H as [-> ->].
      destruct (IH _ _ _ _ _ (indexed_add 1 ids acc x I G) E1) as (A & (d & ->) & C & D).
      split; [exact A|]. split; [exists ([x] ++ d); rewrite app_assoc; reflexivity|]. split.
      * constructor; [|exact C]. apply numbered_more. exists (length acc). split; [|reflexivity]. rewrite pos_app. rewrite I in G.
        destruct (pos (i_hash x) acc); [discriminate|]. cbn [pos]. unfold same. rewrite str_eqb_refl. cbn [option_map]. f_equal. lia.
      * intros h. rewrite D, <- app_assoc. reflexivity.
Qed.
Lemma number_sheets_ok l : forall ids acc all ks, indexed 1 ids acc -> number_sheets ids acc l = (all, ks) ->
  (exists d, all = acc ++ d) /\ Forall2 (fun s k => Forall2 (numbered_as all) (e_images s) k) l ks /\
  forall h, find (same h) all = find (same h) (acc ++ flat_map e_images l).
Proof.
  induction l as [|s l IH]; intros ids acc all ks I E; cbn [number_sheets] in E.
  - apply pair_equal_spec in E as [<- <-]. split; [exists []; rewrite app_nil_r; reflexivity|]. split; [constructor|]. intros h. cbn [flat_map]. rewrite app_nil_r. reflexivity.
  - destruct (number_images ids acc (e_images s)) as [[i1 a1] k1] eqn:E1. destruct (number_sheets i1 a1 l) as [a2 r2] eqn:E2.
    apply pair_equal_spec in E as [<- <-]. destruct (number_images_ok _ _ _ _ _ _ I E1) as (A & (d & ->) & C & D).
    destruct (IH _ _ _ _ A E2) as ((d2 & ->) & F & G). split; [exists (d ++ d2); rewrite app_assoc; reflexivity|]. split.
    + constructor; [|exact F]. clear - C. induction C; constructor; [apply numbered_more; assumption|assumption].
    + intros h. rewrite G. cbn [flat_map]. rewrite app_assoc, (find_app _ (acc ++ d)), D, (find_app _ (acc ++ e_images s)). reflexivity.
Qed.
Lemma images_numbered sheets all ks : prepare_images sheets = (all, ks) ->
  Forall2 (fun s k => Forall2 (numbered_as all) (e_images s) k) sheets ks /\ forall h, find (same h) all = find (same h) (flat_map e_images sheets).
Proof. intros E. destruct (number_sheets_ok _ _ _ _ _ (indexed_nil 1) E) as (_ & A & B). split; assumption. Qed.
