(** Looking up attributes and children of written elements. *)
From Verif Require Import Base Xml_Model Xml_Spec Xml_Proofs Xml_Read Xml_Read_Proofs Xml_Tree Rich_Model Rich_Proofs SheetXml_Spec SheetXml_Proofs SheetXml_Proofs3 Doc_Spec View_Spec.

Lemma lit_inj a : forall b, lit a = lit b -> a = b.
Proof.
  unfold lit. induction a as [|x a IH]; intros [|y b]; try discriminate; [reflexivity|]. cbn [list_ascii_of_string map]. intros H.
  inversion H as [[E1 E2]]. rewrite (IH b E2). apply (f_equal ascii_of_N) in E1. rewrite !ascii_N_embedding in E1. congruence.
Qed.
Lemma str_eqb_lit a b : str_eqb (lit a) (lit b) = String.eqb a b.
Proof.
  destruct (String.eqb a b) eqn:E.
  - apply String.eqb_eq in E. subst. apply str_eqb_refl.
  - destruct (str_eqb (lit a) (lit b)) eqn:F; [|reflexivity]. apply str_eqb_eq, lit_inj in F. subst. rewrite String.eqb_refl in E. discriminate.
Qed.

(** ** Attributes *)
Lemma attr_nil k : attr k [] = None. Proof. reflexivity. Qed.
Lemma attr_cons k j v l : attr k ((lit j, v) :: l) = if String.eqb j k then Some v else attr k l.
Proof. unfold attr. cbn [find fst]. rewrite str_eqb_lit. destruct (String.eqb j k); reflexivity. Qed.
Lemma attr_app k a b : attr k (a ++ b) = match attr k a with Some v => Some v | None => attr k b end.
Proof. unfold attr. induction a as [|x a IH]; [reflexivity|]. cbn [find app]. destruct (str_eqb (fst x) (lit k)); [reflexivity|exact IH]. Qed.
Lemma attr_when k b l : attr k (when b l) = if b then attr k l else None.
Proof. destruct b; reflexivity. Qed.

(** Lists with some of the entries left out. *)
Inductive sub {A} : list A -> list A -> Prop :=
| sub_nil : sub [] []
| sub_keep x a b : sub a b -> sub (x :: a) (x :: b)
| sub_drop x a b : sub a b -> sub a (x :: b).
Lemma sub_refl {A} (l : list A) : sub l l. Proof. induction l; constructor; assumption. Qed.
Lemma sub_none {A} (l : list A) : sub [] l. Proof. induction l; constructor; assumption. Qed.
Lemma sub_app {A} (a b c d : list A) : sub a b -> sub c d -> sub (a ++ c) (b ++ d).
Proof. induction 1; intros; cbn [app]; [assumption|constructor; auto|constructor; auto]. Qed.
Lemma sub_when {A} b (l : list A) : sub (when b l) l.
Proof. destruct b; [apply sub_refl|apply sub_none]. Qed.
Lemma sub_in {A} (a b : list A) x : sub a b -> In x a -> In x b.
Proof. induction 1; intros H'; [destruct H'|destruct H' as [->|H']; [left; reflexivity|right; auto]|right; auto]. Qed.
Lemma sub_map {A B} (f : A -> B) a b : sub a b -> sub (map f a) (map f b).
Proof. induction 1; cbn [map]; constructor; assumption. Qed.
Lemma sub_nodup {A} (a b : list A) : sub a b -> NoDup b -> NoDup a.
Proof.
  induction 1; intros N; [constructor| |]; inversion N; subst; [|auto].
  constructor; [intros Hi; match goal with X : ~ In _ _ |- _ => apply X end; eapply sub_in; eassumption|auto].
Qed.
Lemma sub_attrs a b : sub a b -> attrs_good b -> attrs_good a.
Proof.
  intros S [Nd H]. split; [eapply sub_nodup; [apply sub_map; exact S|exact Nd]|]. intros p Hp. apply H. eapply sub_in; eassumption.
Qed.

(** ** Children *)
Lemma kid_app k a b : kid k (a ++ b) = match kid k a with Some e => Some e | None => kid k b end.
Proof. unfold kid. induction a as [|x a IH]; [reflexivity|]. cbn [find app]. destruct (is_elem k x); [reflexivity|exact IH]. Qed.
Lemma kid_other k l : Forall (fun n => is_elem k n = false) l -> kid k l = None.
Proof. induction 1 as [|x l H F IH]; [reflexivity|]. unfold kid. cbn [find]. rewrite H. exact IH. Qed.
Lemma kid_skip k a b : Forall (fun n => is_elem k n = false) a -> kid k (a ++ b) = kid k b.
Proof. intros H. rewrite kid_app, (kid_other k a H). reflexivity. Qed.
Lemma kid_one k j l kids r : kid k (Elem (lit j) l kids :: r) = if String.eqb j k then Some (Elem (lit j) l kids) else kid k r.
Proof. unfold kid. cbn [find is_elem]. rewrite str_eqb_lit. destruct (String.eqb j k); reflexivity. Qed.

(** The tag of a written element. *)
Definition tag_of (t : wx) : str := match t with WEmpty k _ | WData k _ _ | WElem k _ _ => k end.
Lemma node_name t : elem_name (node_of t) = tag_of t. Proof. destruct t; reflexivity. Qed.
Lemma is_elem_tag k t : is_elem k (node_of t) = str_eqb (tag_of t) (lit k). Proof. destruct t; reflexivity. Qed.
(** All the elements have that tag. *)
Definition tagged (k : string) (l : list wx) : Prop := Forall (fun t => tag_of t = lit k) l.
Lemma tagged_other k j l : tagged j l -> String.eqb j k = false -> Forall (fun n => is_elem k n = false) (map node_of l).
Proof.
  intros H N. apply Forall_forall. intros n Hn. apply in_map_iff in Hn as (t & <- & Ht). unfold tagged in H. rewrite Forall_forall in H.
  rewrite is_elem_tag, (H t Ht), str_eqb_lit. exact N.
Qed.
Lemma kid_tagged k j l r : tagged j l -> String.eqb j k = false -> kid k (map node_of l ++ r) = kid k r.
Proof. intros H N. apply kid_skip, (tagged_other k j); assumption. Qed.
Definition at_most_one (k : string) (l : list wx) : Prop := tagged k l /\ (length l <= 1)%nat.
Lemma amo_nil k : at_most_one k []. Proof. split; [constructor|cbn; lia]. Qed.
Lemma amo_one k t : tag_of t = lit k -> at_most_one k [t]. Proof. intros H. split; [constructor; [exact H|constructor]|cbn; lia]. Qed.
Lemma amo_when k b t : tag_of t = lit k -> at_most_one k (when b [t]). Proof. intros H. destruct b; [apply amo_one; exact H|apply amo_nil]. Qed.

Lemma follows_one many k l os ns : at_most_one k l -> follows many os ns -> follows many (lit k :: os) (map elem_name (map node_of l) ++ ns).
Proof.
  intros [T L] H. destruct l as [|t [|u l]]; [apply follows_skip; exact H| |cbn in L; lia].
  cbn [map app]. rewrite node_name. inversion T as [|? ? E _]; subst. rewrite E. apply follows_once. exact H.
Qed.
Lemma follows_all (many : str -> Prop) k l os ns : many (lit k) -> tagged k l -> follows many os ns -> follows many (lit k :: os) (map elem_name (map node_of l) ++ ns).
Proof.
  intros M T H. induction T as [|t l E T IH]; [apply follows_skip; exact H|]. cbn [map app]. rewrite node_name, E. apply follows_many; assumption.
Qed.

(** ** Reading lists of elements *)
Lemma reads_wxs l : Forall wx_ok l -> reads (flat_map write_wx l) (map node_of l).
Proof. intros H. apply reads_flat_one. intros x Hx. apply write_reads. rewrite Forall_forall in H. auto. Qed.
