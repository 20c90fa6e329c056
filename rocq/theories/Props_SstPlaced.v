(** Property C99: strings placed in the shared string table beforehand. *)
From Coq Require Import Lia.
From Verif Require Import Base SortLib Xml_Model Sst_Model Sst_Proofs Sst_Populate.

(** The places are good: those of the calls that count (the first call for each
    string) are 0, 1, ..., n-1 in some order. *)
Definition places_fit (calls : list (str * N)) : Prop :=
  let places := map snd (first_each [] calls) in Permutation places (map N.of_nat (seq 0 (length places))).

(** If they are, then after any such calls and any writes, in any order of the hash
    map: every cell's index is the place of its string in sharedStrings.xml; the
    strings written are those placed and those written to cells, each once; the
    counters are the number of strings and of cells. *)
Theorem C99_placed_strings calls keys t is entries : places_fit calls ->
  sst_run (populate_all sst_new calls) keys = (t, is) -> Permutation entries (strings t) ->
  Forall2 (fun k i => nth_error (written_order entries) (N.to_nat i) = Some k) keys is /\
  NoDup (written_order entries) /\
  (forall k, In k (written_order entries) <-> In k (map fst calls) \/ In k keys) /\
  unique_count t = N.of_nat (length (written_order entries)) /\ count t = N.of_nat (length keys).
Proof.
  unfold places_fit. cbv zeta. rewrite map_length. intros P R HP. destruct (start_inv calls P) as (l & I & Hin).
  destruct (run_inv _ _ _ _ _ I R) as (l' & I' & _ & C & F & Hin').
  rewrite (order_inv _ _ _ I' HP). split; [exact F|]. split; [apply I'|]. split; [intros k; rewrite Hin', Hin; reflexivity|].
  split; [apply I'|]. rewrite C. destruct (populated calls) as (_ & _ & ->). lia.
Qed.
Print Assumptions C99_placed_strings.

(** A string that was placed gets the place asked for. *)
Theorem C99_place_kept calls keys t is k i n : places_fit calls ->
  sst_run (populate_all sst_new calls) keys = (t, is) -> In (k, i) (first_each [] calls) -> nth_error keys n = Some k -> nth_error is n = Some i.
Proof.
  intros _ R Hin. destruct (populated calls) as (A & _ & _). destruct (first_each_nodup calls []) as [Nd _].
  assert (Fk : find_str k (strings (populate_all sst_new calls)) = Some i).
  { apply find_nodup; [rewrite A, map_rev; apply NoDup_rev; exact Nd|rewrite A; apply -> in_rev; exact Hin]. }
  clear A Nd Hin. revert n R Fk. generalize (populate_all sst_new calls) as t0. revert t is.
  induction keys as [|x keys IH]; intros t is t0 n R Fk H; [destruct n; discriminate|]. cbn [sst_run] in R.
  destruct (shared_string_index t0 x) as [t1 j] eqn:E1. destruct (sst_run t1 keys) as [t2 is2] eqn:E2. injection R as <- <-.
  destruct n as [|n]; cbn [nth_error] in *.
  - injection H as ->. unfold shared_string_index in E1. rewrite Fk in E1. congruence.
  - apply (IH t2 is2 t1 n E2); [|exact H]. unfold shared_string_index in E1. destruct (find_str x (strings t0)) eqn:Ex; injection E1 as <- <-; [exact Fk|].
    cbn [strings find_str]. destruct (str_eqb_spec x k) as [->|_]; [congruence|exact Fk].
Qed.
Print Assumptions C99_place_kept.

(** And only then: otherwise there are cells that show another string than was
    written, or none. *)
Theorem C99_only_then calls :
  (forall keys t is, sst_run (populate_all sst_new calls) keys = (t, is) ->
     Forall2 (fun k i => nth_error (written_order (strings t)) (N.to_nat i) = Some k) keys is) -> places_fit calls.
Proof.
  intros H. destruct (populated calls) as (A & _ & _). destruct (first_each_nodup calls []) as [Nd _]. set (E := first_each [] calls) in *.
  destruct (run_known E (populate_all sst_new calls)) as (t' & R & S).
  - rewrite A, map_rev. apply NoDup_rev. exact Nd.
  - intros p Hp. rewrite A. apply -> in_rev. exact Hp.
  - specialize (H _ _ _ R). unfold places_fit. cbv zeta. fold E. rewrite map_length. apply (right_places (written_order (strings t')) E Nd); [|exact H].
    unfold written_order. rewrite map_length, (Permutation_length (sort_by_perm snd (strings t'))), S, A, rev_length. reflexivity.
Qed.
Print Assumptions C99_only_then.

(** One string placed at 1 and nothing at 0: the cell points behind the table. *)
Theorem C99_gap_refuted : exists t is, sst_run (populate_all sst_new [(lit "a", 1)]) [lit "a"] = (t, is) /\ is = [1] /\ written_order (strings t) = [lit "a"].
Proof. do 2 eexists. vm_compute. repeat split. Qed.
(** Strings placed at 0 and 3, and a new string: the new cell points at the string of the other. *)
Theorem C99_twice_refuted : exists t is, sst_run (populate_all sst_new [(lit "a", 0); (lit "b", 3)]) [lit "c"; lit "b"] = (t, is) /\ is = [2; 3] /\ written_order (strings t) = [lit "a"; lit "c"; lit "b"].
Proof. do 2 eexists. vm_compute. repeat split. Qed.
Example C99_meets : places_fit [(lit "b", 1); (lit "a", 0); (lit "b", 7)] /\
  exists t, sst_run (populate_all sst_new [(lit "b", 1); (lit "a", 0); (lit "b", 7)]) [lit "c"; lit "b"; lit "a"; lit "c"] = (t, [2; 1; 0; 2]) /\
    written_order (strings t) = [lit "a"; lit "b"; lit "c"] /\ count t = 4 /\ unique_count t = 3.
Proof. split; [unfold places_fit; cbn; constructor 3|]. eexists. vm_compute. repeat split. Qed.
