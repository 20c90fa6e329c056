(** Property theorems C10 (shared string table). *)
From Verif Require Import Base SortLib Xml_Model Sst_Model Sst_Proofs.

(** C10: for any history of string writes and any HashMap iteration order, the
    index handed to each write is the position of its string in
    sharedStrings.xml, the entries written are exactly the distinct strings, and
    the two counters are the number of entries and of references. *)
Theorem C10_indices_are_positions : forall keys t is, sst_run sst_new keys = (t, is) ->
  forall entries, Permutation entries (strings t) ->
    Forall2 (fun k i => nth_error (written_order entries) (N.to_nat i) = Some k) keys is /\
    NoDup (written_order entries) /\
    (forall k, In k (written_order entries) <-> In k keys) /\
    unique_count t = N.of_nat (length (written_order entries)) /\
    count t = N.of_nat (length keys).
Proof. exact sst_history. Qed.
Print Assumptions C10_indices_are_positions.

Theorem C10_equal_strings_share_index : forall keys t is, sst_run sst_new keys = (t, is) ->
  forall n m k k' i j, nth_error keys n = Some k -> nth_error keys m = Some k' ->
    nth_error is n = Some i -> nth_error is m = Some j -> (k = k' <-> i = j).
Proof. exact sst_index_injective. Qed.
Print Assumptions C10_equal_strings_share_index.

Theorem C10_indices_never_change : forall keys later k t is t' is',
  sst_run sst_new keys = (t, is) -> sst_run sst_new (keys ++ later) = (t', is') ->
  In k keys -> find_str k (strings t) <> None /\ firstn (length keys) is' = is.
Proof. exact sst_index_stable. Qed.
Print Assumptions C10_indices_never_change.

Example C10_example :
  let keys := [lit "b"; lit "a"; lit "b"; lit "c"; lit "a"] in
  let '(t, is) := sst_run sst_new keys in
  is = [0; 1; 0; 2; 1] /\ written_order (strings t) = [lit "b"; lit "a"; lit "c"] /\
  unique_count t = 3 /\ count t = 5.
Proof. vm_compute. auto. Qed.
