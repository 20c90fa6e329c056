(** C44 (password hash) and C49 (worksheet protection). *)
From Verif Require Import Base Ref_Model Ref_Spec Xml_Model Prot_Model Prot_Spec Props_Ref.

Lemma ones_16 : 0xFFFF = N.ones 16. Proof. reflexivity. Qed.
Lemma ones_15 : 0x7FFF = N.ones 15. Proof. reflexivity. Qed.

(** [rotate] on bits. *)
Lemma rotate_bits h j : N.testbit (rotate h) j =
  if j <? 15 then (if j =? 0 then N.testbit h 14 else N.testbit h (j - 1)) else false.
Proof.
  unfold rotate. rewrite N.lor_spec, !N.land_spec, ones_16, ones_15.
  destruct (N.ltb_spec j 15) as [H|H].
  - rewrite !N.ones_spec_low by lia. rewrite !andb_true_r.
    destruct (N.eqb_spec j 0) as [->|Hj].
    + rewrite N.shiftr_spec' , N.shiftl_spec_low by lia. rewrite andb_true_r, orb_false_r. reflexivity.
    + rewrite N.shiftl_spec_high' by lia.
      assert (E : N.testbit 1 j = false) by (change 1 with (N.ones 1); apply N.ones_spec_high; lia).
      rewrite E, andb_false_r. reflexivity.
  - rewrite (N.ones_spec_high 15) by lia. rewrite andb_false_r, orb_false_r.
    assert (E : N.testbit 1 j = false) by (change 1 with (N.ones 1); apply N.ones_spec_high; lia).
    rewrite E, andb_false_r. reflexivity.
Qed.

Lemma rotate_xor a b : rotate (N.lxor a b) = N.lxor (rotate a) (rotate b).
Proof.
  apply N.bits_inj. intros j. rewrite N.lxor_spec, !rotate_bits, !N.lxor_spec.
  destruct (j <? 15); [destruct (j =? 0)|]; reflexivity.
Qed.
Lemma rotate_0 : rotate 0 = 0. Proof. reflexivity. Qed.

Lemma high_bits x n j : x < 2 ^ n -> n <= j -> N.testbit x j = false.
Proof.
  intros H Hj. destruct (N.eq_dec x 0) as [->|Hx]; [apply N.bits_0|].
  apply N.bits_above_log2. apply N.log2_lt_pow2 in H; lia.
Qed.
Lemma rot15_bits k x j : x < 2 ^ 15 -> N.testbit (rot15 k x) j =
  if j <? 15 then N.testbit x ((j + 15 - N.of_nat k mod 15) mod 15) else false.
Proof.
  intros Hx. unfold rot15. cbv zeta.
  assert (Hk : N.of_nat k mod 15 < 15) by (apply N.mod_lt; lia). set (q := N.of_nat k mod 15) in *. clearbody q.
  rewrite N.lor_spec, N.shiftr_spec'.
  destruct (N.ltb_spec j 15) as [H|H].
  - rewrite N.mod_pow2_bits_low by lia.
    destruct (N.lt_ge_cases j q) as [Hq|Hq].
    + rewrite N.shiftl_spec_low by lia. cbn [orb]. f_equal. rewrite N.mod_small; lia.
    + rewrite N.shiftl_spec_high' by lia. rewrite (high_bits x 15 (j + (15 - q))) by lia. rewrite orb_false_r. f_equal.
      replace (j + 15 - q) with ((j - q) + 1 * 15) by lia. rewrite N.mod_add by lia. rewrite N.mod_small; lia.
  - rewrite N.mod_pow2_bits_high by lia. rewrite (high_bits x 15) by lia. reflexivity.
Qed.

Lemma rotate_rot15 k x : x < 2 ^ 15 -> rotate (rot15 k x) = rot15 (S k) x.
Proof.
  intros Hx. apply N.bits_inj. intros j. rewrite rotate_bits, !rot15_bits by assumption.
  destruct (N.ltb_spec j 15) as [H|H]; [|reflexivity].
  assert (Hk : N.of_nat k mod 15 < 15) by (apply N.mod_lt; lia).
  assert (Hs : N.of_nat (S k) mod 15 = (N.of_nat k mod 15 + 1) mod 15).
  { rewrite Nnat.Nat2N.inj_succ, <- N.add_1_r. rewrite N.add_mod by lia. reflexivity. }
  rewrite Hs. set (q := N.of_nat k mod 15) in *. clearbody q. clear - H Hk.
  destruct (N.eqb_spec j 0) as [->|Hj].
  - change (14 <? 15) with true. cbv iota. f_equal. 
    destruct (N.eq_dec q 14) as [->|]; [reflexivity|]. rewrite (N.mod_small (q + 1)) by lia.
    replace (14 + 15 - q) with ((14 - q) + 1 * 15) by lia. rewrite N.mod_add by lia. rewrite !N.mod_small; lia.
  - destruct (N.ltb_spec (j - 1) 15); [|lia]. f_equal.
    destruct (N.eq_dec q 14) as [->|].
    + change ((14 + 1) mod 15) with 0. replace (j + 15 - 0) with (j + 1 * 15) by lia. rewrite N.mod_add by lia. f_equal. lia.
    + rewrite (N.mod_small (q + 1)) by lia. f_equal. lia.
Qed.
Lemma rot15_0 x : x < 2 ^ 15 -> rot15 0 x = x.
Proof.
  intros H. apply N.bits_inj. intros j. rewrite rot15_bits by assumption. change (N.of_nat 0 mod 15) with 0.
  destruct (N.ltb_spec j 15) as [Hj|Hj].
  - f_equal. replace (j + 15 - 0) with (j + 1 * 15) by lia. rewrite N.mod_add by lia. apply N.mod_small. lia.
  - symmetry. apply (high_bits x 15); lia.
Qed.

Lemma rotate_all bs : Forall (fun b => b < 256) bs -> forall i, rotate (xor_rotated i bs) = xor_rotated (S i) bs.
Proof.
  induction 1 as [|b bs Hb Hbs IH]; intros i; [reflexivity|]. cbn [xor_rotated].
  rewrite rotate_xor, IH, rotate_rot15 by (change (2 ^ 15) with 32768; lia). reflexivity.
Qed.
Lemma loop_eq bs : Forall (fun b => b < 256) bs ->
  fold_left (fun hash byte => N.lxor (rotate hash) byte) (rev bs) 0 = xor_rotated 0 bs.
Proof.
  induction 1 as [|b bs Hb Hbs IH]; [reflexivity|]. cbn [rev xor_rotated]. rewrite fold_left_app, IH. cbn [fold_left].
  rewrite rotate_all by assumption. rewrite rot15_0 by (change (2 ^ 15) with 32768; lia). apply N.lxor_comm.
Qed.

Definition scalars (s : str) : Prop := Forall (fun c => is_scalar c = true) s.
Lemma utf8_char_ok c : is_scalar c = true -> Forall (fun b => b < 256) (utf8_char c) /\ N.of_nat (length (utf8_char c)) = utf8_len c.
Proof.
  intros H. unfold is_scalar in H. unfold utf8_char, utf8_len.
  destruct (N.ltb_spec c 0x80); [split; [repeat constructor; lia|reflexivity]|].
  destruct (N.ltb_spec c 0x800); [split; [repeat constructor; lia|reflexivity]|].
  destruct (N.ltb_spec c 0x10000); (split; [repeat constructor; lia|reflexivity]).
Qed.
Lemma bytes_ok s : scalars s -> Forall (fun b => b < 256) (as_bytes s) /\ N.of_nat (length (as_bytes s)) = byte_len s.
Proof.
  induction 1 as [|c s Hc Hs [IH1 IH2]]; [split; [constructor|reflexivity]|].
  cbn [as_bytes flat_map byte_len]. fold (as_bytes s). destruct (utf8_char_ok c Hc) as [A B]. split.
  - apply Forall_app. auto.
  - rewrite app_length, Nnat.Nat2N.inj_add, B, IH2. reflexivity.
Qed.

(** ** C44 *)

(** For every non-empty password, the legacy verifier of its UTF-8 bytes. *)
Theorem C44_legacy_algorithm pw : scalars pw -> pw <> [] -> hash_password pw = legacy_verifier (as_bytes pw).
Proof.
  intros Hs Hn. unfold hash_password, legacy_verifier. destruct pw as [|c pw]; [contradiction|]. cbv zeta.
  destruct (bytes_ok _ Hs) as [A B]. rewrite loop_eq, rotate_all, B by assumption. change (2 ^ 16) with 65536.
  rewrite (N.lxor_comm 0xCE4B). f_equal. apply N.lxor_comm.
Qed.
Print Assumptions C44_legacy_algorithm.
Example C44_example : hash_password (lit "password") = 0x83AF /\ hash_password (lit "") = 0 /\
  legacy_verifier (as_bytes (lit "password")) = 0x83AF.
Proof. vm_compute. auto. Qed.

Lemma rotate_lt h : rotate h < 2 ^ 15.
Proof.
  destruct (N.eq_dec (rotate h) 0) as [->|Hn]; [reflexivity|]. apply N.log2_lt_pow2; [lia|].
  destruct (N.lt_ge_cases (N.log2 (rotate h)) 15) as [|Hge]; [assumption|]. exfalso.
  assert (E := N.bit_log2 (rotate h) Hn). rewrite rotate_bits in E.
  destruct (N.ltb_spec (N.log2 (rotate h)) 15); [lia|discriminate].
Qed.
Lemma lxor_lt a b n : a < 2 ^ n -> b < 2 ^ n -> N.lxor a b < 2 ^ n.
Proof.
  intros Ha Hb. destruct (N.eq_dec (N.lxor a b) 0) as [->|Hn]; [apply N.neq_0_lt_0, N.pow_nonzero; lia|].
  apply N.log2_lt_pow2; [lia|]. destruct (N.lt_ge_cases (N.log2 (N.lxor a b)) n) as [|Hge]; [assumption|]. exfalso.
  assert (E := N.bit_log2 _ Hn). rewrite N.lxor_spec, (high_bits a n), (high_bits b n) in E by assumption. discriminate.
Qed.

(** The verifier always fits the 16-bit attribute. *)
Theorem C44_range pw : hash_password pw < 65536.
Proof.
  unfold hash_password. destruct pw as [|c pw]; [reflexivity|]. cbv zeta. change 65536 with (2 ^ 16) at 2.
  apply lxor_lt; [|reflexivity]. apply lxor_lt; [|apply N.mod_lt; discriminate].
  eapply N.lt_trans; [apply rotate_lt|reflexivity].
Qed.
Print Assumptions C44_range.

(** It is 0 ("no password") exactly for the empty password, for passwords of less
    than 32768 bytes: bit 15 is always set. *)
Theorem C44_zero_partial pw : byte_len pw < 32768 -> (hash_password pw = 0 <-> pw = []).
Proof.
  intros Hl. split; [|intros ->; reflexivity]. destruct pw as [|c pw]; [reflexivity|]. unfold hash_password. cbv zeta. intros E.
  apply (f_equal (fun n => N.testbit n 15)) in E. rewrite !N.lxor_spec in E.
  rewrite (high_bits (rotate _) 15) in E; [|apply rotate_lt|lia].
  rewrite (high_bits (byte_len _ mod 65536) 15) in E; [discriminate|rewrite N.mod_small; [|lia]; exact Hl|lia].
Qed.
Print Assumptions C44_zero_partial.

(** Finding: a longer password can have verifier 0, and is then dropped silently. *)
Definition long_password : str := lit "kaaanaaafaaaeaaa" ++ repeat 97 (N.to_nat 32752).
Theorem C44_long_password_refuted : exists pw, Forall (fun c => 97 <= c /\ c <= 122) pw /\ byte_len pw = 32768 /\ hash_password pw = 0.
Proof.
  assert (H : Forall (fun c => 97 <= c /\ c <= 122) long_password).
  { apply Forall_app. split; [vm_compute; repeat constructor; discriminate|]. apply Forall_forall. intros c H. apply repeat_spec in H. subst c. split; discriminate. }
  exists long_password. split; [exact H|]. split; [vm_compute; reflexivity|].
  assert (E : forall pw, pw <> [] -> hash_password pw =
      N.lxor (N.lxor (rotate (fold_right (fun byte hash => N.lxor (rotate hash) byte) 0 (as_bytes pw))) (byte_len pw mod 65536)) 0xCE4B).
  { clear. intros [|c pw] Hn; [contradiction|]. unfold hash_password. cbv zeta. rewrite <- fold_left_rev_right, rev_involutive. reflexivity. }
  rewrite E by discriminate. vm_compute. reflexivity.
Qed.
Print Assumptions C44_long_password_refuted.

Lemma hex_upper_value d : d < 16 -> hex_value (hex_upper d) = d.
Proof. intros H. unfold hex_value, hex_upper. destruct (N.ltb_spec d 10); [destruct (N.ltb_spec (48 + d) 65)|destruct (N.ltb_spec (55 + d) 65)]; lia. Qed.
Lemma of_hex_hex4 h : h < 65536 -> of_hex (hex4 h) = h.
Proof.
  intros H. unfold of_hex, hex4. cbn [fold_left]. rewrite !hex_upper_value; [|apply N.mod_lt; lia..|apply N.div_lt_upper_bound; lia].
  clear -H. lia.
Qed.

(** ** C49 *)

Lemma prot_run_app m p ops op : prot_run m p (ops ++ [op]) = (q <- prot_run m p ops ;; x <- prot_step m q op ;; Some (fst x)).
Proof.
  revert p. induction ops as [|o ops IH]; intros p; cbn [prot_run app obind].
  - destruct (prot_step m p op) as [x|]; reflexivity.
  - destruct (prot_step m p o) as [x|]; cbn [obind]; [apply IH|reflexivity].
Qed.
Ltac use_fold := rewrite ?fold_left_app; cbn [fold_left].
Lemma prot_fields m ops : forall p, prot_run m prot_new ops = Some p ->
  protection_on p = existsb protects ops /\ protection_hash p = hash_password (last_password ops) /\
  protection_options p = last_options ops.
Proof.
  unfold last_password, last_options. induction ops as [|op ops IH] using rev_ind; intros p H.
  - injection H as <-. cbn. auto.
  - rewrite prot_run_app in H. destruct (prot_run m prot_new ops) as [q|] eqn:E; [|discriminate]. cbn [obind] in H.
    destruct (IH q eq_refl) as (H1 & H2 & H3). rewrite existsb_app. use_fold. cbn [existsb].
    destruct op as [|pw|o|fr fc lr lc nm pw]; cbn [prot_step obind] in H.
    + injection H as <-. cbn. rewrite orb_true_r. auto.
    + injection H as <-. cbn. rewrite orb_true_r. auto.
    + injection H as <-. cbn. rewrite orb_true_r. auto.
    + cbn [protects orb]. rewrite orb_false_r.
      destruct (negb _ || negb _); [injection H as <-; cbn; auto|].
      destruct (_ || _); [injection H as <-; cbn; auto|].
      destruct (cell_range m fr fc lr lc); [|discriminate]. cbn [obind] in H. injection H as <-. cbn. auto.
Qed.

Lemma find_when b n v l x : find (fun a => str_eqb (fst a) (lit x)) (when b n v ++ l) =
  if b && str_eqb (lit n) (lit x) then Some (lit n, lit v) else find (fun a => str_eqb (fst a) (lit x)) l.
Proof. unfold when. destruct b; cbn [app find fst andb]; [destruct (str_eqb (lit n) (lit x))|]; reflexivity. Qed.
Lemma find_when_last b n v x : find (fun a => str_eqb (fst a) (lit x)) (when b n v) =
  if b && str_eqb (lit n) (lit x) then Some (lit n, lit v) else None.
Proof. unfold when. destruct b; cbn [app find fst andb]; [destruct (str_eqb (lit n) (lit x))|]; reflexivity. Qed.
Lemma attr_on_when b n v l x d : attr_on (when b n v ++ l) x d =
  if b && str_eqb (lit n) (lit x) then str_eqb (lit v) (lit "1") else attr_on l x d.
Proof. unfold attr_on. rewrite find_when. destruct (b && str_eqb (lit n) (lit x)); reflexivity. Qed.
Lemma attr_on_last b n v x d : attr_on (when b n v) x d =
  if b && str_eqb (lit n) (lit x) then str_eqb (lit v) (lit "1") else d.
Proof. unfold attr_on. rewrite find_when_last. destruct (b && str_eqb (lit n) (lit x)); reflexivity. Qed.
Lemma password_skip h l x d : str_eqb (lit "password") (lit x) = false ->
  attr_on ((if h =? 0 then [] else [(lit "password", hex4 h)]) ++ l) x d = attr_on l x d.
Proof. intros H. destruct (h =? 0); [reflexivity|]. unfold attr_on. cbn [app find fst]. rewrite H. reflexivity. Qed.

(** After any history of protection calls on a worksheet: the element is written
    iff some protect call was made, it says "sheet", each permission is as in the
    last options given, and the password is the verifier of the last password. *)
Theorem C49_worksheet_protection m ops p : prot_run m prot_new ops = Some p ->
  match fst (write_protection false p) with
  | None => existsb protects ops = false
  | Some attrs => existsb protects ops = true /\ attr_on attrs "sheet" false = true /\
      (forall name default allowed, In (name, default, allowed) worksheet_locks ->
         attr_on attrs name default = negb (allowed (last_options ops))) /\
      option_map of_hex (attr attrs "password") =
        (let h := hash_password (last_password ops) in if h =? 0 then None else Some h)
  end.
Proof.
  intros H. destruct (prot_fields m ops p H) as (H1 & H2 & H3). unfold write_protection. cbn [fst]. rewrite <- H1.
  destruct (protection_on p); [|reflexivity]. split; [reflexivity|]. unfold protection_attributes. rewrite H2, H3.
  assert (Hh := C44_range (last_password ops)). set (h := hash_password _) in *. set (o := last_options ops). clearbody h o. cbv zeta.
  split; [|split].
  - destruct (h =? 0); reflexivity.
  - intros name default allowed HI. cbn in HI.
    repeat (destruct HI as [HI|HI]; [injection HI as <- <- <-; rewrite password_skip by reflexivity; rewrite ?attr_on_when, ?attr_on_last;
      clear; repeat match goal with |- context[str_eqb ?a ?b] => let v := eval vm_compute in (str_eqb a b) in change (str_eqb a b) with v end;
      rewrite ?andb_false_r, ?andb_true_r; cbv iota; match goal with |- _ = negb (?f o) => destruct (f o); reflexivity end|]).
    contradiction.
  - destruct (N.eqb_spec h 0) as [->|Hn].
    + cbn [app]. unfold attr. rewrite ?find_when, ?find_when_last. rewrite !andb_false_r. reflexivity.
    + unfold attr. cbn [app find fst]. change (str_eqb (lit "password") (lit "password")) with true. cbn [option_map snd].
      rewrite of_hex_hex4 by exact Hh. reflexivity.
Qed.
Print Assumptions C49_worksheet_protection.

(** Chartsheets: the object permission and "contents" are written inverted. *)
Theorem C49_chartsheet_refuted : exists ops p attrs, prot_run Debug prot_new ops = Some p /\
  fst (write_protection true p) = Some attrs /\ edit_objects (last_options ops) = true /\ attr_on attrs "objects" false = true /\
  contents (last_options ops) = true /\ attr_on attrs "content" false = true.
Proof.
  eexists [ProtectOptions {| select_locked_cells := true; select_unlocked_cells := true;
     format_cells := false; format_columns := false; format_rows := false;
     insert_columns := false; insert_rows := false; insert_links := false;
     delete_columns := false; delete_rows := false; sort := false;
     use_autofilter := false; use_pivot_tables := false;
     edit_scenarios := false; edit_objects := true; contents := true |}], _, _.
  repeat split; reflexivity.
Qed.
Print Assumptions C49_chartsheet_refuted.

(** Unprotected ranges: exactly the accepted calls, in order, each with its cells,
    its name (or a numbered default) and the verifier of its password; rejected
    calls change nothing. *)
Definition range_written (k : nat) (op : prot_op) (attrs : list (str * str)) : Prop :=
  match op with
  | Unprotect fr fc lr lc name pw =>
      (exists t, attr attrs "sqref" = Some t /\
         parse_range t = Some ({| a1_row := fr; a1_col := fc; a1_absrow := false; a1_abscol := false |},
                               {| a1_row := lr; a1_col := lc; a1_absrow := false; a1_abscol := false |})) /\
      attr attrs "name" = Some (match name with [] => lit "Range" ++ dec (N.of_nat k + 1) | _ => name end) /\
      option_map of_hex (attr attrs "password") = (let h := hash_password pw in if h =? 0 then None else Some h)
  | _ => False
  end.
Theorem C49_unprotected_ranges m ops : exists p, prot_run m prot_new ops = Some p /\
  forall chart, let written := snd (write_protection chart p) in let asked := filter good_range ops in
    length written = length asked /\
    forall k op attrs, nth_error asked k = Some op -> nth_error written k = Some attrs -> range_written k op attrs.
Proof.
  induction ops as [|op ops IH] using rev_ind.
  - exists prot_new. split; [reflexivity|]. intros chart. split; [reflexivity|]. intros [|k] ? ?; discriminate.
  - destruct IH as (p & Hp & IH). rewrite prot_run_app, Hp. cbn [obind]. rewrite filter_app. cbn [filter].
    destruct op as [|pw|o|fr fc lr lc nm pw]; cbn [prot_step good_range obind fst].
    1-3: eexists; split; [reflexivity|]; intros chart; rewrite app_nil_r; exact (IH chart).
    assert (Hg : (fr <=? lr) && (fc <=? lc) && (lr <? 1048576) && (lc <? 16384) =
      negb (negb ((fr <? 1048576) && (fc <? 16384)) || negb ((lr <? 1048576) && (lc <? 16384))) && negb ((lr <? fr) || (lc <? fc))).
    { clear. destruct (N.leb_spec fr lr), (N.leb_spec fc lc), (N.ltb_spec lr 1048576), (N.ltb_spec lc 16384), (N.ltb_spec fr 1048576),
        (N.ltb_spec fc 16384), (N.ltb_spec lr fr), (N.ltb_spec lc fc); cbn; try reflexivity; exfalso; lia. }
    rewrite Hg.
    destruct (negb ((fr <? 1048576) && (fc <? 16384)) || negb ((lr <? 1048576) && (lc <? 16384))) eqn:E1.
    { cbn [negb andb]. eexists. split; [reflexivity|]. intros chart. rewrite app_nil_r. exact (IH chart). }
    destruct ((lr <? fr) || (lc <? fc)) eqn:E2.
    { cbn [negb andb]. eexists. split; [reflexivity|]. intros chart. rewrite app_nil_r. exact (IH chart). }
    cbn [negb andb].
    apply orb_false_iff in E1 as [A B]. rewrite negb_false_iff, andb_true_iff, !N.ltb_lt in A, B.
    destruct (C03_cell_range_roundtrip m fr fc lr lc) as (t & Ht & Hpt & _); [change (2^32 - 1) with 4294967295; lia..|].
    rewrite Ht. cbn [obind]. eexists. split; [reflexivity|]. intros chart. destruct (IH chart) as [HL HK]. unfold write_protection in *.
    cbn [snd fst unprotected_ranges] in *. rewrite map_app. cbv zeta in *. split; [rewrite !app_length, HL; reflexivity|].
    intros k op attrs H1 H2. rewrite map_length in HL.
    destruct (Nat.lt_ge_cases k (length (filter good_range ops))) as [Hk|Hk].
    + rewrite nth_error_app1 in H1 by lia. rewrite nth_error_app1 in H2 by (rewrite map_length; lia). eapply HK; eassumption.
    + rewrite nth_error_app2 in H1 by lia. rewrite nth_error_app2 in H2 by (rewrite map_length; lia). rewrite map_length, HL in H2.
      assert (k = length (filter good_range ops)).
      { assert (X : (k - length (filter good_range ops) < 1)%nat); [|lia]. apply (nth_error_Some [Unprotect fr fc lr lc nm pw]). congruence. }
      subst k. rewrite Nat.sub_diag in H1, H2. cbn [nth_error map] in H1, H2. injection H1 as <-.
      match type of H2 with Some ?x = Some ?y => assert (E : x = y) by congruence end. subst attrs. clear H2.
      cbn [range_written]. assert (Hh := C44_range pw). set (h := hash_password pw) in *. clearbody h. cbv zeta.
      split; [|split].
      * exists t. split; [destruct (h =? 0); reflexivity|exact Hpt].
      * rewrite N.add_comm. destruct (h =? 0), nm; reflexivity.
      * destruct (N.eqb_spec h 0) as [->|]; [reflexivity|]. unfold attr. cbn [app find fst].
        change (str_eqb (lit "password") (lit "password")) with true. cbn [option_map snd]. rewrite of_hex_hex4 by exact Hh. reflexivity.
Qed.
Print Assumptions C49_unprotected_ranges.

Example C49_example : option_map (write_protection false)
   (prot_run Release prot_new [Unprotect 0 0 3 1 [] (lit "x"); Unprotect 5 0 3 1 [] []; ProtectPassword (lit "password"); Unprotect 9 9 9 9 [] []]) =
  Some (Some [(lit "password", lit "83AF"); (lit "sheet", lit "1"); (lit "objects", lit "1"); (lit "scenarios", lit "1")],
        [[(lit "password", lit "CEBA"); (lit "sqref", lit "A1:B4"); (lit "name", lit "Range1")];
         [(lit "sqref", lit "J10"); (lit "name", lit "Range2")]]).
Proof. vm_compute. reflexivity. Qed.
