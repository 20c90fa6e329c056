(** Model and proofs: ExcelDateTime::parse_from_str. *)
From Verif Require Import Base F64 Date_Model Date_Spec Date_Proofs Date_Proofs2.

(** [char::is_whitespace]: the Unicode White_Space set. *)
Definition is_whitespace (c : char) : bool :=
  ((9 <=? c) && (c <=? 13)) || (c =? 32) || (c =? 0x85) || (c =? 0xA0) || (c =? 0x1680)
  || ((0x2000 <=? c) && (c <=? 0x200A)) || (c =? 0x2028) || (c =? 0x2029) || (c =? 0x202F)
  || (c =? 0x205F) || (c =? 0x3000).
Fixpoint trim_start (s : str) : str :=
  match s with [] => [] | c :: r => if is_whitespace c then trim_start r else s end.
(** [str::trim] *)
Definition trim (s : str) : str := rev (trim_start (rev (trim_start s))).

(** [str::split] on a set of characters: always at least one piece. *)
Fixpoint split_on (sep : char -> bool) (s : str) : list str :=
  match s with
  | [] => [[]]
  | c :: r => if sep c then [] :: split_on sep r
              else match split_on sep r with
                   | [] => [[c]]
                   | p :: ps => (c :: p) :: ps
                   end
  end.

(** [parse::<uN>()] for an unsigned type of [w] bits: optional '+', then at
    least one ASCII digit and nothing else, value below 2^w. *)
Definition parse_uint (w : N) (s : str) : option N :=
  let ds := match s with 43 :: r => r | _ => s end in
  match ds with
  | [] => None
  | _ => if forallb is_ascii_digit ds && (undec ds <? 2 ^ w) then Some (undec ds) else None
  end.
Definition or0 (o : option N) : N := match o with Some v => v | None => 0 end.

Definition date_sep (c : char) : bool :=
  (c =? 45) || (c =? 84) || (c =? 90) || (c =? 32) || (c =? 58).   (* - T Z space : *)

(** src/datetime.rs:245-305.  [parse_f64] is [str::parse::<f64>]. *)
Definition parse_from_str (parse_f64 : str -> option f64) (s : str) : option (dtres exceldt) :=
  let parts := split_on date_sep (trim s) in
  let uint w i := match nth_error parts i with Some t => or0 (parse_uint w t) | None => 0 end in
  let flt_ i := match nth_error parts i with
                | Some t => match parse_f64 t with Some v => v | None => fzero end
                | None => fzero end in
  if has_char 45 s then
    d <- from_ymd (uint 16 0%nat) (uint 8 1%nat) (uint 8 2%nat) ;;
    Some match d with
         | Err e => Err e
         | Ok dt => and_hms dt (uint 16 3%nat) (uint 8 4%nat) (flt_ 5%nat)
         end
  else if has_char 58 s then
    Some (from_hms (uint 16 0%nat) (uint 8 1%nat) (flt_ 2%nat))
  else Some (Err DateTimeParseError).

Lemma parse_uint_digits w s : all_digits s -> undec s < 2 ^ w -> parse_uint w s = Some (undec s).
Proof.
  intros [Hne Hd] Hv. unfold parse_uint. destruct s as [|c r]; [congruence|].
  assert (E : match c :: r with 43 :: r0 => r0 | _ => c :: r end = c :: r).
  { cbn [forallb] in Hd. unfold is_ascii_digit in Hd. destruct (N.eq_dec c 43) as [->|Hc]; [cbn in Hd; discriminate|].
    destruct c as [|p]; [reflexivity|]. do 6 (destruct p; try reflexivity). lia. }
  rewrite E, Hd. cbn [andb]. replace (undec (c :: r) <? 2 ^ w) with true; [reflexivity|]. symmetry. apply N.ltb_lt. exact Hv.
Qed.

Lemma split_on_app sep a c b : forallb (fun x => negb (sep x)) a = true -> sep c = true ->
  split_on sep (a ++ c :: b) = a :: split_on sep b.
Proof.
  intros Ha Hc. induction a as [|x a IH]; cbn [app split_on]; [rewrite Hc; reflexivity|].
  cbn [forallb] in Ha. apply andb_true_iff in Ha as [Hx Ha]. rewrite IH by assumption.
  destruct (sep x); [discriminate|reflexivity].
Qed.
Lemma split_on_none sep a : forallb (fun x => negb (sep x)) a = true -> split_on sep a = [a].
Proof.
  induction a as [|x a IH]; cbn [split_on forallb]; [reflexivity|]. intros H. apply andb_true_iff in H as [Hx Ha].
  rewrite IH by assumption. destruct (sep x); [discriminate|reflexivity].
Qed.
Lemma digits_no_sep s : all_digits s -> no_sep s.
Proof.
  intros [_ H]. unfold no_sep. rewrite forallb_forall in *. intros x Hx. specialize (H x Hx).
  unfold is_ascii_digit, date_sep in *. lia.
Qed.

(** Texts that do not begin or end with white space are left alone by trim. *)
Lemma trim_id s : (forall c r, s = c :: r -> is_whitespace c = false) ->
  (forall c r, s = r ++ [c] -> is_whitespace c = false) -> trim s = s.
Proof.
  intros H1 H2. unfold trim. assert (E1 : trim_start s = s).
  { destruct s as [|c r]; [reflexivity|]. cbn. rewrite (H1 c r eq_refl). reflexivity. }
  rewrite E1. assert (E2 : trim_start (rev s) = rev s).
  { destruct (rev s) as [|c r] eqn:E; [reflexivity|]. cbn. rewrite (H2 c (rev r)); [reflexivity|].
    rewrite <- (rev_involutive s), E. reflexivity. }
  rewrite E2. apply rev_involutive.
Qed.

Lemma digits_hd s c r : all_digits s -> forall t, s ++ t = c :: r -> is_whitespace c = false.
Proof.
  intros [Hne Hd] t E. destruct s as [|x s]; [congruence|]. cbn [app] in E. injection E as -> _.
  cbn [forallb] in Hd. apply andb_true_iff in Hd as [Hd _]. unfold is_ascii_digit, is_whitespace in *. lia.
Qed.
Lemma digits_last s c r : all_digits s -> forall t, t ++ s = r ++ [c] -> is_whitespace c = false.
Proof.
  intros [Hne Hd] t E. destruct (exists_last Hne) as (s' & x & ->). rewrite app_assoc in E.
  apply app_inj_tail in E as [_ <-]. rewrite forallb_app in Hd. apply andb_true_iff in Hd as [_ Hd].
  cbn [forallb] in Hd. unfold is_ascii_digit, is_whitespace in *. lia.
Qed.
Lemma has_char_app c a b : has_char c (a ++ b) = has_char c a || has_char c b.
Proof. apply existsb_app. Qed.

(** "Y-M-D" *)
Lemma parse_date pf ty tm td : all_digits ty -> all_digits tm -> all_digits td ->
  undec ty < 65536 -> undec tm < 256 -> undec td < 256 ->
  parse_from_str pf (ty ++ 45 :: tm ++ 45 :: td) = from_ymd (undec ty) (undec tm) (undec td) \/
  exists dt, from_ymd (undec ty) (undec tm) (undec td) = Some (Ok dt) /\
    parse_from_str pf (ty ++ 45 :: tm ++ 45 :: td) = Some (and_hms dt 0 0 fzero).
Proof.
  intros Hy Hm Hd By Bm Bd. unfold parse_from_str.
  rewrite trim_id; [|intros c r E; exact (digits_hd ty c r Hy _ E)|
    intros c r E; eapply (digits_last td c r Hd (ty ++ 45 :: tm ++ [45])); rewrite <- E; repeat (rewrite <- app_assoc; cbn [app]); reflexivity].
  rewrite split_on_app by (try reflexivity; apply digits_no_sep; assumption).
  rewrite split_on_app by (try reflexivity; apply digits_no_sep; assumption).
  rewrite split_on_none by (apply digits_no_sep; assumption). cbn [nth_error].
  rewrite has_char_app. cbn [has_char existsb N.eqb Pos.eqb orb]. rewrite orb_true_r.
  rewrite !parse_uint_digits by assumption. cbn [or0].
  destruct (from_ymd (undec ty) (undec tm) (undec td)) as [[dt|e]|] eqn:E; cbn [obind]; [right; eauto|left; reflexivity|left; reflexivity].
Qed.

(** "Y-M-D<sep>H:M:S" with sep a space or T, and an optional final Z. *)
Lemma parse_datetime pf ty tm td sp th ti ts z dt s :
  all_digits ty -> all_digits tm -> all_digits td -> all_digits th -> all_digits ti -> no_sep ts ->
  undec ty < 65536 -> undec tm < 256 -> undec td < 256 -> undec th < 65536 -> undec ti < 256 ->
  sp = 32 \/ sp = 84 -> z = [90] \/ (z = [] /\ ts <> [] /\ forallb (fun c => negb (is_whitespace c)) ts = true) ->
  pf ts = Some s -> from_ymd (undec ty) (undec tm) (undec td) = Some (Ok dt) ->
  parse_from_str pf (ty ++ 45 :: tm ++ 45 :: td ++ sp :: th ++ 58 :: ti ++ 58 :: ts ++ z) =
    Some (and_hms dt (undec th) (undec ti) s).
Proof.
  intros Hy Hm Hd Hh Hi Hs By Bm Bd Bh Bi Hsp Hz Hpf Hymd. unfold parse_from_str.
  rewrite trim_id; [|intros c r E; exact (digits_hd ty c r Hy _ E)|].
  2:{ intros c r E. destruct Hz as [->|(-> & Hne & Hw)].
      - replace (ty ++ 45 :: tm ++ 45 :: td ++ sp :: th ++ 58 :: ti ++ 58 :: ts ++ [90])
          with ((ty ++ 45 :: tm ++ 45 :: td ++ sp :: th ++ 58 :: ti ++ 58 :: ts) ++ [90]) in E
          by (repeat (rewrite <- app_assoc; cbn [app]); reflexivity).
        apply app_inj_tail in E as [_ <-]. reflexivity.
      - rewrite app_nil_r in E. destruct (exists_last Hne) as (l & x & ->).
        replace (ty ++ 45 :: tm ++ 45 :: td ++ sp :: th ++ 58 :: ti ++ 58 :: l ++ [x])
          with ((ty ++ 45 :: tm ++ 45 :: td ++ sp :: th ++ 58 :: ti ++ 58 :: l) ++ [x]) in E
          by (repeat (rewrite <- app_assoc; cbn [app]); reflexivity).
        apply app_inj_tail in E as [_ <-]. rewrite forallb_app in Hw. apply andb_true_iff in Hw as [_ Hw]. cbn [forallb] in Hw.
        destruct (is_whitespace x); [discriminate|reflexivity]. }
  assert (Hsps : date_sep sp = true) by (destruct Hsp as [-> | ->]; reflexivity).
  do 5 rewrite split_on_app by (try reflexivity; try exact Hsps; apply digits_no_sep; assumption).
  assert (Hlast : exists l, split_on date_sep (ts ++ z) = ts :: l).
  { destruct Hz as [->|(-> & _)].
    - rewrite split_on_app by (try reflexivity; exact Hs). eauto.
    - rewrite app_nil_r, split_on_none by exact Hs. eauto. }
  destruct Hlast as [l ->]. cbn [nth_error].
  rewrite has_char_app. cbn [has_char existsb N.eqb Pos.eqb orb]. rewrite orb_true_r.
  rewrite !parse_uint_digits by assumption. cbn [or0]. rewrite Hymd. cbn [obind]. rewrite Hpf. reflexivity.
Qed.

(** "H:M:S" *)
Lemma parse_time pf th ti ts s :
  all_digits th -> all_digits ti -> no_sep ts -> undec th < 65536 -> undec ti < 256 ->
  ts <> [] -> forallb (fun c => negb (is_whitespace c)) ts = true -> pf ts = Some s ->
  parse_from_str pf (th ++ 58 :: ti ++ 58 :: ts) = Some (from_hms (undec th) (undec ti) s).
Proof.
  intros Hh Hi Hs Bh Bi Hne Hw Hpf. unfold parse_from_str.
  rewrite trim_id; [|intros c r E; exact (digits_hd th c r Hh _ E)|].
  2:{ intros c r E. destruct (exists_last Hne) as (l & x & ->).
      replace (th ++ 58 :: ti ++ 58 :: l ++ [x]) with ((th ++ 58 :: ti ++ 58 :: l) ++ [x]) in E
          by (repeat (rewrite <- app_assoc; cbn [app]); reflexivity).
      apply app_inj_tail in E as [_ <-]. rewrite forallb_app in Hw. apply andb_true_iff in Hw as [_ Hw]. cbn [forallb] in Hw.
      destruct (is_whitespace x); [discriminate|reflexivity]. }
  do 2 rewrite split_on_app by (try reflexivity; apply digits_no_sep; assumption).
  rewrite split_on_none by exact Hs. cbn [nth_error].
  assert (Hno : forall t, no_sep t -> has_char 45 t = false).
  { intros t Ht. unfold no_sep in Ht. unfold has_char. apply not_true_is_false. rewrite existsb_exists.
    intros (x & Hx & E). apply N.eqb_eq in E. subst x. rewrite forallb_forall in Ht. specialize (Ht _ Hx). discriminate. }
  assert (E1 : has_char 45 (th ++ 58 :: ti ++ 58 :: ts) = false).
  { change (58 :: ti ++ 58 :: ts) with ([58] ++ ti ++ [58] ++ ts). rewrite !has_char_app.
    rewrite (Hno th), (Hno ti), (Hno ts) by (first [exact Hs|apply digits_no_sep; assumption]). reflexivity. }
  assert (E2 : has_char 58 (th ++ 58 :: ti ++ 58 :: ts) = true).
  { rewrite has_char_app. cbn [has_char existsb N.eqb Pos.eqb orb]. rewrite orb_true_r. reflexivity. }
  rewrite E1, E2. rewrite !parse_uint_digits by assumption. cbn [or0]. rewrite Hpf. reflexivity.
Qed.

(** Never panics. *)
Lemma parse_total pf s : exists r, parse_from_str pf s = Some r.
Proof.
  unfold parse_from_str. destruct (has_char 45 s); [|destruct (has_char 58 s); eauto].
  match goal with |- context [from_ymd ?a ?b ?c] => destruct (from_ymd_spec a b c) as (r & -> & _) end.
  cbn [obind]. eauto.
Qed.
