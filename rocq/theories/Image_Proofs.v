(** Reading sizes from image files. *)
From Coq Require Import Lia.
From Verif Require Import Base Image_Model Image_Spec.

Lemma be_snoc l b : be (l ++ [b]) = be l * 256 + b. Proof. unfold be. now rewrite fold_left_app. Qed.
Lemma length_be k : forall n, length (bytes_be k n) = k. Proof. induction k; intros n; cbn [bytes_be]; [reflexivity|]. rewrite app_length, IHk. cbn. lia. Qed.
Lemma be_bytes k : forall n, n < 256 ^ N.of_nat k -> be (bytes_be k n) = n.
Proof.
  induction k as [|k IH]; intros n H; [cbn in *; lia|]. cbn [bytes_be]. rewrite be_snoc, IH.
  - pose proof (N.div_mod n 256 ltac:(discriminate)). lia.
  - rewrite Nat2N.inj_succ, N.pow_succ_r' in H. apply N.div_lt_upper_bound; [discriminate|exact H].
Qed.
Lemma le_bytes k n : n < 256 ^ N.of_nat k -> le (bytes_le k n) = n.
Proof. intros H. unfold le, bytes_le. rewrite rev_involutive. now apply be_bytes. Qed.

(** ** Slices *)
Lemma part_skip data o i n : (o <= length data)%nat -> part data (o + i) n = part (skipn o data) i n.
Proof.
  intros H. unfold part. rewrite skipn_length. destruct (Nat.leb_spec (i + n) (length data - o)), (Nat.leb_spec (o + i + n) (length data)); try lia; [|reflexivity].
  f_equal. f_equal. clear. revert o i. induction data as [|x l IH]; intros o i; [now rewrite !skipn_nil|]. destruct o; [reflexivity|]. cbn [skipn Nat.add]. apply IH.
Qed.
Lemma part_here a r n : length a = n -> part (a ++ r) 0 n = Some a.
Proof. intros <-. unfold part. rewrite app_length. cbn [Nat.add skipn]. destruct (Nat.leb_spec (length a) (length a + length r)); [|lia]. now rewrite firstn_app, Nat.sub_diag, firstn_all, app_nil_r. Qed.
Lemma part_later a r k i n : length a = k -> part (a ++ r) (k + i) n = part r i n.
Proof. intros <-. rewrite part_skip by (rewrite app_length; lia). now rewrite skipn_app, skipn_all, Nat.sub_diag. Qed.
Lemma part_at a r k n : length a = k -> part (a ++ r) k n = part r 0 n.
Proof. intros H. rewrite <- (part_later a r k 0 n H). f_equal. lia. Qed.
Lemma byte_skip data o i : byte_at data (o + i) = byte_at (skipn o data) i.
Proof. unfold byte_at. revert i. revert o. induction data as [|x l IH]; intros o i; [destruct o, i; reflexivity|]. destruct o; [reflexivity|]. cbn [skipn Nat.add nth_error]. apply IH. Qed.
Lemma byte_later a r k i : length a = k -> byte_at (a ++ r) (k + i) = byte_at r i.
Proof. intros <-. rewrite byte_skip, skipn_app, skipn_all, Nat.sub_diag. reflexivity. Qed.
Lemma skip_skip {A} (data : list A) : forall o i, skipn (o + i) data = skipn i (skipn o data).
Proof. induction data as [|x l IH]; intros o i; [now rewrite !skipn_nil|]. destruct o; [reflexivity|]. cbn [skipn Nat.add]. apply IH. Qed.
Lemma rest_len {A} (data : list A) o r : skipn o data = r -> r <> [] -> (o < length data)%nat.
Proof. intros <- H. destruct (Nat.lt_ge_cases o (length data)) as [L|L]; [exact L|]. now rewrite skipn_all2 in H by lia. Qed.

(** ** The loops end *)
Lemma png_ends fuel : forall data o v, (length data - o < fuel)%nat -> png_loop fuel data o v <> Loops.
Proof.
  induction fuel as [|fuel IH]; intros data o v H; [lia|]. cbn [png_loop]. destruct (Nat.ltb_spec o (length data)); [|discriminate].
  unfold get. repeat match goal with |- context [match ?x with Some _ => _ | None => _ end] => destruct x end; try discriminate;
  repeat match goal with |- context [if ?b then _ else _] => destruct b end; try discriminate;
  repeat match goal with |- context [match ?x with Some _ => _ | None => _ end] => destruct x end; try discriminate; try (apply IH; lia).
Qed.
Lemma jpg_ends fuel : forall data o v, (length data - o < fuel)%nat -> jpg_loop fuel data o v <> Loops.
Proof.
  induction fuel as [|fuel IH]; intros data o v H; [lia|]. cbn [jpg_loop]. destruct (Nat.ltb_spec o (length data)); [|discriminate]. cbv zeta.
  unfold get. destruct (u16_be data o) as [marker|]; [|discriminate]. destruct (u16_be data (o + 2)) as [len|]; [|discriminate].
  assert (Z : forall w, (if marker =? 65498 then Done w else jpg_loop fuel data (o + N.to_nat len + 2) w) <> Loops) by (intros w; destruct (marker =? 65498); [discriminate|apply IH; lia]).
  match goal with |- (if ?b then _ else _) <> _ => destruct b end;
  repeat match goal with |- context [match ?x with Some _ => _ | None => _ end] => destruct x; try discriminate end; destruct (marker =? 65504); try apply Z; try discriminate.
Qed.

(** ** PNG *)
Lemma phys_says x y u k : of_phys (phys x y u k) = let x := be (bytes_be 4 x) in let y := be (bytes_be 4 y) in if (u =? 1) && (0 <? x) && (0 <? y) then Some (x, y) else None.
Proof. unfold of_phys. cbn [phys c_type c_data]. change (str_eqb (lit "pHYs") (lit "pHYs")) with true. cbn [bytes_be app firstn skipn]. replace (str_eqb [u] [1]) with (u =? 1) by (cbn; now rewrite andb_true_r). reflexivity. Qed.
Section Png.
  Variable data : list N.
  Definition known (v : vars) (c : chunk) : vars := match of_phys c with Some (x, y) => set_dpi v (DMetre x) (DMetre y) false | None => v end.
  Lemma chunk_head c R : length (c_type c) = 4%nat -> N.of_nat (length (c_data c)) < 2 ^ 31 ->
    part (chunk_bytes c ++ R) 4 4 = Some (c_type c) /\ u32_be (chunk_bytes c ++ R) 0 = Some (N.of_nat (length (c_data c))) /\
    (forall i n, part (chunk_bytes c ++ R) (8 + i) n = part (c_data c ++ c_crc c ++ R) i n) /\ (forall i, byte_at (chunk_bytes c ++ R) (8 + i) = byte_at (c_data c ++ c_crc c ++ R) i).
  Proof.
    intros Ht Hl. unfold chunk_bytes. rewrite <- !app_assoc. split; [|split; [|split]].
    - rewrite part_at by apply length_be. now apply part_here.
    - unfold u32_be. rewrite part_here by apply length_be. cbn [option_map]. f_equal. apply be_bytes. cbn. cbn in Hl. lia.
    - intros i n. change (8 + i)%nat with (4 + (4 + i))%nat. rewrite part_later by apply length_be. now apply part_later.
    - intros i. change (8 + i)%nat with (4 + (4 + i))%nat. rewrite byte_later by apply length_be. now apply byte_later.
  Qed.
  (** One round of the loop. *)
  Lemma png_round fuel o v c R : skipn o data = chunk_bytes c ++ R -> length (c_type c) = 4%nat -> length (c_crc c) = 4%nat -> N.of_nat (length (c_data c)) < 2 ^ 31 ->
    png_loop (S fuel) data o v =
    let next v := let pause v := if str_eqb (c_type c) (lit "IEND") then Done v else png_loop fuel data (o + length (chunk_bytes c)) v in
      if str_eqb (c_type c) (lit "pHYs") then
        get (byte_at (c_data c ++ c_crc c ++ R) 8) (fun units => get (u32_be (c_data c ++ c_crc c ++ R) 0) (fun x => get (u32_be (c_data c ++ c_crc c ++ R) 4) (fun y =>
          pause (if (units =? 1) && (0 <? x) && (0 <? y) then set_dpi v (DMetre x) (DMetre y) false else v))))
      else pause v in
    if str_eqb (c_type c) (lit "IHDR") then get (u32_be (c_data c ++ c_crc c ++ R) 0) (fun w => get (u32_be (c_data c ++ c_crc c ++ R) 4) (fun h => next (set_size v w h))) else next v.
  Proof.
    intros E Ht Hc Hl. destruct (chunk_head c R Ht Hl) as (A & B & C & D).
    assert (Lo : (o < length data)%nat). { apply (rest_len data o _ E). unfold chunk_bytes. intros H. apply (f_equal (@length N)) in H. rewrite !app_length, length_be in H. cbn in H. lia. }
    assert (P : forall i n, part data (o + i) n = part (chunk_bytes c ++ R) i n) by (intros i n; rewrite part_skip by lia; now rewrite E).
    cbn [png_loop]. destruct (Nat.ltb_spec o (length data)); [|lia]. rewrite (P 4%nat 4%nat), A. cbn [get].
    unfold u32_be at 1. replace (part data o 4) with (part data (o + 0) 4) by (f_equal; lia). rewrite P. change (option_map be (part (chunk_bytes c ++ R) 0 4)) with (u32_be (chunk_bytes c ++ R) 0). rewrite B. cbn [get].
    assert (U : forall i, u32_be data (o + (8 + i)) = u32_be (c_data c ++ c_crc c ++ R) i) by (intros i; unfold u32_be; now rewrite P, C).
    change (o + 8)%nat with (o + (8 + 0))%nat. change (o + 12)%nat with (o + (8 + 4))%nat. rewrite !U.
    replace (byte_at data (o + 16)) with (byte_at (c_data c ++ c_crc c ++ R) 8) by (rewrite byte_skip, E; change 16%nat with (8 + 8)%nat; symmetry; apply D).
    replace (o + N.to_nat (N.of_nat (length (c_data c))) + 12)%nat with (o + length (chunk_bytes c))%nat by (unfold chunk_bytes; rewrite !app_length, length_be; lia). reflexivity.
  Qed.
  Lemma rest_after o c R : skipn o data = chunk_bytes c ++ R -> skipn (o + length (chunk_bytes c)) data = R.
  Proof. intros E. now rewrite skip_skip, E, skipn_app, skipn_all, Nat.sub_diag. Qed.
  Lemma png_middle fuel o v c R : skipn o data = chunk_bytes c ++ R -> middle c -> png_loop (S fuel) data o v = png_loop fuel data (o + length (chunk_bytes c)) (known v c).
  Proof.
    intros E ((Ht & Hc & Hl) & N1 & N2 & Ph). rewrite (png_round fuel o v c R E Ht Hc Hl). cbv zeta.
    destruct (str_eqb (c_type c) (lit "IHDR")) eqn:E1; [apply str_eqb_eq in E1; contradiction|]. destruct (str_eqb (c_type c) (lit "IEND")) eqn:E2; [apply str_eqb_eq in E2; contradiction|].
    unfold known. destruct (str_eqb (c_type c) (lit "pHYs")) eqn:E3; [|unfold of_phys; now rewrite E3]. apply str_eqb_eq in E3. destruct (Ph E3) as (x & y & u & -> & Hx & Hy).
    rewrite phys_says. cbv zeta. cbn [phys c_data c_crc]. unfold u32_be. rewrite <- !app_assoc. rewrite part_here by apply length_be. rewrite part_at by apply length_be. rewrite part_here by apply length_be.
    rewrite (byte_later (bytes_be 4 x) _ 4 4) by apply length_be. rewrite (byte_later (bytes_be 4 y) _ 4 0) by apply length_be. cbn [byte_at nth_error app get option_map].
    destruct ((u =? 1) && (0 <? be (bytes_be 4 x)) && (0 <? be (bytes_be 4 y))); reflexivity.
  Qed.
End Png.

Definition after (v : vars) (l : list chunk) : vars := fold_left known l v.
Lemma chunk_long c : (4 <= length (chunk_bytes c))%nat. Proof. unfold chunk_bytes. rewrite !app_length, length_be. lia. Qed.
Lemma png_chunks data : forall l fuel o v R, skipn o data = flat_map chunk_bytes l ++ R -> Forall middle l -> (length (skipn o data) < fuel)%nat ->
  exists fuel' o', skipn o' data = R /\ (length R < fuel')%nat /\ png_loop fuel data o v = png_loop fuel' data o' (after v l).
Proof.
  induction l as [|c l IH]; intros fuel o v R E F L.
  - exists fuel, o. cbn [flat_map app] in E. rewrite E in *. repeat split; [exact L].
  - pose proof (Forall_inv F) as Fc. pose proof (Forall_inv_tail F) as Fl. cbn [flat_map] in E. rewrite <- app_assoc in E. destruct fuel as [|fuel]; [lia|].
    rewrite (png_middle data fuel o v c _ E Fc). pose proof (rest_after data o c _ E) as E'.
    destruct (IH fuel (o + length (chunk_bytes c))%nat (known v c) R E' Fl) as (f & o' & A & B & C).
    + rewrite E'. rewrite E in L. pose proof (chunk_long c). rewrite app_length in L. lia.
    + exists f, o'. repeat split; [exact A|exact B|]. exact C.
Qed.
Definition phys_of (v : vars) : option (N * N) := match v_xdpi v, v_ydpi v with DMetre x, DMetre y => Some (x, y) | _, _ => None end.
Lemma after_spec l : forall v d, v_xdpi v = match d with Some (x, _) => DMetre x | None => D96 end -> v_ydpi v = match d with Some (_, y) => DMetre y | None => D96 end ->
  v_default v = match d with Some _ => false | None => true end ->
  let r := last_phys d l in v_width (after v l) = v_width v /\ v_height (after v l) = v_height v /\
  v_xdpi (after v l) = match r with Some (x, _) => DMetre x | None => D96 end /\ v_ydpi (after v l) = match r with Some (_, y) => DMetre y | None => D96 end /\
  v_default (after v l) = match r with Some _ => false | None => true end.
Proof.
  induction l as [|c l IH]; intros v d A B C; [cbn; repeat split; assumption|]. change (after v (c :: l)) with (after (known v c) l). cbn [last_phys]. assert (K : known v c = match of_phys c with Some (x, y) => set_dpi v (DMetre x) (DMetre y) false | None => v end) by reflexivity.
  rewrite K. destruct (of_phys c) as [[x y]|].
  - exact (IH (set_dpi v (DMetre x) (DMetre y) false) (Some (x, y)) eq_refl eq_refl eq_refl).
  - exact (IH v d A B C).
Qed.
(** The header. *)
Lemma png_header data fuel o v w h more crc R : skipn o data = chunk_bytes (ihdr w h more crc) ++ R -> chunk_wf (ihdr w h more crc) -> w < 2 ^ 32 -> h < 2 ^ 32 ->
  png_loop (S fuel) data o v = png_loop fuel data (o + length (chunk_bytes (ihdr w h more crc))) (set_size v w h).
Proof.
  intros E (Ht & Hc & Hl) Hw Hh. rewrite (png_round data fuel o v _ R E Ht Hc Hl). cbv zeta.
  cbn [ihdr c_type c_data c_crc]. change (str_eqb (lit "IHDR") (lit "IHDR")) with true. change (str_eqb (lit "IHDR") (lit "pHYs")) with false. change (str_eqb (lit "IHDR") (lit "IEND")) with false. cbv iota.
  unfold u32_be. rewrite <- !app_assoc. rewrite part_here by apply length_be. rewrite part_at by apply length_be. rewrite part_here by apply length_be. cbn [option_map get]. rewrite !be_bytes by (cbn; cbn in Hw, Hh; lia). reflexivity.
Qed.
Lemma png_end data fuel o v crc R : skipn o data = chunk_bytes (iend crc) ++ R -> length crc = 4%nat -> png_loop (S fuel) data o v = Done v.
Proof. intros E Hc. rewrite (png_round data fuel o v (iend crc) R E eq_refl Hc eq_refl). reflexivity. Qed.
Lemma png_over data fuel o v : skipn o data = [] -> png_loop (S fuel) data o v = Done v.
Proof.
  intros E. cbn [png_loop]. destruct (Nat.ltb_spec o (length data)) as [L|L]; [|reflexivity].
  apply (f_equal (@length N)) in E. rewrite skipn_length in E. cbn in E. lia.
Qed.
Lemma png_reads w h more crc0 chunks crc tail : chunk_wf (ihdr w h more crc0) -> w < 2 ^ 32 -> h < 2 ^ 32 -> Forall middle chunks -> length crc = 4%nat ->
  let data := png_file (ihdr w h more crc0 :: chunks ++ [iend crc]) tail in
  png_loop (S (length data)) data 8 vars0 = Done (after (set_size vars0 w h) chunks).
Proof.
  intros W Hw Hh M Hc data. assert (E : skipn 8 data = chunk_bytes (ihdr w h more crc0) ++ flat_map chunk_bytes chunks ++ chunk_bytes (iend crc) ++ tail).
  { unfold data, png_file. cbn [png_signature app skipn flat_map]. rewrite flat_map_app. cbn [flat_map]. rewrite app_nil_r, <- !app_assoc. reflexivity. }
  rewrite (png_header data (length data) 8 vars0 w h more crc0 _ E W Hw Hh). pose proof (rest_after data 8 _ _ E) as E'.
  destruct (png_chunks data chunks (length data) _ (set_size vars0 w h) (chunk_bytes (iend crc) ++ tail) E' M) as (f & o & A & B & C).
  { rewrite skipn_length. pose proof (chunk_long (ihdr w h more crc0)). pose proof (f_equal (@length N) E) as Q. rewrite skipn_length, !app_length in Q. lia. }
  rewrite C. destruct f as [|f]; [lia|]. apply (png_end data f o _ crc tail A Hc).
Qed.

(** ** JPEG *)
Section Jpg.
  Variable data : list N.
  Lemma segment_parts s R : N.of_nat (length (s_data s)) + 2 < 2 ^ 16 ->
    u16_be (segment_bytes s ++ R) 0 = Some (65280 + s_code s) /\ u16_be (segment_bytes s ++ R) 2 = Some (N.of_nat (length (s_data s)) + 2) /\
    (forall i n, part (segment_bytes s ++ R) (4 + i) n = part (s_data s ++ R) i n) /\ (forall i, byte_at (segment_bytes s ++ R) (4 + i) = byte_at (s_data s ++ R) i).
  Proof.
    intros H. unfold segment_bytes. rewrite <- !app_assoc. split; [|split; [|split]].
    - unfold u16_be. rewrite part_here by reflexivity. reflexivity.
    - unfold u16_be. rewrite part_at by reflexivity. rewrite part_here by apply length_be. cbn [option_map]. f_equal. apply be_bytes. cbn; cbn in H; lia.
    - intros i n. change (4 + i)%nat with (2 + (2 + i))%nat. rewrite part_later by reflexivity. apply part_later, length_be.
    - intros i. change (4 + i)%nat with (2 + (2 + i))%nat. rewrite byte_later by reflexivity. apply byte_later, length_be.
  Qed.
  Lemma jpg_round fuel o v s R : skipn o data = segment_bytes s ++ R -> N.of_nat (length (s_data s)) + 2 < 2 ^ 16 ->
    let marker := 65280 + s_code s in
    jpg_loop (S fuel) data o v =
    let next v := let pause v := if marker =? 65498 then Done v else jpg_loop fuel data (o + length (segment_bytes s)) v in
      if marker =? 65504 then
        get (byte_at (s_data s ++ R) 7) (fun units => get (u16_be (s_data s ++ R) 8) (fun x => get (u16_be (s_data s ++ R) 10) (fun y =>
          let v1 := if units =? 1 then set_dpi v (DInch x) (DInch y) (v_default v) else v in
          let v2 := if units =? 2 then set_dpi v1 (DCm x) (DCm y) false else v1 in
          pause (set_dpi v2 (fix_dpi (v_xdpi v2)) (fix_dpi (v_ydpi v2)) (v_default v2)))))
      else pause v in
    if (N.land marker 65520 =? 65472) && negb (marker =? 65476) && negb (marker =? 65480) && negb (marker =? 65484) then
      get (u16_be (s_data s ++ R) 1) (fun h => get (u16_be (s_data s ++ R) 3) (fun w => next (set_size v w h))) else next v.
  Proof.
    intros E H marker. destruct (segment_parts s R H) as (A & B & C & D).
    assert (Lo : (o < length data)%nat). { apply (rest_len data o _ E). unfold segment_bytes. discriminate. }
    assert (P : forall i n, part data (o + i) n = part (segment_bytes s ++ R) i n) by (intros i n; rewrite part_skip by lia; now rewrite E).
    assert (U : forall i, u16_be data (o + i) = u16_be (segment_bytes s ++ R) i) by (intros i; unfold u16_be; now rewrite P).
    assert (V : forall i, u16_be data (o + (4 + i)) = u16_be (s_data s ++ R) i) by (intros i; unfold u16_be; now rewrite P, C).
    cbn [jpg_loop]. destruct (Nat.ltb_spec o (length data)); [|lia]. replace (u16_be data o) with (u16_be data (o + 0)) by (f_equal; lia). rewrite U, A. cbn [get]. rewrite U, B. cbn [get]. fold marker.
    change (o + 5)%nat with (o + (4 + 1))%nat. change (o + 7)%nat with (o + (4 + 3))%nat. change (o + 12)%nat with (o + (4 + 8))%nat. change (o + 14)%nat with (o + (4 + 10))%nat. rewrite !V.
    replace (byte_at data (o + 11)) with (byte_at (s_data s ++ R) 7) by (rewrite byte_skip, E; change 11%nat with (4 + 7)%nat; symmetry; apply D).
    replace (o + N.to_nat (N.of_nat (length (s_data s)) + 2) + 2)%nat with (o + length (segment_bytes s))%nat by (unfold segment_bytes; rewrite !app_length, length_be; cbn [length]; lia). reflexivity.
  Qed.
  Lemma segment_after o s R : skipn o data = segment_bytes s ++ R -> skipn (o + length (segment_bytes s)) data = R.
  Proof. intros E. now rewrite skip_skip, E, skipn_app, skipn_all, Nat.sub_diag. Qed.
  (** The markers, by the byte after FF. *)
  Lemma land_marker c : c < 256 -> (N.land (65280 + c) 65520 =? 65472) = (192 <=? c) && (c <=? 207).
  Proof.
    intros H. assert (A : forall n, n < 256 -> (N.land (65280 + n) 65520 =? 65472) = (192 <=? n) && (n <=? 207)); [|auto].
    clear. intros n H. rewrite <- (N2Nat.id n) in *. assert (L : (N.to_nat n < 256)%nat) by lia. revert L. generalize (N.to_nat n). clear.
    intros m L. assert (Z : forallb (fun m => Bool.eqb (N.land (65280 + N.of_nat m) 65520 =? 65472) ((192 <=? N.of_nat m) && (N.of_nat m <=? 207))) (seq 0 256) = true) by (vm_compute; reflexivity).
    rewrite forallb_forall in Z. apply Bool.eqb_prop, Z, in_seq. lia.
  Qed.
  Lemma marker_codes c : c < 256 -> ((N.land (65280 + c) 65520 =? 65472) && negb (65280 + c =? 65476) && negb (65280 + c =? 65480) && negb (65280 + c =? 65484)) = frame_code c /\
    (65280 + c =? 65498) = (c =? 218) /\ (65280 + c =? 65504) = (c =? 224).
  Proof. intros H. rewrite land_marker by exact H. unfold frame_code. repeat split; lia. Qed.
  Lemma jpg_plain fuel o v s R : skipn o data = segment_bytes s ++ R -> plain s -> jpg_loop (S fuel) data o v = jpg_loop fuel data (o + length (segment_bytes s)) v.
  Proof.
    intros E [Hc Hl]. rewrite (jpg_round fuel o v s R E Hl). unfold plain_code in Hc. destruct (marker_codes (s_code s) ltac:(lia)) as (A & B & C). cbv zeta. rewrite A, B, C.
    unfold frame_code. replace ((192 <=? s_code s) && (s_code s <=? 207) && negb ((s_code s =? 196) || (s_code s =? 200) || (s_code s =? 204))) with false by lia.
    replace (s_code s =? 224) with false by lia. replace (s_code s =? 218) with false by lia. reflexivity.
  Qed.
  Lemma jpg_frame fuel o v code pr h w more R : skipn o data = segment_bytes (frame code pr h w more) ++ R -> frame_code code = true ->
    N.of_nat (length (s_data (frame code pr h w more))) + 2 < 2 ^ 16 -> w < 2 ^ 16 -> h < 2 ^ 16 ->
    jpg_loop (S fuel) data o v = jpg_loop fuel data (o + length (segment_bytes (frame code pr h w more))) (set_size v w h).
  Proof.
    intros E Hc Hl Hw Hh. rewrite (jpg_round fuel o v _ R E Hl). cbn [frame s_code]. assert (Hd := Hc). unfold frame_code in Hd. destruct (marker_codes code ltac:(lia)) as (A & B & C). cbv zeta. rewrite A, B, C, Hc.
    replace (code =? 224) with false by lia. replace (code =? 218) with false by lia.
    cbn [frame s_data]. unfold u16_be. rewrite <- !app_assoc. rewrite (part_at [pr]) by reflexivity. rewrite part_here by apply length_be.
    change 3%nat with (1 + 2)%nat at 1. rewrite (part_later [pr]) by reflexivity. rewrite part_at by apply length_be. rewrite part_here by apply length_be. cbn [option_map get]. rewrite !be_bytes by (cbn; cbn in Hw, Hh; lia). reflexivity.
  Qed.
  (** What a JFIF segment says: see the specification. *)
  Definition jfif_dpi (v : vars) (unit x y : N) : vars :=
    let v1 := if unit =? 1 then set_dpi v (DInch x) (DInch y) (v_default v) else v in let v2 := if unit =? 2 then set_dpi v1 (DCm x) (DCm y) false else v1 in
    set_dpi v2 (fix_dpi (v_xdpi v2)) (fix_dpi (v_ydpi v2)) (v_default v2).
  Lemma jpg_jfif fuel o v v1 v2 unit x y thumb R : skipn o data = segment_bytes (jfif v1 v2 unit x y thumb) ++ R ->
    N.of_nat (length (s_data (jfif v1 v2 unit x y thumb))) + 2 < 2 ^ 16 -> x < 2 ^ 16 -> y < 2 ^ 16 ->
    jpg_loop (S fuel) data o v = jpg_loop fuel data (o + length (segment_bytes (jfif v1 v2 unit x y thumb))) (jfif_dpi v unit x y).
  Proof.
    intros E Hl Hx Hy. rewrite (jpg_round fuel o v _ R E Hl). cbn [jfif s_code]. destruct (marker_codes 224 ltac:(lia)) as (A & B & C). cbv zeta. rewrite A, B, C. change (frame_code 224) with false. cbn [N.eqb Pos.eqb].
    cbn [jfif s_data]. unfold u16_be. change (lit "JFIF" ++ [0; v1; v2; unit] ++ bytes_be 2 x ++ bytes_be 2 y ++ thumb) with ((lit "JFIF" ++ [0; v1; v2; unit]) ++ bytes_be 2 x ++ bytes_be 2 y ++ thumb). rewrite <- !(app_assoc (_ ++ _)). rewrite <- !(app_assoc (bytes_be 2 _)).
    rewrite (part_at (lit "JFIF" ++ [0; v1; v2; unit])) by reflexivity. rewrite part_here by apply length_be.
    change 10%nat with (8 + 2)%nat at 1. rewrite (part_later (lit "JFIF" ++ [0; v1; v2; unit]) _ 8 2) by reflexivity. rewrite part_at by apply length_be. rewrite part_here by apply length_be.
    cbn [byte_at nth_error get option_map lit app]. rewrite !be_bytes by (cbn; cbn in Hx, Hy; lia). reflexivity.
  Qed.
  Lemma jpg_scan fuel o v scan : skipn o data = [255; 218] ++ scan -> (2 <= length scan)%nat -> jpg_loop (S fuel) data o v = Done v.
  Proof.
    intros E L. cbn [jpg_loop]. assert (Lo : (o < length data)%nat) by (apply (rest_len data o _ E); discriminate). destruct (Nat.ltb_spec o (length data)); [|lia].
    assert (P : forall i n, part data (o + i) n = part ([255; 218] ++ scan) i n) by (intros i n; rewrite part_skip by lia; now rewrite E).
    unfold u16_be. replace (part data o 2) with (part data (o + 0) 2) by (f_equal; lia). rewrite P, part_here by reflexivity. cbn [option_map get]. rewrite P, part_at by reflexivity.
    unfold part. destruct (Nat.leb_spec (0 + 2) (length scan)); [|lia]. reflexivity.
  Qed.
End Jpg.
