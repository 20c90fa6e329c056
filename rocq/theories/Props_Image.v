(** C73: what is read from the bytes of an image. *)
From Coq Require Import Lia.
From Verif Require Import Base Image_Model Image_Spec Image_Proofs.

(** Reading ends for every buffer. *)
Theorem C73_always_ends data : new_from_buffer data <> Loops.
Proof.
  assert (F : forall t o, o <> Loops -> finish t o <> Loops) by (intros t [v|e| |] H; cbn; try congruence; destruct (_ || _); discriminate).
  unfold new_from_buffer, get. repeat match goal with |- context [match ?x with Some _ => _ | None => _ end] => destruct x; [|discriminate] end.
  repeat match goal with |- (if ?b then _ else _) <> _ => destruct b end; try discriminate; apply F.
  - apply png_ends. lia.
  - apply jpg_ends. lia.
  - unfold process_bmp, get. destruct (u32_le data 18); [|discriminate]. destruct (u32_le data 22); discriminate.
  - unfold process_gif, get. destruct (u16_le data 6); [|discriminate]. destruct (u16_le data 8); discriminate.
Qed.
(** An image that is accepted has a size and a resolution other than 0, in both directions. *)
Definition real (d : density) : Prop := match d with D96 => True | DMetre n | DInch n | DCm n => n <> 0 end.
Lemma fix_real d : real (fix_dpi d) <-> (real d \/ d = DInch 0 \/ d = DCm 0).
Proof.
  destruct d as [|n|n|n]; cbn [fix_dpi real]; try (intuition discriminate).
  - destruct n as [|[p|p|]]; cbn; intuition (try congruence; try discriminate).
  - destruct n as [|p]; cbn; intuition (try congruence; try discriminate).
Qed.
Definition vars_real (v : vars) : Prop := real (v_xdpi v) /\ real (v_ydpi v).
Lemma png_real fuel : forall data o v w, vars_real v -> png_loop fuel data o v = Done w -> vars_real w.
Proof.
  induction fuel as [|fuel IH]; intros data o v w R E; [discriminate|]. cbn [png_loop] in E. destruct (_ <? _)%nat; [|now injection E as <-].
  unfold get in E. destruct (part data (o + 4) 4) as [mk|]; [|discriminate]. destruct (u32_be data o) as [len|]; [|discriminate]. cbv zeta in E.
  assert (Z : forall v, vars_real v -> (if str_eqb mk (lit "IEND") then Done v else png_loop fuel data (o + N.to_nat len + 12) v) = Done w -> vars_real w).
  { intros u Ru Eu. destruct (str_eqb mk (lit "IEND")); [now injection Eu as <-|]. exact (IH _ _ _ _ Ru Eu). }
  assert (Y : forall v, vars_real v -> (if str_eqb mk (lit "pHYs") then match byte_at data (o + 16) with Some units => match u32_be data (o + 8) with Some x => match u32_be data (o + 12) with Some y =>
     (if str_eqb mk (lit "IEND") then Done (if (units =? 1) && (0 <? x) && (0 <? y) then set_dpi v (DMetre x) (DMetre y) false else v)
      else png_loop fuel data (o + N.to_nat len + 12) (if (units =? 1) && (0 <? x) && (0 <? y) then set_dpi v (DMetre x) (DMetre y) false else v)) | None => Panics end | None => Panics end | None => Panics end
     else if str_eqb mk (lit "IEND") then Done v else png_loop fuel data (o + N.to_nat len + 12) v) = Done w -> vars_real w).
  { intros u Ru Eu. destruct (str_eqb mk (lit "pHYs")); [|exact (Z u Ru Eu)]. destruct (byte_at data (o + 16)) as [un|]; [|discriminate]. destruct (u32_be data (o + 8)) as [x|]; [|discriminate]. destruct (u32_be data (o + 12)) as [y|]; [|discriminate].
    refine (Z _ _ Eu). destruct ((un =? 1) && (0 <? x) && (0 <? y)) eqn:B; [|exact Ru]. split; cbn; lia. }
  destruct (str_eqb mk (lit "IHDR")); [|exact (Y v R E)]. destruct (u32_be data (o + 8)) as [x|] eqn:Ex; [|discriminate]. destruct (u32_be data (o + 12)) as [y|] eqn:Ey; [|discriminate].
  refine (Y (set_size v x y) R _). exact E.
Qed.
Lemma jpg_real fuel : forall data o v w, vars_real v -> jpg_loop fuel data o v = Done w -> vars_real w.
Proof.
  induction fuel as [|fuel IH]; intros data o v w R E; [discriminate|]. cbn [jpg_loop] in E. destruct (_ <? _)%nat; [|now injection E as <-].
  unfold get in E. destruct (u16_be data o) as [mk|]; [|discriminate]. destruct (u16_be data (o + 2)) as [len|]; [|discriminate]. cbv zeta in E.
  assert (Z : forall v, vars_real v -> (if mk =? 65498 then Done v else jpg_loop fuel data (o + N.to_nat len + 2) v) = Done w -> vars_real w).
  { intros u Ru Eu. destruct (mk =? 65498); [now injection Eu as <-|]. exact (IH _ _ _ _ Ru Eu). }
  assert (Y : forall u, vars_real u -> forall un x y, let v1 := if un =? 1 then set_dpi u (DInch x) (DInch y) (v_default u) else u in let v2 := if un =? 2 then set_dpi v1 (DCm x) (DCm y) false else v1 in
     vars_real (set_dpi v2 (fix_dpi (v_xdpi v2)) (fix_dpi (v_ydpi v2)) (v_default v2))).
  { intros u [R1 R2] un x y. cbv zeta. split; cbn [set_dpi v_xdpi v_ydpi]; apply fix_real; destruct (N.eqb_spec un 1), (N.eqb_spec un 2); subst; try discriminate; cbn [set_dpi v_xdpi v_ydpi real]; auto.
    all: try (destruct (N.eq_dec x 0) as [->|]; auto); try (destruct (N.eq_dec y 0) as [->|]; auto). }
  destruct ((N.land mk 65520 =? 65472) && negb (mk =? 65476) && negb (mk =? 65480) && negb (mk =? 65484)).
  - destruct (u16_be data (o + 5)) as [a|]; [|discriminate]. destruct (u16_be data (o + 7)) as [b|]; [|discriminate]. destruct (mk =? 65504).
    + destruct (byte_at data (o + 11)) as [un|]; [|discriminate]. destruct (u16_be data (o + 12)) as [x|]; [|discriminate]. destruct (u16_be data (o + 14)) as [y|]; [|discriminate]. refine (Z _ _ E). apply (Y (set_size v b a) R).
    + refine (Z _ _ E). exact R.
  - destruct (mk =? 65504).
    + destruct (byte_at data (o + 11)) as [un|]; [|discriminate]. destruct (u16_be data (o + 12)) as [x|]; [|discriminate]. destruct (u16_be data (o + 14)) as [y|]; [|discriminate]. refine (Z _ _ E). apply (Y v R).
    + refine (Z _ _ E). exact R.
Qed.
Lemma finish_inv t o i : finish t o = Done i -> exists v, o = Done v /\ v_width v <> 0 /\ v_height v <> 0 /\ im_type i = t /\ im_width i = v_width v /\ im_height i = v_height v /\ im_xdpi i = v_xdpi v /\ im_ydpi i = v_ydpi v.
Proof.
  destruct o as [v|e| |]; cbn [finish]; try discriminate. destruct (N.eqb_spec (v_width v) 0), (N.eqb_spec (v_height v) 0); cbn [orb]; try discriminate. intros E. exists v. injection E as <-. cbn. repeat split; assumption.
Qed.
Theorem C73_accepted_images_have_a_size data i : new_from_buffer data = Done i -> im_width i <> 0 /\ im_height i <> 0 /\ real (im_xdpi i) /\ real (im_ydpi i).
Proof.
  unfold new_from_buffer, get. repeat match goal with |- context [match ?x with Some _ => _ | None => _ end] => destruct x; [|discriminate] end.
  assert (R0 : vars_real vars0) by (split; exact I).
  assert (F : forall t o, (forall v, o = Done v -> vars_real v) -> finish t o = Done i -> im_width i <> 0 /\ im_height i <> 0 /\ real (im_xdpi i) /\ real (im_ydpi i)).
  { intros t o H E. apply finish_inv in E as (v & Ev & W & Hh & _ & Ew & Eh & Ex & Ey). destruct (H v Ev) as [A B]. rewrite Ew, Eh, Ex, Ey. repeat split; assumption. }
  repeat match goal with |- (if ?b then _ else _) = _ -> _ => destruct b end; try discriminate; apply F; intros v E.
  - exact (png_real _ _ _ _ _ R0 E).
  - exact (jpg_real _ _ _ _ _ R0 E).
  - unfold process_bmp, get in E. destruct (u32_le data 18); [|discriminate]. destruct (u32_le data 22); [|discriminate]. injection E as <-. exact R0.
  - unfold process_gif, get in E. destruct (u16_le data 6); [|discriminate]. destruct (u16_le data 8); [|discriminate]. injection E as <-. exact R0.
Qed.

(** ** PNG: every file of header, other chunks and end, whatever comes after it *)
Definition sized (t : image_type) w h x y d : image := {| im_type := t; im_width := w; im_height := h; im_xdpi := x; im_ydpi := y; im_default_dpi := d |}.
Lemma marks a b c d r : part (a :: b :: c :: d :: r) 1 3 = Some [b; c; d] /\ u16_be (a :: b :: c :: d :: r) 0 = Some (a * 256 + b) /\ part (a :: b :: c :: d :: r) 0 2 = Some [a; b] /\ part (a :: b :: c :: d :: r) 0 4 = Some [a; b; c; d].
Proof. repeat split; reflexivity. Qed.
Lemma read_start a b c d r : new_from_buffer (a :: b :: c :: d :: r) =
  let data := a :: b :: c :: d :: r in
  if str_eqb [b; c; d] (lit "PNG") then finish IPng (png_loop (S (length data)) data 8 vars0)
  else if a * 256 + b =? 65496 then finish IJpg (jpg_loop (S (length data)) data 2 vars0)
  else if str_eqb [a; b] (lit "BM") then finish IBmp (process_bmp data)
  else if str_eqb [a; b; c; d] (lit "GIF8") then finish IGif (process_gif data)
  else Fails UnknownImageType.
Proof. destruct (marks a b c d r) as (A & B & C & D). unfold new_from_buffer. rewrite A, B, C, D. reflexivity. Qed.
Theorem C73_png w h more crc0 chunks crc tail :
  chunk_wf (ihdr w h more crc0) -> 0 < w < 2 ^ 32 -> 0 < h < 2 ^ 32 -> Forall middle chunks -> length crc = 4%nat ->
  new_from_buffer (png_file (ihdr w h more crc0 :: chunks ++ [iend crc]) tail) =
  Done (match last_phys None chunks with Some (x, y) => sized IPng w h (DMetre x) (DMetre y) false | None => sized IPng w h D96 D96 true end).
Proof.
  intros W [W0 W1] [H0 H1] M Hc. pose proof (png_reads w h more crc0 chunks crc tail W W1 H1 M Hc) as E. cbv zeta in E.
  unfold png_file in *. cbn [png_signature app] in *. rewrite read_start. cbv zeta. change (str_eqb [80; 78; 71] (lit "PNG")) with true. cbv iota. rewrite E.
  destruct (after_spec chunks (set_size vars0 w h) None eq_refl eq_refl eq_refl) as (A & B & C & D & G). unfold finish. rewrite A, B, C, D, G. cbn [set_size v_width v_height].
  replace (w =? 0) with false by lia. replace (h =? 0) with false by lia. cbn [orb]. destruct (last_phys None chunks) as [[x y]|]; reflexivity.
Qed.

(** ** JPEG: every file of segments up to the scan, with at least one frame *)
Definition dpi_eq (v : vars) (d : density * density) : Prop := v_xdpi v = fst d /\ v_ydpi v = snd d.
Definition fixed (d : density) : Prop := fix_dpi d = d.
Lemma per_inch_fixed n : fixed (per_inch n) /\ fix_dpi (DInch n) = per_inch n.
Proof. unfold per_inch, fixed. destruct n as [|[p|p|]]; cbn; split; reflexivity. Qed.
Lemma per_cm_fixed n : fixed (per_cm n) /\ fix_dpi (DCm n) = per_cm n.
Proof. unfold per_cm, fixed. destruct n as [|p]; cbn; split; reflexivity. Qed.
Lemma jpg_segments data : forall l fuel o v R wh d, skipn o data = flat_map segment_bytes (map to_segment l) ++ R -> Forall jseg_wf l -> (length (skipn o data) < fuel)%nat ->
  v_width v = fst wh -> v_height v = snd wh -> v_xdpi v = fst d -> v_ydpi v = snd d -> fixed (fst d) -> fixed (snd d) ->
  exists fuel' o' v', skipn o' data = R /\ (length R < fuel')%nat /\ jpg_loop fuel data o v = jpg_loop fuel' data o' v' /\
    v_width v' = fst (last_of of_frame wh l) /\ v_height v' = snd (last_of of_frame wh l) /\ v_xdpi v' = fst (last_of of_jfif d l) /\ v_ydpi v' = snd (last_of of_jfif d l).
Proof.
  induction l as [|j l IH]; intros fuel o v R wh d E F L Ew Eh Ex Ey Fx Fy.
  - exists fuel, o, v. cbn [map flat_map app] in E. rewrite E in *. repeat split; assumption.
  - pose proof (Forall_inv F) as [Hl Fj]. pose proof (Forall_inv_tail F) as Fl. cbn [map flat_map] in E. rewrite <- app_assoc in E. destruct fuel as [|fuel]; [lia|].
    pose proof (segment_after data o _ _ E) as E'. assert (L' : (length (skipn (o + length (segment_bytes (to_segment j))) data) < fuel)%nat).
    { rewrite E'. rewrite E, app_length in L. assert (2 <= length (segment_bytes (to_segment j)))%nat by (unfold segment_bytes; rewrite !app_length; cbn; lia). lia. }
    destruct j as [s|v1 v2 u x y t|c p h w m]; cbn [to_segment] in *.
    + rewrite (jpg_plain data fuel o v s _ E (conj Fj Hl)). cbn [last_of of_frame of_jfif]. apply (IH _ _ v R wh d E' Fl L'); assumption.
    + destruct Fj as [Hx Hy]. rewrite (jpg_jfif data fuel o v v1 v2 u x y t _ E Hl Hx Hy). cbn [last_of of_frame of_jfif].
      destruct (per_inch_fixed x) as [Ix Jx]. destruct (per_inch_fixed y) as [Iy Jy]. destruct (per_cm_fixed x) as [Cx Kx]. destruct (per_cm_fixed y) as [Cy Ky].
      unfold jfif_dpi. cbv zeta. destruct (N.eqb_spec u 1) as [->|N1].
      * cbn [N.eqb Pos.eqb]. apply (IH _ _ _ R wh (per_inch x, per_inch y) E' Fl L'); cbn [set_dpi v_width v_height v_xdpi v_ydpi fst snd]; assumption.
      * destruct (N.eqb_spec u 2) as [->|N2].
        -- apply (IH _ _ _ R wh (per_cm x, per_cm y) E' Fl L'); cbn [set_dpi v_width v_height v_xdpi v_ydpi fst snd]; assumption.
        -- apply (IH _ _ _ R wh d E' Fl L'); cbn [set_dpi v_width v_height v_xdpi v_ydpi fst snd]; try assumption; [rewrite Ex; exact Fx|rewrite Ey; exact Fy].
    + destruct Fj as (Fc & Hw & Hh). rewrite (jpg_frame data fuel o v c p h w m _ E Fc Hl Hw Hh). cbn [last_of of_frame of_jfif]. apply (IH _ _ _ R (w, h) d E' Fl L'); try assumption; reflexivity.
Qed.
Theorem C73_jpeg segs scan w h :
  Forall jseg_wf segs -> (2 <= length scan)%nat -> last_of of_frame (0, 0) segs = (w, h) -> w <> 0 -> h <> 0 ->
  exists i, new_from_buffer (jpg_file (map to_segment segs) scan) = Done i /\ im_type i = IJpg /\ im_width i = w /\ im_height i = h /\ (im_xdpi i, im_ydpi i) = last_of of_jfif (D96, D96) segs.
Proof.
  intros F Ls Ef W H. set (data := jpg_file (map to_segment segs) scan).
  assert (E : skipn 2 data = flat_map segment_bytes (map to_segment segs) ++ [255; 218] ++ scan) by reflexivity.
  destruct (jpg_segments data segs (S (length data)) 2 vars0 _ (0, 0) (D96, D96) E F) as (f & o & v & A & B & C & V1 & V2 & V3 & V4); try reflexivity.
  { rewrite skipn_length. lia. }
  rewrite Ef in V1, V2. cbn [fst snd] in V1, V2. assert (Nz : exists c d r, data = 255 :: 216 :: c :: d :: r).
  { unfold data, jpg_file. cbn [app]. destruct (flat_map segment_bytes (map to_segment segs)) as [|c [|d r]] eqn:Q; cbn [app]; try (do 3 eexists; reflexivity). }
  destruct Nz as (c & d & r & Ed). rewrite Ed, read_start. cbv zeta. change (str_eqb [216; c; d] (lit "PNG")) with (false && str_eqb [c; d] (lit "NG")). cbn [andb]. change (255 * 256 + 216 =? 65496) with true. cbv iota. rewrite <- Ed.
  rewrite C. destruct f as [|f]; [cbn in B; lia|]. rewrite (jpg_scan data f o v scan A Ls). unfold finish. rewrite V1, V2. destruct (N.eqb_spec w 0); [contradiction|]. destruct (N.eqb_spec h 0); [contradiction|]. cbn [orb].
  eexists. split; [reflexivity|]. cbn. repeat split. rewrite V3, V4. now destruct (last_of of_jfif (D96, D96) segs).
Qed.
(** ** GIF and BMP *)
Theorem C73_gif version w h more : version = lit "87a" \/ version = lit "89a" -> 0 < w < 2 ^ 16 -> 0 < h < 2 ^ 16 ->
  new_from_buffer (gif_file version w h more) = Done (sized IGif w h D96 D96 true).
Proof.
  intros Hv [W0 W1] [H0 H1]. assert (E : exists c, version = [56; c; 97]) by (destruct Hv as [->| ->]; eexists; reflexivity). destruct E as [c ->].
  unfold gif_file. cbn [app lit]. change (lit "GIF") with [71; 73; 70]. cbn [app]. rewrite read_start. cbv zeta. change (str_eqb [73; 70; 56] (lit "PNG")) with false. change (71 * 256 + 73 =? 65496) with false. change (str_eqb [71; 73] (lit "BM")) with false.
  change (str_eqb [71; 73; 70; 56] (lit "GIF8")) with true. cbv iota. unfold process_gif, u16_le.
  change (71 :: 73 :: 70 :: 56 :: c :: 97 :: bytes_le 2 w ++ bytes_le 2 h ++ more) with ([71; 73; 70; 56; c; 97] ++ bytes_le 2 w ++ bytes_le 2 h ++ more).
  assert (L : forall n, length (bytes_le 2 n) = 2%nat) by (intros n; unfold bytes_le; rewrite rev_length; apply length_be).
  rewrite (part_at [71; 73; 70; 56; c; 97]) by reflexivity. rewrite part_here by apply L. rewrite (part_later [71; 73; 70; 56; c; 97] _ 6 2) by reflexivity. rewrite part_at by apply L. rewrite part_here by apply L. cbn [option_map get].
  rewrite !le_bytes by (cbn; cbn in W1, H1; lia). cbn [finish set_size v_width v_height]. replace (w =? 0) with false by lia. replace (h =? 0) with false by lia. reflexivity.
Qed.
Lemma bmp_reads header size w h more : length header = 12%nat -> signed32 w <> 0 -> signed32 h <> 0 ->
  new_from_buffer (bmp_file header size w h more) = Done (sized IBmp (signed32 w) (signed32 h) D96 D96 true).
Proof.
  intros Lh W H. destruct header as [|a [|b r]]; try discriminate. unfold bmp_file. change (lit "BM") with [66; 77]. cbn [app]. rewrite read_start. cbv zeta.
  change (str_eqb [77; a; b] (lit "PNG")) with (false && str_eqb [a; b] (lit "NG")). cbn [andb]. change (66 * 256 + 77 =? 65496) with false. change (str_eqb [66; 77] (lit "BM")) with true. cbv iota. unfold process_bmp, u32_le.
  assert (L : forall n, length (bytes_le 4 n) = 4%nat) by (intros n; unfold bytes_le; rewrite rev_length; apply length_be).
  assert (B : forall z, signed32 z < 256 ^ N.of_nat 4) by (intros z; unfold signed32; pose proof (Z.mod_pos_bound z 4294967296 ltac:(reflexivity)); cbn; lia).
  set (X := 66 :: 77 :: a :: b :: r ++ bytes_le 4 size). replace (66 :: 77 :: a :: b :: r ++ bytes_le 4 size ++ bytes_le 4 (signed32 w) ++ bytes_le 4 (signed32 h) ++ more) with (X ++ bytes_le 4 (signed32 w) ++ bytes_le 4 (signed32 h) ++ more) by (unfold X; cbn [app]; now rewrite <- !app_assoc).
  assert (LX : length X = 18%nat) by (unfold X; cbn [length] in *; rewrite app_length, L; lia).
  rewrite (part_at X _ 18) by exact LX. rewrite part_here by apply L. rewrite (part_later X _ 18 4) by exact LX. rewrite part_at by apply L. rewrite part_here by apply L. cbn [option_map get]. rewrite !le_bytes by apply B.
  cbn [finish set_size v_width v_height]. replace (signed32 w =? 0) with false by lia. replace (signed32 h =? 0) with false by lia. reflexivity.
Qed.
Theorem C73_bmp_partial header size w h more : length header = 12%nat -> (0 < w < 2 ^ 31)%Z -> (0 < h < 2 ^ 31)%Z ->
  new_from_buffer (bmp_file header size w h more) = Done (sized IBmp (Z.to_N w) (Z.to_N h) D96 D96 true).
Proof.
  intros Lh W H. assert (S : forall z, (0 < z < 2 ^ 31)%Z -> signed32 z = Z.to_N z) by (intros z Hz; unfold signed32; rewrite Z.mod_small; [reflexivity|lia]).
  rewrite bmp_reads; rewrite ?S by assumption; [reflexivity|exact Lh|lia|lia].
Qed.

(** ** Where it goes wrong *)
(** A bitmap stored from the top has a negative height, which is read as a huge one. *)
Theorem C73_bmp_top_down_refuted header size more : length header = 12%nat -> new_from_buffer (bmp_file header size 20 (-10) more) = Done (sized IBmp 20 4294967286 D96 D96 true).
Proof. intros L. rewrite bmp_reads; [reflexivity|exact L|discriminate|discriminate]. Qed.
(** Buffers of fewer than four bytes. *)
Theorem C73_short_buffer_refuted data : (length data < 4)%nat -> new_from_buffer data = Panics.
Proof. intros H. destruct data as [|a [|b [|c [|d r]]]]; try reflexivity. cbn in H. lia. Qed.
(** A PNG file that was cut off after its signature and part of a chunk. *)
Theorem C73_cut_png_refuted rest : (0 < length rest < 8)%nat -> new_from_buffer (png_signature ++ rest) = Panics.
Proof.
  intros H. cbn [png_signature app]. rewrite read_start. cbv zeta. change (str_eqb [80; 78; 71] (lit "PNG")) with true. cbv iota.
  set (data := 137 :: 80 :: 78 :: 71 :: 13 :: 10 :: 26 :: 10 :: rest). assert (L : length data = (8 + length rest)%nat) by reflexivity. generalize (length data) at 1. intros fuel. cbn [png_loop].
  destruct (Nat.ltb_spec 8 (length data)) as [_|Q]; [|lia]. unfold part. destruct (Nat.leb_spec (8 + 4 + 4) (length data)) as [M|M]; [lia|]. reflexivity.
Qed.
(** A JPEG file that ends without a scan. *)
Definition no_scan : list N := [255; 216] ++ segment_bytes (frame 192 8 10 20 []) ++ [255; 217].
Theorem C73_jpeg_without_scan_refuted : new_from_buffer no_scan = Panics.
Proof. vm_compute. reflexivity. Qed.
(** Fill bytes (FF) before a marker are allowed; the size after them is not found. *)
Definition filled : list N := [255; 216; 255] ++ segment_bytes (frame 192 8 10 20 [1; 1; 17; 0]) ++ [255; 218] ++ repeat 0 60.
Theorem C73_jpeg_fill_bytes_refuted : new_from_buffer filled = Fails ImageDimensionError.
Proof. vm_compute. reflexivity. Qed.
(** An extension segment (JFXX) is taken for a JFIF one: its bytes are read as a resolution. *)
Definition extended : list segment := [jfif 1 1 1 300 300 [0; 0]; {| s_code := 224; s_data := lit "JFXX" ++ [0; 19; 0; 1; 0; 7; 0; 7; 0] |}; frame 192 8 10 20 []].
Theorem C73_jpeg_extension_refuted : exists i, new_from_buffer (jpg_file extended [0; 12]) = Done i /\ im_xdpi i = DInch 7.
Proof. eexists. split; [vm_compute; reflexivity|reflexivity]. Qed.

(** ** The theorems at work *)
Definition demo_png := ihdr 640 480 [8; 6; 0; 0; 0] [0; 0; 0; 0].
Example demo_png_ok : chunk_wf demo_png /\ Forall middle [phys 11811 11811 1 [0; 0; 0; 0]; {| c_type := lit "IDAT"; c_data := [1; 2; 3]; c_crc := [0; 0; 0; 0] |}].
Proof.
  split; [repeat split; vm_compute; reflexivity|]. constructor; [|constructor; [|constructor]].
  - split; [repeat split; vm_compute; reflexivity|]. split; [discriminate|]. split; [discriminate|]. intros _. exists 11811, 11811, 1. split; [reflexivity|]. split; reflexivity.
  - split; [repeat split; vm_compute; reflexivity|]. split; [discriminate|]. split; [discriminate|]. discriminate.
Qed.
Definition demo_segs : list jseg := [JJfif 1 2 1 300 150 [0; 0]; JPlain {| s_code := 219; s_data := [0; 1; 2] |}; JFrame 194 8 480 640 [3; 1; 34; 0]; JPlain {| s_code := 196; s_data := [9] |}].
Example demo_jpeg_ok : Forall jseg_wf demo_segs /\ last_of of_frame (0, 0) demo_segs = (640, 480) /\ last_of of_jfif (D96, D96) demo_segs = (DInch 300, DInch 150).
Proof. split; [|split; reflexivity]. unfold demo_segs. repeat constructor; vm_compute; reflexivity. Qed.
