(** The file formats: PNG (ISO/IEC 15948, 5.2-5.3, 11.2.2, 11.3.5.3), JPEG (ITU T.81 annex B, JFIF 1.02), GIF89a, BMP. *)
From Verif Require Import Base Image_Model.

(** Numbers of [k] bytes, most significant first. *)
Fixpoint bytes_be (k : nat) (n : N) : list N := match k with O => [] | S k => bytes_be k (n / 256) ++ [n mod 256] end.
Definition bytes_le (k : nat) (n : N) : list N := rev (bytes_be k n).
(** Two's complement in 32 bits. *)
Definition signed32 (z : Z) : N := Z.to_N (z mod 4294967296).

(** ** PNG: the signature and chunks of length, type, data and checksum. *)
Definition png_signature : list N := [137; 80; 78; 71; 13; 10; 26; 10].
Record chunk := { c_type : list N; c_data : list N; c_crc : list N }.
Definition chunk_bytes (c : chunk) : list N := bytes_be 4 (N.of_nat (length (c_data c))) ++ c_type c ++ c_data c ++ c_crc c.
Definition chunk_wf (c : chunk) : Prop := length (c_type c) = 4%nat /\ length (c_crc c) = 4%nat /\ N.of_nat (length (c_data c)) < 2 ^ 31.
Definition png_file (chunks : list chunk) (tail : list N) : list N := png_signature ++ flat_map chunk_bytes chunks ++ tail.
(** The header: width, height and five more bytes. *)
Definition ihdr (w h : N) (more crc : list N) : chunk := {| c_type := lit "IHDR"; c_data := bytes_be 4 w ++ bytes_be 4 h ++ more; c_crc := crc |}.
Definition iend (crc : list N) : chunk := {| c_type := lit "IEND"; c_data := []; c_crc := crc |}.
(** Pixels per unit in the two directions, and the unit: 1 is the metre. *)
Definition phys (x y unit : N) (crc : list N) : chunk := {| c_type := lit "pHYs"; c_data := bytes_be 4 x ++ bytes_be 4 y ++ [unit]; c_crc := crc |}.
(** A chunk between the header and the end: pHYs with its nine bytes, or of another type. *)
Definition middle (c : chunk) : Prop :=
  chunk_wf c /\ c_type c <> lit "IHDR" /\ c_type c <> lit "IEND" /\
  (c_type c = lit "pHYs" -> exists x y u, c = phys x y u (c_crc c) /\ x < 2 ^ 32 /\ y < 2 ^ 32).
(** The resolution a chunk gives. *)
Definition of_phys (c : chunk) : option (N * N) :=
  if str_eqb (c_type c) (lit "pHYs") then
    let x := be (firstn 4 (c_data c)) in let y := be (firstn 4 (skipn 4 (c_data c))) in
    if str_eqb (skipn 8 (c_data c)) [1] && (0 <? x) && (0 <? y) then Some (x, y) else None
  else None.
Fixpoint last_phys (d : option (N * N)) (l : list chunk) : option (N * N) :=
  match l with [] => d | c :: l => last_phys (match of_phys c with Some r => Some r | None => d end) l end.

(** ** JPEG: start of image and segments of marker, length and data, up to the start of scan. *)
Record segment := { s_code : N; s_data : list N }.
Definition segment_bytes (s : segment) : list N := [255; s_code s] ++ bytes_be 2 (N.of_nat (length (s_data s)) + 2) ++ s_data s.
(** Markers with data, other than frames, the start of scan and APP0: FFC4 DHT, FFCC DAC, FFDB to FFFE. *)
Definition plain_code (c : N) : bool := (c =? 196) || (c =? 204) || ((219 <=? c) && (c <=? 254) && negb (c =? 224)).
(** Start of frame: C0 to CF but for C4, C8 and CC. *)
Definition frame_code (c : N) : bool := (192 <=? c) && (c <=? 207) && negb ((c =? 196) || (c =? 200) || (c =? 204)).
(** JFIF: identifier, version, unit (0 none, 1 inch, 2 cm), densities, thumbnail size and thumbnail. *)
Definition jfif (v1 v2 unit x y : N) (thumb : list N) : segment := {| s_code := 224; s_data := lit "JFIF" ++ [0; v1; v2; unit] ++ bytes_be 2 x ++ bytes_be 2 y ++ thumb |}.
(** Precision, height, width and components. *)
Definition frame (code precision h w : N) (more : list N) : segment := {| s_code := code; s_data := [precision] ++ bytes_be 2 h ++ bytes_be 2 w ++ more |}.
Definition jpg_file (segments : list segment) (scan : list N) : list N := [255; 216] ++ flat_map segment_bytes segments ++ [255; 218] ++ scan.
Definition plain (s : segment) : Prop := plain_code (s_code s) = true /\ N.of_nat (length (s_data s)) + 2 < 2 ^ 16.
(** The segments of a baseline or progressive file. *)
Inductive jseg := JPlain (s : segment) | JJfif (v1 v2 unit x y : N) (thumb : list N) | JFrame (code precision h w : N) (more : list N).
Definition to_segment (j : jseg) : segment := match j with JPlain s => s | JJfif v1 v2 u x y t => jfif v1 v2 u x y t | JFrame c p h w m => frame c p h w m end.
Definition jseg_wf (j : jseg) : Prop :=
  N.of_nat (length (s_data (to_segment j))) + 2 < 2 ^ 16 /\
  match j with JPlain s => plain_code (s_code s) = true | JJfif _ _ _ x y _ => x < 2 ^ 16 /\ y < 2 ^ 16 | JFrame c _ h w _ => frame_code c = true /\ w < 2 ^ 16 /\ h < 2 ^ 16 end.
Definition of_frame (j : jseg) : option (N * N) := match j with JFrame _ _ h w _ => Some (w, h) | _ => None end.
(** Densities per inch or cm; 0, and 1 per inch, are not real and mean 96 dpi; without a unit there is no resolution. *)
Definition per_inch (n : N) : density := if n <=? 1 then D96 else DInch n.
Definition per_cm (n : N) : density := if n =? 0 then D96 else DCm n.
Definition of_jfif (j : jseg) : option (density * density) :=
  match j with JJfif _ _ u x y _ => if u =? 1 then Some (per_inch x, per_inch y) else if u =? 2 then Some (per_cm x, per_cm y) else None | _ => None end.
Fixpoint last_of {A B} (f : A -> option B) (d : B) (l : list A) : B := match l with [] => d | a :: l => last_of f (match f a with Some b => b | None => d end) l end.
(** ** GIF: version 87a or 89a, then the size of the screen; BMP: header of 14 bytes, size of the next header (40 or more), width and height. *)
Definition gif_file (version : list N) (w h : N) (more : list N) : list N := lit "GIF" ++ version ++ bytes_le 2 w ++ bytes_le 2 h ++ more.
Definition bmp_file (header : list N) (size : N) (w h : Z) (more : list N) : list N := lit "BM" ++ header ++ bytes_le 4 size ++ bytes_le 4 (signed32 w) ++ bytes_le 4 (signed32 h) ++ more.
