(** Properties C24, C25, C28: format registries. *)
From Coq Require Import Permutation.
From Verif Require Import Base SMap F64 Fmt_Model Sst_Model Cells_Model Cells_Spec Cells_Proofs Cells_Proofs2
  Cells_Inv Cells_Save Cells_Hist Props_Cells SortLib Reg_Model Reg_Proofs.

(** In all statements [iter] is the order in which the HashMap happens to yield
    its entries and [xf_formats_of iter] is the list of <xf> elements of
    <cellXfs> in styles.xml. *)
Definition selects (styles : list Format) (i : N) (f : Format) : Prop := nth_error styles (N.to_nat i) = Some f.

(** ** C24 *)

(** Register any sequence of formats in a new workbook: each index selects its
    format in styles.xml; no format is written twice; index 0 is the default
    format; nothing else is written. *)
Theorem C24_indices_select fs iter : Permutation iter (fst (register_list hm_new fs)) ->
  let styles := xf_formats_of iter in
  Forall2 (fun f i => selects styles i f) fs (snd (register_list hm_new fs)) /\
  NoDup styles /\ selects styles 0 format_default /\ (forall f, In f styles <-> f = format_default \/ In f fs).
Proof.
  intros P. cbv zeta. destruct (register_list_dense fs hm_new [format_default] dense_new) as (r & D & F).
  rewrite (dense_written _ _ iter D P). split; [exact F|]. split; [apply D|]. split; [reflexivity|].
  intros f. split; [|intros [->|H]].
  - revert r D F. clear P iter. revert f.
    assert (G : forall m l, dense m l -> forall r, dense (fst (register_list m fs)) (l ++ r) -> forall f, In f (l ++ r) -> In f l \/ In f fs).
    { induction fs as [|g fs IH]; intros m l D r D2 f H; cbn [register_list fst] in D2.
      - left. apply (Permutation_in _ (dense_keys _ _ D)). apply (Permutation_in _ (Permutation_sym (dense_keys _ _ D2))). exact H.
      - destruct (hm_register m g) as [m1 i] eqn:E1. destruct (register_list m1 fs) as [m2 is] eqn:E2. cbn [fst] in D2.
        destruct (dense_register m l g D) as [D1 _]. rewrite E1 in D1. cbn [fst] in D1.
        destruct (register_list_dense fs m1 _ D1) as (r2 & D3 & _). rewrite E2 in D3. cbn [fst] in D3.
        assert (HIn : In f (fst (format_xf_index l g) ++ r2)).
        { apply (Permutation_in _ (dense_keys _ _ D3)), (Permutation_in _ (Permutation_sym (dense_keys _ _ D2))). exact H. }
        assert (D3' : dense (fst (register_list m1 fs)) (fst (format_xf_index l g) ++ r2)) by now rewrite E2.
        destruct (IH m1 _ D1 r2 D3' f HIn) as [A|A]; [|right; now right].
        unfold format_xf_index in A. destruct (fmt_find g l); cbn [fst] in A; [now left|].
        apply in_app_iff in A as [A|[A|[]]]; [now left|right; now left]. }
    intros f r D F H. destruct (G hm_new [format_default] dense_new r D f H) as [[A|[]]|A]; auto.
  - now left.
  - revert F H. generalize (snd (register_list hm_new fs)). clear. intros is F. induction F as [|g i fs is E F IH]; [intros []|].
    intros [->|H]; [now apply nth_error_In in E|now apply IH].
Qed.

(** Two registrations get the same index exactly when the formats are equal. *)
Theorem C24_same_index_iff_equal fs : let is := snd (register_list hm_new fs) in
  forall a b fa fb ia ib, nth_error fs a = Some fa -> nth_error fs b = Some fb ->
    nth_error is a = Some ia -> nth_error is b = Some ib -> (ia = ib <-> fa = fb).
Proof.
  cbv zeta. destruct (register_list_dense fs hm_new [format_default] dense_new) as (r & D & F). intros a b fa fb ia ib A B IA IB.
  assert (G : forall n f i, nth_error fs n = Some f -> nth_error (snd (register_list hm_new fs)) n = Some i ->
     nth_error ([format_default] ++ r) (N.to_nat i) = Some f).
  { revert F. generalize (snd (register_list hm_new fs)). clear. intros is F. induction F as [|g j fs is E F IH]; intros [|n] f i Hf Hi; cbn in Hf, Hi; try discriminate.
    - injection Hf as <-. injection Hi as <-. exact E.
    - exact (IH n f i Hf Hi). }
  pose proof (G _ _ _ A IA) as GA. pose proof (G _ _ _ B IB) as GB. split; [intros ->; congruence|]. intros ->.
  destruct D as [N _]. apply N2Nat.inj, (proj1 (NoDup_nth_error _) N); [|congruence]. apply nth_error_Some. congruence.
Qed.

(** The local registry of a worksheet (vector and HashMap) gives the same
    indices as the vector alone. *)
Theorem C24_local_registry fs f :
  let r := fold_left (fun r g => fst (local_register r g)) fs local_new in
  let l := fold_left (fun l g => fst (format_xf_index l g)) fs [format_default] in
  formats r = l /\ snd (local_register r f) = snd (format_xf_index l f) /\ selects (formats (fst (local_register r f))) (snd (local_register r f)) f.
Proof.
  cbv zeta.
  assert (S : forall r g, dense (indices r) (formats r) ->
     dense (indices (fst (local_register r g))) (formats (fst (local_register r g))) /\
     formats (fst (local_register r g)) = fst (format_xf_index (formats r) g) /\ snd (local_register r g) = snd (format_xf_index (formats r) g)).
  { intros r g D. destruct (dense_register _ _ g D) as [D1 I1]. unfold local_register, hm_register, read_section, write_section in *.
    rewrite (dense_length _ _ D) in *. unfold format_xf_index in *.
    destruct (hm_get (indices r) g) as [i|] eqn:E; cbn [fst snd formats indices] in *.
    - apply (dense_get _ _ _ _ D) in E. destruct (fmt_find g (formats r)) eqn:E2; [cbn; split; [exact D|]; split; [reflexivity|exact I1]|].
      apply fmt_find_none in E2. apply nth_error_In in E. contradiction.
    - apply (dense_none _ _ _ D), fmt_find_none in E. rewrite E in *. cbn [fst snd] in *. auto. }
  assert (G : forall fs r l, dense (indices r) (formats r) -> formats r = l ->
     let r' := fold_left (fun r g => fst (local_register r g)) fs r in
     dense (indices r') (formats r') /\ formats r' = fold_left (fun l g => fst (format_xf_index l g)) fs l).
  { clear fs f. induction fs as [|g fs IH]; intros r l D E; cbn [fold_left]; [auto|].
    destruct (S r g D) as (D1 & F1 & _). apply IH; [exact D1|]. now rewrite F1, E. }
  destruct (G fs local_new [format_default] dense_new eq_refl) as [D E]. cbv zeta in D, E.
  destruct (S _ f D) as (D1 & F1 & I1). rewrite <- E. split; [reflexivity|]. split; [exact I1|].
  rewrite I1, F1. apply reg_index.
Qed.
Example C24_witness : snd (register_list hm_new [format_hyperlink; format_default; format_hyperlink]) = [1; 0; 1].
Proof. vm_compute. reflexivity. Qed.

(** ** C25 *)

(** Threads start from a registry built sequentially (for example by
    registering formats in advance), each with the formats it will use. *)
Definition start (registered : list Format) (work : list (list Format)) : world :=
  {| registry := fst (register_list hm_new registered); threads := map thread_new work |}.
Lemma start_inv registered work : exists r, winv (start registered work) ([format_default] ++ r).
Proof.
  destruct (register_list_dense registered hm_new [format_default] dense_new) as (r & D & _). exists r. split; [exact D|].
  cbn [threads start]. intros i t H. rewrite nth_error_map in H. destruct (nth_error work i); [|discriminate].
  injection H as <-. cbn. split; [tauto|discriminate].
Qed.

(** The English claim: after any schedule, every index handed to any thread
    selects, in the file saved afterwards, the format it was handed out for. *)
Definition consistent (w : world) : Prop := forall hyper local iter,
  Permutation iter (fst (save_registry (registry w) hyper local)) ->
  let styles := xf_formats_of iter in
  NoDup styles /\ selects styles 0 format_default /\
  forall k t f i, nth_error (threads w) k = Some t -> In (f, i) (got t) -> selects styles i f.
Lemma inv_consistent w r : winv w ([format_default] ++ r) -> consistent w.
Proof.
  intros [D T] h local iter P. cbv zeta. destruct (dense_save _ _ h local iter D P) as (r2 & -> & N & _).
  split; [exact N|]. split; [reflexivity|]. intros k t f i Hk Hin. unfold selects. apply nth_ext_app. now apply (proj1 (T k t Hk)).
Qed.

(** Proved for every schedule in which no two threads are, at the same time,
    between the failed look-up and the insertion of the same format. *)
Theorem C25_consistent_without_clash_partial registered work sched :
  never_clashes (start registered work) sched -> consistent (world_run (start registered work) sched).
Proof.
  intros N. destruct (start_inv registered work) as [r H]. destruct (world_run_inv _ _ _ H N) as [r2 H2].
  rewrite <- app_assoc in H2. exact (inv_consistent _ _ H2).
Qed.
(** In particular for every schedule, if any format used by two different
    threads was registered beforehand. *)
Theorem C25_every_schedule_if_preregistered_partial registered work sched :
  (forall i j fi fj f, i <> j -> nth_error work i = Some fi -> nth_error work j = Some fj -> In f fi -> In f fj -> In f registered) ->
  consistent (world_run (start registered work) sched).
Proof.
  intros Hown. apply C25_consistent_without_clash_partial.
  destruct (register_list_dense registered hm_new [format_default] dense_new) as (r & D & F).
  assert (Hreg : forall f, In f registered -> In f ([format_default] ++ r)).
  { intros f H. revert H F. generalize (snd (register_list hm_new registered)). clear. intros is H F.
    induction F as [|g i fs is E F IH]; [destruct H|]. destruct H as [->|H]; [now apply nth_error_In in E|now apply IH]. }
  (* the owner of a format: the first thread that uses it *)
  set (uses := fun f (fs : list Format) => if in_dec format_eq_dec f fs then true else false).
  set (owner := fun f => let fix go (k : nat) (l : list (list Format)) := match l with [] => k | x :: l => if uses f x then k else go (S k) l end in go 0%nat work).
  assert (W : forall f k0 l, (exists n fs, nth_error l n = Some fs /\ In f fs) -> exists n fs,
     (fix go (k : nat) (l : list (list Format)) := match l with [] => k | x :: l => if uses f x then k else go (S k) l end) k0 l = (k0 + n)%nat /\ nth_error l n = Some fs /\ In f fs).
  { intros f k0 l. revert k0. induction l as [|x l IH]; intros k0 (n & fs & H & Hin); [destruct n; discriminate|].
    unfold uses at 1. destruct (in_dec format_eq_dec f x) as [Hx|Hx]; [exists 0%nat, x; rewrite Nat.add_0_r; auto|].
    destruct n as [|n]; [injection H as <-; contradiction|]. destruct (IH (S k0)) as (n2 & fs2 & E & H2 & Hin2); [now exists n, fs|].
    exists (S n2), fs2. split; [fold uses; rewrite E; lia|auto]. }
  apply (owned_never_clashes sched owner (start registered work) ([format_default] ++ r) []).
  - intros k t Hk f Hf. cbn [threads start] in Hk. rewrite nth_error_map in Hk. destruct (nth_error work k) as [fs|] eqn:Ew; [|discriminate].
    injection Hk as <-. cbn in Hf. destruct Hf as [Hf|]; [|discriminate].
    destruct (W f 0%nat work) as (n & fs2 & E & Hn & Hin); [now exists k, fs|]. cbn [Nat.add] in E. fold owner in E.
    destruct (Nat.eq_dec n k) as [->|Hne]; [right; exact E|]. left. apply Hreg. exact (Hown n k fs2 fs f Hne Hn Ew Hin Hf).
  - rewrite app_nil_r. split; [exact D|]. cbn [threads start]. intros i t H. rewrite nth_error_map in H. destruct (nth_error work i); [|discriminate].
    injection H as <-. cbn. split; [tauto|discriminate].
Qed.
Definition bold_font : Font := {| bold := true; italic := false; underline := 0; font_name := lit "Calibri"; font_size := lit "11";
     font_color := CDefault; strikethrough := false; script := 0; family := 2; charset := 0;
     scheme := lit "minor"; condense := false; extend := false; is_hyperlink := false |}.
Definition bold_format : Format := {| num_format := []; num_format_index := 0; font := bold_font; alignment := align_default;
     borders := border_default; fill := fill_default; hidden := false; locked := true; checkbox := false; quote_prefix := false |}.
Definition unlocked_format : Format := {| num_format := []; num_format_index := 0; font := font_default; alignment := align_default;
     borders := border_default; fill := fill_default; hidden := false; locked := false; checkbox := false; quote_prefix := false |}.
(** The hypothesis of the theorem is met by two threads sharing a registered
    format while each also uses formats of its own. *)
Example C25_met : forall i j fi fj f, i <> j ->
  nth_error [[bold_format; format_hyperlink]; [unlocked_format; bold_format]] i = Some fi ->
  nth_error [[bold_format; format_hyperlink]; [unlocked_format; bold_format]] j = Some fj -> In f fi -> In f fj -> In f [bold_format].
Proof.
  intros [|[|i]] [|[|j]] fi fj f Hne Hi Hj Ha Hb; cbn in Hi, Hj; try congruence; try (destruct i; discriminate); try (destruct j; discriminate);
   injection Hi as <-; injection Hj as <-; cbn in *; destruct Ha as [<-|[<-|[]]]; destruct Hb as [Hb|[Hb|[]]]; try discriminate Hb; auto.
Qed.

(** Refuted in general: two threads use the same new format, one of them then a
    second one.  Both look-ups miss; the second insertion overwrites the index
    of the first with a number beyond the end; the next format gets the same
    number again.  The second thread's bold cells select the unlocked format. *)
Theorem C25_any_schedule_refuted :
  exists work sched, let w := world_run (start [] work) sched in
    (forall t, In t (threads w) -> todo t = [] /\ missed t = None) /\
    map got (threads w) = [[(bold_format, 1); (unlocked_format, 2)]; [(bold_format, 2)]] /\
    registry w = [(format_default, 0); (bold_format, 2); (unlocked_format, 2)] /\
    (exists iter, Permutation iter (registry w) /\ selects (xf_formats_of iter) 2 unlocked_format /\ ~ selects (xf_formats_of iter) 2 bold_format) /\
    ~ consistent w.
Proof.
  exists [[bold_format; unlocked_format]; [bold_format]], [0; 1; 0; 1; 0; 0]%nat.
  assert (W : world_run (start [] [[bold_format; unlocked_format]; [bold_format]]) [0; 1; 0; 1; 0; 0]%nat =
    {| registry := [(format_default, 0); (bold_format, 2); (unlocked_format, 2)];
       threads := [{| todo := []; missed := None; got := [(bold_format, 1); (unlocked_format, 2)] |};
                   {| todo := []; missed := None; got := [(bold_format, 2)] |}] |}) by (vm_compute; reflexivity).
  cbv zeta. rewrite W. cbn [threads registry map got].
  split; [intros t [<-|[<-|[]]]; split; reflexivity|]. split; [reflexivity|]. split; [reflexivity|].
  assert (X : exists iter, Permutation iter [(format_default, 0); (bold_format, 2); (unlocked_format, 2)] /\
       selects (xf_formats_of iter) 2 unlocked_format /\ ~ selects (xf_formats_of iter) 2 bold_format).
  { exists [(format_default, 0); (bold_format, 2); (unlocked_format, 2)]. split; [reflexivity|]. split; [reflexivity|]. vm_compute. discriminate. }
  split; [exact X|]. intros C. destruct X as (iter & P & _ & Hn). apply Hn.
  apply (proj2 (proj2 (C false [] iter P)) 1%nat {| todo := []; missed := None; got := [(bold_format, 2)] |} bold_format 2); [reflexivity|now left].
Qed.

(** ** C28 *)

(** A workbook of standard worksheets: the calls made on each (calls on
    different worksheets commute); [registered] are the formats in the
    workbook's registry before saving. *)
Definition sheets_of (hist : list (list op)) : list ws := map (run ws_standard) hist.
Section Save.
Variables (hist : list (list op)) (registered : list Format) (hyper : bool) (iter : list (Format * N)).
Let saved := save_registry (fst (register_list hm_new registered)) hyper (map xfs (sheets_of hist)).
Hypothesis order : Permutation iter (fst saved).
Let styles := xf_formats_of iter.
(** The style map of worksheet k. *)
Let style_of (k : nat) : N -> N := get_global_xf_index (nth k (snd saved) []).

Lemma remap k ops : nth_error hist k = Some ops -> selects styles 0 format_default /\
  forall i f, nth_error (xfs (run ws_standard ops)) (N.to_nat i) = Some f -> selects styles (style_of k i) f.
Proof.
  intros Hk. destruct (register_list_dense registered hm_new [format_default] dense_new) as (r & D & _).
  destruct (dense_save _ _ hyper (map xfs (sheets_of hist)) iter D order) as (r2 & E & _ & F). fold saved in F.
  unfold styles. rewrite E. split; [reflexivity|]. intros i f Hi.
  assert (Hs : nth_error (map xfs (sheets_of hist)) k = Some (xfs (run ws_standard ops))).
  { unfold sheets_of. rewrite !nth_error_map, Hk. reflexivity. }
  unfold style_of. revert F Hs. generalize (snd saved) (map xfs (sheets_of hist)). intros idx ss. clear - Hi. intros F. revert idx F.
  revert k. induction ss as [|s ss IH]; intros [|k] idx F Hs; cbn in Hs; try discriminate; inversion F as [|x y ? ? F1 F2]; subst.
  - injection Hs as ->. cbn [nth]. unfold get_global_xf_index, selects. clear - F1 Hi. revert F1 Hi. generalize (N.to_nat i).
    intros n F1. revert n. induction F1 as [|g j fs is E F IH]; intros [|n] Hn; cbn in Hn; try discriminate; cbn [nth].
    + injection Hn as ->. exact E.
    + now apply IH.
  - cbn [nth]. now apply IH.
Qed.

(** A cell with a format of its own. *)
Theorem C28_own_format_in_styles k pre o post w1 r c f t :
  nth_error hist k = Some (pre ++ o :: post) ->
  step (run ws_standard pre) o = (w1, None) -> gives_format o r c = Some f -> f <> format_default ->
  is_range_format o = false -> untouched w1 post r c ->
  exists v s, shown (sheet_rows (run ws_standard (pre ++ o :: post)) t (style_of k)) r c = [(v, s)] /\ selects styles s f.
Proof.
  intros Hk E Hf Hne Hr Hu. destruct (remap k _ Hk) as [R0 R].
  destruct (own_format_general pre o post w1 r c f t (style_of k)) as (v & i & S & _ & Hi); try assumption.
  - intros i Hi Ez. specialize (R i f Hi). rewrite Ez in R. unfold selects in *. congruence.
  - exists v, (style_of k i). split; [exact S|]. now apply R.
Qed.
(** An unformatted cell of a formatted row. *)
Theorem C28_row_format_in_styles k pre o post w1 r c v f a b t :
  nth_error hist k = Some (pre ++ o :: post) ->
  step (run ws_standard pre) o = (w1, None) -> is_write o = true -> writes (run ws_standard pre) o r c = Some v ->
  v <> VBlank -> write_format o = None -> untouched w1 post r c ->
  existsb (formats_row r) pre = false \/ existsb (formats_col c) pre = false ->
  pre ++ o :: post = a ++ SetRowFormat r f :: b -> existsb (formats_row r) b = false ->
  r < 1048576 -> f <> format_default ->
  exists s, shown (sheet_rows (run ws_standard (pre ++ o :: post)) t (style_of k)) r c = [(v, s)] /\ selects styles s f.
Proof.
  intros Hk E Hw Hv Hb Hf Hu Hn Hl Hlast Hr Hne. destruct (remap k _ Hk) as [R0 R].
  destruct (C27_row_format_next pre o post w1 r c v f a b t (style_of k) E Hw Hv Hb Hf Hu Hn Hl Hlast Hr Hne) as (i & S & Hi).
  exists (style_of k i). split; [exact S|]. now apply R.
Qed.
(** An unformatted cell of a formatted column. *)
Theorem C28_column_format_in_styles k pre o post w1 r c v f a b t :
  nth_error hist k = Some (pre ++ o :: post) ->
  step (run ws_standard pre) o = (w1, None) -> is_write o = true -> writes (run ws_standard pre) o r c = Some v ->
  v <> VBlank -> write_format o = None -> untouched w1 post r c ->
  existsb (formats_row r) (pre ++ o :: post) = false ->
  pre ++ o :: post = a ++ SetColumnFormat c f :: b -> existsb (formats_col c) b = false ->
  c < 16384 -> f <> format_default ->
  exists s, shown (sheet_rows (run ws_standard (pre ++ o :: post)) t (style_of k)) r c = [(v, s)] /\ selects styles s f.
Proof.
  intros Hk E Hw Hv Hb Hf Hu Hn Hl Hlast Hr Hne. destruct (remap k _ Hk) as [R0 R].
  destruct (C27_column_format_last pre o post w1 r c v f a b t (style_of k) E Hw Hv Hb Hf Hu Hn Hl Hlast Hr Hne) as (i & S & Hi).
  exists (style_of k i). split; [exact S|]. now apply R.
Qed.
(** A cell without any format selects the default one. *)
Theorem C28_default_in_styles k pre o post w1 r c v t :
  nth_error hist k = Some (pre ++ o :: post) ->
  step (run ws_standard pre) o = (w1, None) -> is_write o = true -> writes (run ws_standard pre) o r c = Some v ->
  v <> VBlank -> write_format o = None -> untouched w1 post r c ->
  existsb (formats_row r) (pre ++ o :: post) = false -> existsb (formats_col c) (pre ++ o :: post) = false ->
  exists s, shown (sheet_rows (run ws_standard (pre ++ o :: post)) t (style_of k)) r c = [(v, s)] /\ selects styles s format_default.
Proof.
  intros Hk E Hw Hv Hb Hf Hu Hn Hm. exists 0. split; [|exact (proj1 (remap k _ Hk))].
  exact (C27_default_otherwise pre o post w1 r c v t (style_of k) E Hw Hv Hb Hf Hu Hn Hm).
Qed.
End Save.
(** Two worksheets whose formats were first used in different orders. *)
Example C28_met :
  let hist := [[WriteNumber 0 0 (f_of_N 1) (Some bold_format)]; [WriteNumber 0 0 (f_of_N 1) (Some unlocked_format); WriteNumber 1 0 (f_of_N 2) (Some bold_format)]] in
  let saved := save_registry (fst (register_list hm_new [])) false (map xfs (sheets_of hist)) in
  snd saved = [[0; 1]; [0; 2; 1]] /\ xf_formats_of (fst saved) = [format_default; bold_format; unlocked_format] /\
  shown (sheet_rows (run ws_standard [WriteNumber 0 0 (f_of_N 1) (Some unlocked_format); WriteNumber 1 0 (f_of_N 2) (Some bold_format)])
     sst_new (get_global_xf_index (nth 1 (snd saved) []))) 1 0 = [(VNumber (f_of_N 2), 1)].
Proof. split; [vm_compute; reflexivity|]. split; [vm_compute; reflexivity|]. vm_compute; reflexivity. Qed.
