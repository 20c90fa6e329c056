(** Header and footer pictures: when a call is accepted, what was asked for, and
    reading the VML part. *)
From Verif Require Import Base Xml_Spec Xml_Read SheetXml_Spec Doc_Spec View_Spec Setup_Spec Note_Model Note_Spec Hf_Model.

(** ** Sections of a header text: "&L", "&C" and "&R" begin one. *)
Definition mark (a : char) (s : str) : Prop := exists u v, s = u ++ [38; a] ++ v.
Definition section_letters : list char := [76; 67; 82].   (* L, C, R *)
Definition letter (p : hpos) : char := match p with HLeft => 76 | HCenter => 67 | HRight => 82 end.
(** [sec] is the text of the only section of [h] for position [p]. *)
Definition section_text (p : hpos) (h sec : str) : Prop :=
  exists before after, h = before ++ [38; letter p] ++ sec ++ after /\ ~ mark (letter p) before /\ ~ mark (letter p) (sec ++ after) /\
    (forall b, In b section_letters -> ~ mark b sec) /\ (after = [] \/ exists b t, In b section_letters /\ after = [38; b] ++ t).
Definition picture_code (sec : str) : Prop := exists u v, sec = u ++ lit "&G" ++ v \/ sec = u ++ lit "&[Picture]" ++ v.

(** ** What was asked for *)
Definition of_text (header : bool) (o : hop) : option str :=
  match o with HText b t => if Bool.eqb b header && (N.of_nat (length (shorten t)) <=? 255) then Some t else None | _ => None end.
(** The header (footer) after the calls; the newest call first. *)
Fixpoint text_after (header : bool) (ops : list hop) : str :=
  match ops with [] => [] | o :: r => match of_text header o with Some t => t | None => text_after header r end end.
Definition hpos_eqb (a b : hpos) : bool := match a, b with HLeft, HLeft | HCenter, HCenter | HRight, HRight => true | _, _ => false end.
(** The picture at a place: that of the last call for it made while the text had a
    place for pictures there. *)
Inductive picture_after (header : bool) (p : hpos) : list hop -> option hpic -> Prop :=
| pa_none : picture_after header p [] None
| pa_set i ops : (exists sec, section_text p (text_after header ops) sec /\ picture_code sec) ->
    picture_after header p (HImage header p i :: ops) (Some i)
| pa_refused i ops x : ~ (exists sec, section_text p (text_after header ops) sec /\ picture_code sec) ->
    picture_after header p ops x -> picture_after header p (HImage header p i :: ops) x
| pa_other o ops x : (forall i, o <> HImage header p i) -> picture_after header p ops x -> picture_after header p (o :: ops) x.

(** ** Reading *)
Record himage := { hi_place : str; hi_id : str; hi_rel : N; hi_title : str; hi_width : N; hi_height : N; hi_z : N; hi_keep_ratio : bool }.
Definition read_rid (s : str) : option N := match strip_prefix (lit "rId") s with Some t => number_of t | None => None end.
Definition read_himage (n : node) : option himage :=
  let l := attrs_of n in
  bind (attr "id" l) (fun pl => bind (attr "o:spid" l) (fun id => bind (attr "style" l) (fun st => let st := read_style st in
  bind (length_of "width" st) (fun w => bind (length_of "height" st) (fun h => bind (bind (attr "z-index" st) number_of) (fun z =>
  bind (kid "v:imagedata" (kids_of n)) (fun d => bind (bind (attr "o:relid" (attrs_of d)) read_rid) (fun r => bind (attr "o:title" (attrs_of d)) (fun t =>
  bind (kid "o:lock" (kids_of n)) (fun k =>
  Some {| hi_place := pl; hi_id := id; hi_rel := r; hi_title := t; hi_width := w; hi_height := h; hi_z := z;
          hi_keep_ratio := match attr "aspectratio" (attrs_of k) with Some v => negb (str_eqb v (lit "f")) | None => true end |})))))))))).
(** The data id the part reserves, and its pictures. *)
Definition read_hf_part (root : node) : option (N * list himage) :=
  if is_elem "xml" root then
    bind (kid "o:shapelayout" (kids_of root)) (fun y => bind (kid "o:idmap" (kids_of y)) (fun m => bind (bind (attr "data" (attrs_of m)) number_of) (fun k =>
    bind (read_all read_himage (filter (is_elem "v:shape") (kids_of root))) (fun l => Some (k, l)))))
  else None.

(** The places, in the order of the part, by the names Excel knows them by. *)
Definition places : list (bool * hpos * string) :=
  [(true, HLeft, "LH"); (true, HCenter, "CH"); (true, HRight, "RH"); (false, HLeft, "LF"); (false, HCenter, "CF"); (false, HRight, "RF")]%string.
(** The file of a picture: the number of its contents among all different contents. *)
Definition media_file (base : N) (hashes : list str) (i : hpic) (target : str) : Prop :=
  exists k, nth_error hashes k = Some (hp_hash i) /\ target = lit "../media/image" ++ dec (base + 1 + N.of_nat k) ++ lit "." ++ hp_ext i.
