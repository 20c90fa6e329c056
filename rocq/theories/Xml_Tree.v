(** Parts written with the calls of src/xmlwriter.rs: a tree of calls, the text it
    produces, and the theorem that the text reads back as that tree. *)
From Verif Require Import Base Xml_Model Xml_Spec Xml_Proofs Xml_Read Xml_Read_Proofs.

(** One call, or a start tag with its matching end tag: xml_empty_tag and
    xml_empty_tag_only (src/xmlwriter.rs:55-72), xml_data_element and
    xml_data_element_only (75-92), xml_start_tag(_only) ... xml_end_tag (30-52). *)
Inductive wx :=
| WEmpty (tag : str) (attrs : list (str * str))
| WData (tag data : str) (attrs : list (str * str))
| WElem (tag : str) (attrs : list (str * str)) (kids : list wx).

(** src/xmlwriter.rs:50-52 *)
Definition xml_end_tag (tag : str) : str := lit "</" ++ tag ++ lit ">".
(** src/xmlwriter.rs:80-92 *)
Definition xml_data_element (tag data : str) (attrs : list (str * str)) : str :=
  lit "<" ++ tag ++ flat_map write_attribute attrs ++ lit ">" ++ escape_xml_data data ++ lit "</" ++ tag ++ lit ">".
(** src/xmlwriter.rs:23-27 *)
Definition xml_declaration : str := lit "<?xml version=""1.0"" encoding=""UTF-8"" standalone=""yes""?>" ++ [10].

Fixpoint write_wx (t : wx) : str :=
  match t with
  | WEmpty tag attrs => xml_empty_tag tag attrs
  | WData tag data attrs => xml_data_element tag data attrs
  | WElem tag attrs kids => xml_start_tag tag attrs ++ flat_map write_wx kids ++ xml_end_tag tag
  end.

(** The element a call stands for. Control characters in data are written as
    "_x00HH_" (C06). *)
Definition data_text (s : str) : str :=
  flat_map (fun c => if (c <? 32) && negb (c =? 9) && negb (c =? 10)
                     then lit "_x00" ++ [hex_upper (c / 16); hex_upper (c mod 16)] ++ lit "_" else [c]) s.
Fixpoint node_of (t : wx) : node :=
  match t with
  | WEmpty tag attrs => Elem tag attrs []
  | WData tag data attrs => Elem tag attrs (match data with [] => [] | _ => [Txt (data_text data)] end)
  | WElem tag attrs kids => Elem tag attrs (map node_of kids)
  end.

(** Characters an attribute value may hold: XML characters except tab and CR. *)
Definition attr_char (c : char) : bool := xml_char c && negb (c =? 9) && negb (c =? 13).
Definition attrs_good (l : list (str * str)) : Prop :=
  NoDup (map (fun p => fst p) l) /\ forall p, In p l -> good_name (fst p) = true /\ forallb attr_char (snd p) = true.
Fixpoint wx_ok (t : wx) : Prop :=
  match t with
  | WEmpty tag attrs => good_name tag = true /\ attrs_good attrs
  | WData tag data attrs => good_name tag = true /\ attrs_good attrs /\ forallb writable data = true
  | WElem tag attrs kids => good_name tag = true /\ attrs_good attrs /\
      (fix all l := match l with [] => True | k :: r => wx_ok k /\ all r end) kids
  end.

Lemma wx_ok_elem tag attrs kids : wx_ok (WElem tag attrs kids) <->
  good_name tag = true /\ attrs_good attrs /\ Forall wx_ok kids.
Proof.
  cbn [wx_ok]. assert (H : forall l, (fix all l := match l with [] => True | k :: r => wx_ok k /\ all r end) l <-> Forall wx_ok l).
  { induction l as [|k l IH]; [split; auto|]. rewrite IH. split; [intros [? ?]; auto|intros H; inversion H; auto]. }
  rewrite H. tauto.
Qed.

Section Ind.
  Variable P : wx -> Prop.
  Hypothesis HE : forall tag attrs, P (WEmpty tag attrs).
  Hypothesis HD : forall tag data attrs, P (WData tag data attrs).
  Hypothesis HK : forall tag attrs kids, Forall P kids -> P (WElem tag attrs kids).
  Fixpoint wx_induction (t : wx) : P t :=
    match t with
    | WEmpty tag attrs => HE tag attrs
    | WData tag data attrs => HD tag data attrs
    | WElem tag attrs kids => HK tag attrs kids
        ((fix go (l : list wx) : Forall P l :=
            match l with [] => Forall_nil P | k :: r => Forall_cons k (wx_induction k) (go r) end) kids)
    end.
End Ind.

Lemma write_attribute_raw kv : write_attribute kv = raw_attr (fst kv, escape_attributes (snd kv)).
Proof. unfold write_attribute, raw_attr. reflexivity. Qed.
Lemma flat_attrs attrs : flat_map write_attribute attrs = flat_map raw_attr (map (fun kv => (fst kv, escape_attributes (snd kv))) attrs).
Proof. induction attrs as [|kv l IH]; [reflexivity|]. cbn [flat_map map]. rewrite IH, write_attribute_raw. reflexivity. Qed.
Lemma attrs_good_ok attrs : attrs_good attrs -> attrs_ok (map (fun kv => (fst kv, escape_attributes (snd kv))) attrs) attrs.
Proof.
  intros [ND H]. split; [|split].
  - rewrite map_map. exact ND.
  - intros p Hp. apply in_map_iff in Hp as (q & <- & Hq). exact (proj1 (H q Hq)).
  - clear ND. induction attrs as [|kv l IH]; [constructor|]. cbn [map]. constructor; [|apply IH; intros; apply H; right; assumption].
    cbn [fst snd]. split; [reflexivity|]. split.
    + intros Hi. apply escape_attributes_delimited in Hi. tauto.
    + apply parse_escape_attributes. exact (proj2 (H kv (or_introl eq_refl))).
Qed.
Lemma start_tag_open tag attrs : xml_start_tag tag attrs = open_tag tag (map (fun kv => (fst kv, escape_attributes (snd kv))) attrs).
Proof. unfold xml_start_tag, open_tag. rewrite flat_attrs, <- app_assoc. reflexivity. Qed.
Lemma empty_tag_open tag attrs : xml_empty_tag tag attrs = empty_tag tag (map (fun kv => (fst kv, escape_attributes (snd kv))) attrs).
Proof. unfold xml_empty_tag, empty_tag. rewrite flat_attrs. cbn [app]. rewrite <- !app_assoc. reflexivity. Qed.
Lemma end_tag_close tag : xml_end_tag tag = close_tag tag. Proof. reflexivity. Qed.
Lemma data_element_shape tag data attrs : xml_data_element tag data attrs = xml_start_tag tag attrs ++ escape_xml_data data ++ xml_end_tag tag.
Proof. unfold xml_data_element, xml_start_tag, xml_end_tag. rewrite <- !app_assoc. reflexivity. Qed.
Lemma writable_escapable s : forallb writable s = true -> forallb (fun c => xml_char c || is_escaped_control c) s = true.
Proof. intros H. apply forallb_forall. intros c Hc. apply writable_cases. rewrite forallb_forall in H. auto. Qed.
Lemma parse_data s : forallb writable s = true -> parse_text (escape_xml_data s) = Some (data_text s).
Proof. intros H. apply parse_escape_xml_data. apply writable_escapable. assumption. Qed.
Lemma escape_nil s : escape_xml_data s = [] -> s = [].
Proof.
  unfold escape_xml_data. rewrite escape_string_chars. destruct s as [|c r]; [reflexivity|]. cbn [escape_chars].
  unfold match_xml_char. destruct (c =? 38); [discriminate|]. destruct (c =? 60); [discriminate|]. destruct (c =? 62); [discriminate|].
  destruct ((c <? 32) && _ && _); discriminate.
Qed.
Lemma text_nodes_data s : text_nodes (escape_xml_data s) (data_text s) = match s with [] => [] | _ => [Txt (data_text s)] end.
Proof.
  destruct s as [|c r]; [reflexivity|]. unfold text_nodes. destruct (escape_xml_data (c :: r)) eqn:E; [|reflexivity].
  apply escape_nil in E. discriminate.
Qed.
Lemma reads_flat_one {A} (f : A -> str) (g : A -> node) l : (forall x, In x l -> reads (f x) [g x]) -> reads (flat_map f l) (map g l).
Proof.
  induction l as [|x l IH]; intros H; [apply reads_nil|]. cbn [flat_map map]. apply reads_cons; [apply H; left; reflexivity|].
  apply IH. intros. apply H. right. assumption.
Qed.

Lemma write_reads t : wx_ok t -> reads (write_wx t) [node_of t].
Proof.
  induction t as [tag attrs|tag data attrs|tag attrs kids IH] using wx_induction; intros H.
  - destruct H as [G A]. cbn [write_wx node_of]. rewrite empty_tag_open. apply reads_empty; [assumption|apply attrs_good_ok; assumption].
  - destruct H as (G & A & W). cbn [write_wx node_of]. rewrite data_element_shape, start_tag_open, end_tag_close, <- text_nodes_data.
    apply reads_leaf; [assumption|apply attrs_good_ok; assumption|apply escape_no_markup|apply parse_data; assumption].
  - apply wx_ok_elem in H as (G & A & F). cbn [write_wx node_of]. rewrite start_tag_open, end_tag_close.
    apply reads_elem; [assumption|apply attrs_good_ok; assumption|]. apply reads_flat_one. intros x Hx. rewrite Forall_forall in IH, F. apply IH; auto.
Qed.

(** ** Documents: the declaration, then one element *)
Fixpoint skip_decl (s : str) : option str :=     (* past "?>" and white space *)
  match s with
  | [] => None
  | c :: r => match r with
              | d :: r' => if (c =? 63) && (d =? 62) then Some r' else skip_decl r
              | [] => None end
  end.
Fixpoint skip_ws (s : str) : str := match s with c :: r => if (c =? 10) || (c =? 32) then skip_ws r else s | [] => [] end.
Definition read_document (s : str) : option node :=
  match strip_prefix (lit "<?xml") s with
  | Some r => match skip_decl r with
              | Some b => match read_xml (skip_ws b) with Some [Elem n l k] => Some (Elem n l k) | _ => None end
              | None => None end
  | None => None
  end.
Definition document (t : wx) : str := xml_declaration ++ write_wx t.

Lemma skip_ws_lt r : skip_ws (60 :: r) = 60 :: r. Proof. reflexivity. Qed.
Lemma read_document_body b n l k : read_xml b = Some [Elem n l k] -> (exists r, b = 60 :: r) -> read_document (xml_declaration ++ b) = Some (Elem n l k).
Proof.
  intros H [r ->]. unfold read_document.
  change (strip_prefix (lit "<?xml") (xml_declaration ++ 60 :: r)) with (Some (lit " version=""1.0"" encoding=""UTF-8"" standalone=""yes""?>" ++ 10 :: 60 :: r)).
  cbv beta iota. change (skip_decl (lit " version=""1.0"" encoding=""UTF-8"" standalone=""yes""?>" ++ 10 :: 60 :: r)) with (Some (10 :: 60 :: r)).
  cbv beta iota. change (skip_ws (10 :: 60 :: r)) with (60 :: r). rewrite H. reflexivity.
Qed.
Lemma reads_document s n l k : reads s [Elem n l k] -> s <> [] -> read_document (xml_declaration ++ s) = Some (Elem n l k).
Proof.
  intros H Hne. apply read_document_body; [apply reads_doc; assumption|]. destruct H as (es & [M _] & _).
  destruct M as [M|M]; [congruence|exact M].
Qed.
Lemma document_reads t : wx_ok t -> read_document (document t) = Some (node_of t).
Proof.
  intros H. unfold document. assert (E : exists n l k, node_of t = Elem n l k) by (destruct t; do 3 eexists; reflexivity).
  destruct E as (n & l & k & E). rewrite E. apply reads_document; [rewrite <- E; apply write_reads; assumption|].
  destruct t; discriminate.
Qed.
