(** Property theorems C06-C09 (XML escaping, string items, attributes, URLs). *)
From Verif Require Import Base Xml_Model Xml_Spec Xml_Proofs Url_Model Url_Proofs.

(** C06: text content has no raw markup, for every string whatsoever ... *)
Theorem C06_text_has_no_markup : forall s,
  ~ In 60 (escape_xml_data s) /\ ~ In 62 (escape_xml_data s) /\
  (forall a b, escape_xml_data s = a ++ 38 :: b ->
     exists r, b = lit "amp;" ++ r \/ b = lit "lt;" ++ r \/ b = lit "gt;" ++ r).
Proof. exact escape_no_markup. Qed.
Print Assumptions C06_text_has_no_markup.

(** ... and an XML reader recovers it, controls being replaced by "_x00HH_". *)
Theorem C06_text_reads_back : forall s,
  forallb (fun c => xml_char c || ((c <? 32) && negb (c =? 9) && negb (c =? 10))) s = true ->
  parse_text (escape_xml_data s) =
  Some (flat_map (fun c => if (c <? 32) && negb (c =? 9) && negb (c =? 10)
                           then lit "_x00" ++ [hex_upper (c / 16); hex_upper (c mod 16)] ++ lit "_"
                           else [c]) s).
Proof. exact parse_escape_xml_data. Qed.
Print Assumptions C06_text_reads_back.

Example C06_example :
  escape_xml_data (lit "a<b & c>d" ++ [27; 10]) = lit "a&lt;b &amp; c&gt;d_x001B_" ++ [10] /\
  parse_text (lit "a&lt;b &amp; c&gt;d_x001B_" ++ [10]) = Some (lit "a<b & c>d_x001B_" ++ [10]).
Proof. vm_compute. auto. Qed.

(** Finding: the two non-characters U+FFFE and U+FFFF are legal in a Rust string,
    are not escaped and are not legal in XML: the part is not well-formed. *)
Theorem C06_all_scalars_refuted : exists s, forallb is_scalar s = true /\
  parse_text (escape_xml_data s) = None.
Proof. exists [65; 0xFFFF]. vm_compute. auto. Qed.
Print Assumptions C06_all_scalars_refuted.

(** C07: string items round-trip.  [writable] is every scalar value except
    U+FFFE/U+FFFF (see above); [looks_rich] is the raw "<r>...</r>" form. *)
Theorem C07_string_item_roundtrip_partial : forall s,
  (forall c, In c s -> is_scalar c = true /\ c <> 0xFFFE /\ c <> 0xFFFF) ->
  ~ ((exists r, s = lit "<r>" ++ r) /\ (exists r, s = r ++ lit "</r>")) ->
  exists open body, write_si s = Some (open ++ body ++ lit "</t></si>") /\
    ~ In 60 body /\
    option_map excel_decode (parse_text body) = Some s /\
    (open = lit "<si><t>" \/ open = lit "<si><t xml:space=""preserve"">") /\
    ((exists c r, In c [9; 10; 32] /\ (s = c :: r \/ s = r ++ [c])) <->
     open = lit "<si><t xml:space=""preserve"">").
Proof. exact string_item_roundtrip_spec. Qed.
Print Assumptions C07_string_item_roundtrip_partial.

Example C07_example :
  let s := lit "_x0041_ <tag> _x000D" ++ [1] ++ lit " " in
  write_si s = Some (lit "<si><t xml:space=""preserve"">_x005F_x0041_ &lt;tag&gt; _x005F_x000D_x0001_ </t></si>") /\
  forallb writable s = true /\ looks_rich s = false.
Proof. vm_compute. auto. Qed.

(** Finding: a user string that starts with "<r>" and ends with "</r>" is written
    without escaping, so it is not read back (here the part is not even
    well-formed: a raw '&' followed by '<'). *)
Theorem C07_rich_lookalike_refuted : exists s, forallb writable s = true /\
  write_si s = Some (lit "<si>" ++ s ++ lit "</si>") /\ In 60 s /\ In 38 s.
Proof. exists (lit "<r>&</r>"). vm_compute. auto 20. Qed.
Print Assumptions C07_rich_lookalike_refuted.

(** C08: attribute values.  The delimiters are always safe ... *)
Theorem C08_attribute_delimited : forall s x, In x (escape_attributes s) -> x <> 34 /\ x <> 60 /\ x <> 62.
Proof. exact escape_attributes_delimited. Qed.
Print Assumptions C08_attribute_delimited.

(** ... and values without tab, carriage return and other controls read back. *)
Theorem C08_attribute_roundtrip_partial : forall s,
  forallb (fun c => xml_char c && negb (c =? 9) && negb (c =? 13)) s = true ->
  parse_attr (escape_attributes s) = Some s.
Proof. exact parse_escape_attributes. Qed.
Print Assumptions C08_attribute_roundtrip_partial.

(** Findings: tab and CR are XML-legal but are normalised to spaces because they
    are not written as character references; other controls make the part
    ill-formed. *)
Theorem C08_attribute_roundtrip_refuted :
  (exists s, forallb xml_char s = true /\ parse_attr (escape_attributes s) <> Some s /\
             parse_attr (escape_attributes s) <> None) /\
  (exists s, forallb is_scalar s = true /\ parse_attr (escape_attributes s) = None).
Proof. split; [exists (lit "a" ++ [9] ++ lit "b")|exists [65; 7]]; vm_compute; repeat split; congruence. Qed.
Print Assumptions C08_attribute_roundtrip_refuted.

Example C08_example : escape_attributes (lit "say ""<&>""" ++ [10]) = lit "say &quot;&lt;&amp;&gt;&quot;&#xA;" /\
  parse_attr (lit "say &quot;&lt;&amp;&gt;&quot;&#xA;") = Some (lit "say ""<&>""" ++ [10]).
Proof. vm_compute. auto. Qed.

(** C09: hyperlinks.  A web link is split at its first '#'; it is rejected
    exactly if a part is too long or the tip is; otherwise the target written to
    the relationship is [stored_target base] and nothing is truncated. *)
Theorem C09_web_link : forall l txt tip, is_web l ->
  exists base frag, splits l base frag /\
  ((2080 < char_count base \/ 2080 < char_count frag) /\ initialize (url_new l txt tip false) = Err MaxUrlLengthExceeded
   \/ char_count base <= 2080 /\ char_count frag <= 2080 /\ 255 < char_count tip /\
      initialize (url_new l txt tip false) = Err UrlParameterError
   \/ char_count base <= 2080 /\ char_count frag <= 2080 /\ char_count tip <= 255 /\
      exists u, initialize (url_new l txt tip false) = Ok u /\ ltype u = LUrl /\ target_external u = true /\
        relationship_link u = stored_target base /\ anchor u = frag /\
        text u = text_or txt l /\ tool_tip u = tip).
Proof. exact web_url_spec. Qed.
Print Assumptions C09_web_link.

Theorem C09_target_decodes : forall s, is_escaped s = false -> percent_decode (stored_target s) = s.
Proof. exact stored_target_decode. Qed.
Print Assumptions C09_target_decodes.

Theorem C09_target_stable : forall s, stored_target (stored_target s) = stored_target s.
Proof. exact stored_target_stable. Qed.
Print Assumptions C09_target_stable.

Theorem C09_file_link : forall l txt tip u, has_prefix "file://" l ->
  initialize (url_new l txt tip false) = Ok u ->
  exists path base, (path = replace_first (lit "file://") [] (replace_first (lit "file:///") [] l)) /\
    splits (if relative_path path then path else l) base (anchor u) /\
    relationship_link u = stored_target base /\ ltype u = LFile /\ text u = text_or txt path /\
    char_count base <= 2080 /\ char_count (anchor u) <= 2080.
Proof. exact file_url_spec. Qed.
Print Assumptions C09_file_link.

Theorem C09_internal_link : forall r txt tip u,
  initialize (url_new (lit "internal:" ++ r) txt tip false) = Ok u ->
  ltype u = LInternal /\ target_external u = false /\ anchor u = r /\ text u = text_or txt r /\ tool_tip u = tip /\
  relationship_link u = 35 :: r.
Proof. exact internal_url_spec. Qed.
Print Assumptions C09_internal_link.

Theorem C09_mailto_link : forall r txt tip u,
  initialize (url_new (lit "mailto:" ++ r) txt tip false) = Ok u ->
  ltype u = LUrl /\ target_external u = true /\ anchor u = [] /\ text u = text_or txt r /\ tool_tip u = tip /\
  relationship_link u = stored_target (lit "mailto:" ++ r).
Proof. exact mailto_url_spec. Qed.
Print Assumptions C09_mailto_link.

Theorem C09_unknown_rejected : forall l txt tip obj,
  initialize (url_new l txt tip obj) = Err UnknownUrlType <->
  ~ is_web l /\ ~ has_prefix "mailto:" l /\ ~ has_prefix "internal:" l /\ ~ has_prefix "file://" l.
Proof. exact unknown_url_spec. Qed.
Print Assumptions C09_unknown_rejected.

(** Finding: only eleven lower-case escapes are recognised, so a URL that is
    already percent-encoded with other escapes is escaped twice: decoding the
    stored target does not give what decoding the user's URL gives. *)
Theorem C09_no_double_escape_refuted : exists l u,
  initialize (url_new l [] [] false) = Ok u /\
  l = lit "https://example.com/caf%C3%A9" /\
  relationship_link u = lit "https://example.com/caf%25C3%25A9".
Proof.
  eexists (lit "https://example.com/caf%C3%A9"), _. split; [vm_compute; reflexivity|]. split; reflexivity.
Qed.
Print Assumptions C09_no_double_escape_refuted.

Example C09_example :
  let l := lit "https://example.com/a b?q=<x>#frag ment" in
  is_web l /\
  (exists u, initialize (url_new l [] (lit "tip") false) = Ok u /\
     relationship_link u = lit "https://example.com/a%20b?q=%3cx%3e" /\ anchor u = lit "frag ment").
Proof.
  split; [exists (lit "https://"), (lit "example.com/a b?q=<x>#frag ment"); split; [cbn; auto|reflexivity]|].
  eexists. split; [vm_compute; reflexivity|]. split; reflexivity.
Qed.
