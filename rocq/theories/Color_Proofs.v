From Verif Require Import Base Xml_Spec Xml_Read Ref_Spec Ref_Proofs Fmt_Model Rich_Model SheetXml_Spec SheetXml_Proofs SheetXml_Proofs3 Tag_Proofs CF_Spec CF_Read Color_Spec.
Lemma color_reads c : real_color c = true -> read_rcolor (color_attributes c) = Some (color_seen c).
Proof.
  intros R. destruct c as [n|t s| | |n].
  - unfold read_rcolor. cbn [color_attributes color_seen]. rewrite !attr_cons. cbn [String.eqb Ascii.eqb Bool.eqb]. rewrite attr_nil. cbn [bind].
    rewrite color_rgb; [reflexivity|]. cbn [real_color] in R. split; [exact I|]. lia.
  - cbn [real_color] in R. apply andb_prop in R as [Rt Rs]. assert (T : t <= 9) by lia. assert (S : s <= 5) by lia. clear Rt Rs.
    assert (It : In t [0;1;2;3;4;5;6;7;8;9]) by (cbn [In]; lia). assert (Is : In s [0;1;2;3;4;5]) by (cbn [In]; lia). cbn [In] in It, Is. clear T S.
    repeat (destruct It as [<-|It]; [repeat (destruct Is as [<-|Is]; [vm_compute; reflexivity|]); destruct Is|]). destruct It.
  - reflexivity.
  - reflexivity.
  - unfold read_rcolor. cbn [color_attributes color_seen]. rewrite !attr_cons. cbn [String.eqb Ascii.eqb Bool.eqb]. rewrite attr_nil. cbn [bind].
    rewrite color_rgb; [reflexivity|]. cbn [real_color] in R. split; [|exact I]. cbn. lia.
Qed.
