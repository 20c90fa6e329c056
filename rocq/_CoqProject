-Q theories Verif
theories/Base.v
theories/Ref_Model.v
theories/Ref_Spec.v
theories/Ref_Proofs.v
theories/Quote_Proofs.v
theories/Props_Ref.v
theories/Xml_Model.v
theories/Xml_Spec.v
theories/Xml_Proofs.v
theories/Url_Model.v
theories/Url_Proofs.v
theories/Props_Xml.v
theories/SortLib.v
theories/Sst_Model.v
theories/Sst_Proofs.v
theories/Props_Sst.v
theories/F64.v
theories/Date_Model.v
theories/Date_Spec.v
theories/Date_Proofs.v
theories/F64_Proofs.v
theories/Date_Proofs2.v
theories/Date_Float.v
theories/Date_Parse.v
theories/Props_Date.v
theories/SMap.v
theories/Fmt_Model.v
theories/Cells_Model.v
theories/Cells_Spec.v
theories/Cells_Proofs.v
theories/Cells_Proofs2.v
theories/Cells_Inv.v
theories/Cells_Save.v
theories/Cells_Hist.v
theories/Props_Cells.v
theories/Props_Spans.v
theories/Const_Proofs.v
theories/Const_Sim.v
theories/Const_Steps.v
theories/Const_Spec.v
theories/Const_Run.v
theories/Step_Inv.v
theories/Props_Const.v
theories/Sheet_Model.v
theories/Opts_Frame.v
theories/Sheet_Spec.v
theories/Sheet_Proofs.v
theories/Sheet_Proofs2.v
theories/Sheet_Proofs3.v
theories/Props_Sheet.v
theories/Reg_Model.v
theories/Reg_Proofs.v
theories/Props_Reg.v
theories/Styles_Model.v
theories/Styles_Proofs.v
theories/Props_Styles.v
theories/Book_Model.v
theories/Book_Spec.v
theories/Book_Proofs.v
theories/Book_Proofs2.v
theories/Props_Book.v
theories/Pkg_Model.v
theories/Pkg_Spec.v
theories/Pkg_Names.v
theories/Pkg_Proofs.v
theories/Pkg_Proofs2.v
theories/Pkg_Proofs3.v
theories/Pkg_Proofs4.v
theories/Pkg_Proofs5.v
theories/Pkg_Proofs6.v
theories/Pkg_Proofs7.v
theories/Pkg_Proofs8.v
theories/Pkg_Proofs9.v
theories/Pkg_Proofs10.v
theories/Pkg_Proofs11.v
theories/Pkg_Proofs12.v
theories/Pkg_Proofs13.v
theories/Pkg_Proofs14.v
theories/Props_Pkg.v
theories/Prot_Model.v
theories/Prot_Spec.v
theories/Props_Prot.v
theories/Filter_Model.v
theories/Filter_Spec.v
theories/Filter_Proofs.v
theories/Props_Filter.v
theories/Border_Model.v
theories/Border_Spec.v
theories/Props_Border.v
theories/Cache_Model.v
theories/Props_Cache.v
theories/Xml_Read.v
theories/Xml_Read_Proofs.v
theories/Xml_Tree.v
theories/Rich_Model.v
theories/SheetXml_Model.v
theories/SheetXml_Spec.v
theories/Rich_Proofs.v
theories/SheetXml_Proofs.v
theories/SheetXml_Proofs2.v
theories/SheetXml_Proofs3.v
theories/SheetXml_Proofs4.v
theories/SheetXml_Proofs5.v
theories/SheetXml_Proofs6.v
theories/SheetXml_Proofs7.v
theories/Props_SheetXml.v
theories/Props_Rich.v
theories/Formula_Model.v
theories/Formula_Spec.v
theories/Props_Formula.v
theories/Geom_Model.v
theories/Geom_Spec.v
theories/Geom_Pixels.v
theories/Props_Pixels.v
theories/Geom_Proofs.v
theories/Geom_Proofs2.v
theories/Geom_Proofs3.v
theories/Props_Geom.v
theories/Sheet_Hist.v
theories/Sheet_Hist2.v
theories/Table_Spec.v
theories/Sheet_Hist3.v
theories/Sheet_Hist4.v
theories/Sheet_Hist5.v
theories/Merge_Model.v
theories/Props_Merge.v
theories/Props_Table.v
theories/Props_Group.v
theories/Doc_Model.v
theories/Doc_Spec.v
theories/Props_Doc.v
theories/View_Model.v
theories/Part_Model.v
theories/View_Spec.v
theories/Tag_Proofs.v
theories/Part_Proofs.v
theories/Props_Part.v
theories/Setup_Spec.v
theories/View_Proofs.v
theories/View_Hist.v
theories/Page_Read.v
theories/Props_View.v
theories/Part_Groups.v
theories/Props_Ignored.v
theories/StrMap.v
theories/DV_Model.v
theories/DV_Spec.v
theories/DV_Proofs.v
theories/Props_DV.v
theories/CF_Model.v
theories/CF_Spec.v
theories/CF_Build.v
theories/CF_Read.v
theories/CF_Asked.v
theories/CF_Read14.v
theories/CF_Sheet.v
theories/Props_CF.v
theories/Props_Rest.v
theories/Link_Model.v
theories/Link_Spec.v
theories/Link_Proofs.v
theories/Mode_Frame.v
theories/Link_Hist.v
theories/Link_Read.v
theories/Props_Link.v
theories/Width_Mono.v
theories/Width_Frame.v
theories/Cover_Hist.v
theories/Autofit_Model.v
theories/Autofit_Spec.v
theories/Autofit_Proofs.v
theories/Props_Autofit.v
theories/Pkg_Resave.v
theories/Props_Resave.v
theories/Tbl_Model.v
theories/Tbl_Spec.v
theories/Props_TablePart.v
theories/Dxf_Model.v
theories/Props_Dxf.v
theories/Color_Spec.v
theories/Color_Proofs.v
theories/Spark_Model.v
theories/Spark_Spec.v
theories/Props_Spark.v
theories/Crange_Model.v
theories/Props_Crange.v
theories/FmtOps_Model.v
theories/StylesXml_Model.v
theories/StylesXml_Spec.v
theories/StylesXml_Proofs.v
theories/StylesXml_Proofs2.v
theories/StylesXml_Proofs3.v
theories/StylesXml_Proofs4.v
theories/StylesXml_Proofs5.v
theories/Props_StylesXml.v
theories/Image_Model.v
theories/Image_Spec.v
theories/Image_Proofs.v
theories/Props_Image.v
theories/Note_Model.v
theories/Note_Spec.v
theories/Note_Proofs.v
theories/Note_Proofs2.v
theories/Note_Proofs3.v
theories/Note_Proofs4.v
theories/Note_Proofs5.v
theories/Props_Note.v
theories/Dml_Model.v
theories/Dml_Spec.v
theories/Dml_Proofs.v
theories/Dml_Line.v
theories/Draw_Model.v
theories/Draw_Spec.v
theories/Draw_Proofs.v
theories/Draw_Proofs2.v
theories/Draw_Proofs3.v
theories/Draw_Proofs4.v
theories/Draw_Size.v
theories/Props_Draw.v
theories/Chart_Model.v
theories/Chart_Series.v
theories/Chart_Axis.v
theories/Chart_Whole.v
theories/Chart_Spec.v
theories/Chart_Spec2.v
theories/Chart_Spec3.v
theories/Chart_Spec4.v
theories/Chart_Proofs.v
theories/Chart_Proofs2.v
theories/Chart_Proofs3.v
theories/Chart_Proofs4.v
theories/Chart_Proofs5.v
theories/Chart_Proofs6.v
theories/Chart_Proofs7.v
theories/Chart_Proofs8.v
theories/Chart_Proofs9.v
theories/Chart_Proofs10.v
theories/Props_Chart.v
theories/Chart_Order.v
theories/Chart_Order2.v
theories/Chart_Order_Proofs.v
theories/Chart_Order_Proofs2.v
theories/Chart_Order_Proofs3.v
theories/Props_ChartOrder.v
theories/Serde_Model.v
theories/Serde_Spec.v
theories/Serde_Proofs.v
theories/Serde_Proofs2.v
theories/Props_Serde.v
theories/E2E_Proofs.v
theories/Props_EndToEnd.v
theories/FmtMerge_Proofs.v
theories/Props_FmtMerge.v
theories/SheetXml_General.v
theories/Embed_Model.v
theories/Embed_Spec.v
theories/Embed_Proofs.v
theories/Embed_Proofs2.v
theories/Embed_Proofs3.v
theories/Embed_Hist.v
theories/Embed_Hist2.v
theories/Embed_Sheet.v
theories/Props_Embed.v
theories/Types_Model.v
theories/Types_Spec.v
theories/Types_Proofs.v
theories/Types_Proofs2.v
theories/Props_Types.v
theories/Opts_Spec.v
theories/Opts_Hist.v
theories/Opts_Hist2.v
theories/Opts_Hist3.v
theories/Opts_Hist4.v
theories/Cols_Model.v
theories/Cols_Spec.v
theories/Cols_Proofs.v
theories/Props_Cols.v
theories/SheetXml_Sops.v
theories/SheetXml_Rows.v
theories/Props_Rows.v
theories/Stream_Model.v
theories/Stream_Spec.v
theories/Stream_Proofs.v
theories/Stream_Inv.v
theories/Stream_Inv2.v
theories/Stream_Inv3.v
theories/Props_Stream.v
theories/Stream_From.v
theories/Props_StreamFile.v
theories/Filter_Xml.v
theories/Filter_Read.v
theories/Props_FilterXml.v
theories/Hf_Model.v
theories/Hf_Spec.v
theories/Hf_Proofs.v
theories/Hf_Proofs2.v
theories/Props_Hf.v
theories/Order_Spec.v
theories/Order_Proofs.v
theories/Order_Proofs2.v
theories/Props_Order.v
theories/Props_OrderTable.v
theories/Props_TableCells.v
theories/Sst_Populate.v
theories/Props_SstPlaced.v
