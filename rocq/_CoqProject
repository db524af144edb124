-Q theories Verif
theories/Outcome.v
theories/Bytes.v
theories/Endian_Model.v
theories/Endian_Proofs.v
theories/Float64.v
theories/CStr.v
theories/Classif_Model.v
theories/Classif_Proofs.v
theories/Vlr_Model.v
theories/Schema_Model.v
theories/Header_Model.v
theories/Schema_Spec.v
theories/Schema_Api.v
theories/Schema_Proofs.v
theories/Hdr_Spec.v
theories/Hdr_Proofs.v
theories/Point_Model.v
theories/Point_Spec.v
theories/Point_Api.v
theories/Point_Proofs.v
theories/Point_Hist.v
theories/Stream_Model.v
theories/Writer_Model.v
theories/Reader_Model.v
theories/Stream_Proofs.v
theories/IO_Spec.v
theories/Writer_Proofs.v
theories/Writer_Api.v
theories/Writer_File.v
theories/Writer_V10.v
theories/Reader_Proofs.v
theories/Reader_Vlrs.v
theories/Reader_Schema.v
theories/Reader_Open.v
theories/Float64_Proofs.v
theories/Reader_Spec.v
theories/Writer_RT.v
theories/Writer_Append.v
theories/Reader_Api.v
theories/Reader_Hist.v
theories/IO_Round.v
theories/Reader_Filter.v
theories/IO_Extra.v
theories/IO_Samples.v
theories/Prop_Endian.v
theories/Prop_Classif.v
theories/Prop_Header.v
theories/Prop_Point.v
theories/Prop_Schema.v
theories/Prop_SetDim.v
theories/Prop_IO.v
theories/Prop_Reader.v
theories/Prop_Srs.v
theories/Bounds_Model.v
theories/Bounds_Spec.v
theories/Bounds_Proofs.v
theories/Filter_Model.v
theories/Filter_Spec.v
theories/Filter_Api.v
theories/Filter_Proofs.v
theories/Coord_Api.v
theories/Coord_Proofs.v
theories/Coord_Header.v
theories/Prop_Bounds.v
theories/Prop_Filter.v
theories/Prop_Coord.v
theories/Transform_Model.v
theories/Prop_Transform.v
theories/Summary_Model.v
theories/Summary_Spec.v
theories/Summary_Proofs.v
theories/Prop_Summary.v
theories/Cached_Model.v
theories/Cached_Api.v
theories/Cached_Proofs.v
theories/Prop_Cached.v
theories/Chipper_Model.v
theories/Chipper_Spec.v
theories/Chipper_Lists.v
theories/Chipper_Proofs.v
theories/Chipper_Split.v
theories/Chipper_Run.v
theories/Chipper_Load.v
theories/Chipper_Partition.v
theories/Chipper_Drift.v
theories/Chipper_Main.v
theories/Prop_Chipper.v
theories/Index_Cell.v
theories/Index_Temp.v
theories/Index_Scan.v
theories/Index_Image.v
theories/Index_Float.v
theories/Index_Spec.v
theories/Index_ScanProofs.v
theories/Prop_Index.v
theories/Index_Out.v
theories/Index_Query.v
theories/Index_Items.v
theories/Index_Groups.v
theories/Index_Filter.v
theories/Index_Load.v
theories/Index_Axis.v
theories/Index_Build.v
theories/Index_Grid.v
theories/Index_Divide.v
theories/Index_QuerySpec.v
theories/Index_Size.v
theories/Index_Cells.v
theories/Index_Answer.v
theories/Index_Query_Thm.v
theories/Prop_IndexQuery.v
theories/Prop_IndexVlr.v
theories/Index_Iter.v
theories/Index_Calls.v
theories/Prop_IndexIter.v
theories/Iter_Spec.v
theories/Iter_Model.v
theories/Iter_Proofs.v
theories/Rewrite_Proofs.v
theories/Rewrite_Gap.v
theories/Rewrite_Read.v
theories/Prop_Iter.v
theories/Prop_Rewrite.v
theories/Ptree_Model.v
theories/Ptree_Proofs.v
theories/Prop_Custom.v
theories/Index_File.v
theories/Index_Frame.v
theories/Index_Store.v
theories/Index_FileSpec.v
theories/Rewrite_Grow.v
theories/Index_Saved.v
theories/Index_Reopen.v
theories/Prop_IndexFile.v
theories/CApi_Model.v
theories/CApi_Spec.v
theories/CApi_Proofs.v
theories/CApi_Safe.v
theories/CApi_More.v
theories/CApi_Store.v
theories/CApi_Read.v
theories/Prop_CApi.v
theories/Text_Model.v
theories/Text_Proofs.v
theories/Las2las_Model.v
theories/Las2las_Spec.v
theories/Las2las_Copy.v
theories/Las2las_Summary.v
theories/Las2las_File.v
theories/Las2las_Loop.v
theories/Las2las_Points.v
theories/Las2las_Main.v
theories/Las2las_Split.v
theories/Prop_Las2las.v
theories/Lasblock_Model.v
theories/Lasblock_Proofs.v
theories/Prop_Lasblock.v
theories/CApiW_Model.v
theories/CApiW_Spec.v
theories/CApiW_Proofs.v
theories/Prop_CApiW.v
theories/Ts2las_Model.v
theories/Ts2las_Spec.v
theories/Ts2las_Proofs.v
theories/Prop_Ts2las.v
theories/Sha1_Model.v
theories/Sha1_Spec.v
theories/Sha1_Proofs.v
theories/Prop_Sha1.v
theories/Col_Model.v
theories/Col_Spec.v
theories/Col_Proofs.v
theories/Col_Live.v
theories/Prop_Col.v
theories/Cols_Model.v
theories/Cols_Spec.v
theories/Cols_Proofs.v
theories/Prop_Cols.v
theories/Txt_Model.v
theories/Txt_Spec.v
theories/Txt_Proofs.v
theories/Txt_Prec.v
theories/Prop_Txt.v
theories/Txt2las_Model.v
theories/Txt2las_Spec.v
theories/Txt2las_Text.v
theories/Txt2las_Fields.v
theories/Txt2las_Point.v
theories/Txt2las_Head.v
theories/Txt2las_Run.v
theories/Txt2las_File.v
theories/Txt2las_Trip.v
theories/Prop_Txt2las.v
theories/Cli_Model.v
theories/Cli_Spec.v
theories/Cli_Proofs.v
theories/Prop_Cli.v
theories/Prop_Cli2.v
theories/Hdropt_Model.v
theories/Hdropt_Write.v
theories/Hdropt_Spec.v
theories/Hdropt_Proofs.v
theories/Hdropt_Main.v
theories/Prop_Hdropt.v
theories/Prop_Hdropt2.v
theories/Prop_Hdropt3.v
theories/Prop_Hdropt4.v
theories/Transf_Model.v
theories/Transf_Spec.v
theories/Transf_Proofs.v
theories/Prop_Transf.v
theories/Prop_Transf2.v
theories/Lasinfo_Model.v
theories/Lasinfo_Spec.v
theories/Lasinfo_Proofs.v
theories/Lasinfo_Main.v
theories/Prop_Lasinfo.v
theories/Prop_Lasinfo2.v
theories/Minoff_Model.v
theories/Minoff_Spec.v
theories/Minoff_Proofs.v
theories/Minoff_Move.v
theories/Minoff_Main.v
theories/Prop_Minoff.v
theories/Wfilt_Model.v
theories/Wfilt_Spec.v
theories/Prop_Wfilt.v
theories/Srs_Model.v
theories/Prop_SrsObj.v
theories/Factory_Model.v
theories/Prop_Factory.v
