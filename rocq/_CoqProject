-Q theories Verif

theories/Base.v
theories/Work_Model.v
theories/Work_Spec.v
theories/Work_Proofs.v
theories/Work_Props.v
theories/Cat_Model.v
theories/Cat_Spec.v
theories/Cat_Proofs.v
theories/Cat_Props.v
theories/Time_Model.v
theories/Time_Spec.v
theories/Time_Proofs.v
theories/Time_Props.v
theories/Name_Model.v
theories/Name_Spec.v
theories/Name_Proofs.v
theories/Name_Props.v
theories/NcObj_Model.v
theories/NcObj_Spec.v
theories/NcObj_Proofs.v
theories/NcObj_Props.v
theories/Grid_Model.v
theories/Grid_Spec.v
theories/Grid_Proofs.v
theories/Grid_Props.v
theories/Obs_Model.v
theories/Obs_Spec.v
theories/Obs_Proofs.v
theories/Obs_Props.v
theories/Lin.v
theories/Ana_Model.v
theories/Ana_Spec.v
theories/Ana_Proofs.v
theories/Ana_Props.v
theories/Comb_Model.v
theories/Comb_Spec.v
theories/Comb_Proofs.v
theories/Comb_Props.v
theories/Spde_Model.v
theories/Spde_Spec.v
theories/Spde_Proofs.v
theories/Spde_Props.v
theories/Lat_Model.v
theories/Lat_Spec.v
theories/Lat_Proofs.v
theories/Lat_Props.v
theories/Mesh_Model.v
theories/Mesh_Spec.v
theories/Mesh_Proofs.v
theories/Mesh_Props.v
theories/Loc_Model.v
theories/Loc_Spec.v
theories/Loc_Proofs.v
theories/Loc_Props.v
theories/Flag_Model.v
theories/Flag_Spec.v
theories/Flag_Proofs.v
theories/Flag_Props.v
theories/Win_Model.v
theories/Win_Spec.v
theories/Win_Proofs.v
theories/Win_Props.v
theories/Merge_Model.v
theories/Merge_Spec.v
theories/Merge_Proofs.v
theories/Merge_Props.v
theories/Proj_Model.v
theories/Proj_Spec.v
theories/Proj_Proofs.v
theories/Proj_Props.v
theories/Batch_Model.v
theories/Batch_Spec.v
theories/Batch_Proofs.v
theories/Batch_Props.v
theories/Cpp_Model.v
theories/Cpp_Spec.v
theories/Cpp_Proofs.v
theories/Cpp_Names.v
theories/Cpp_Props.v
theories/Fill_Model.v
theories/Fill_Spec.v
theories/Fill_Proofs.v
theories/Fill_Chain.v
theories/Fill_Total.v
theories/Fill_Files.v
theories/Fill_Templates.v
theories/Fill_Props.v
theories/Fill_Settings.v
theories/Fill_Details.v
theories/Fill_Settings_Props.v
theories/Dist_Model.v
theories/Dist_Spec.v
theories/Dist_Proofs.v
theories/Dist_Props.v
theories/Out_Model.v
theories/Out_Spec.v
theories/Out_Proofs.v
theories/Out_Props.v
theories/Stn_Model.v
theories/Stn_Spec.v
theories/Stn_Proofs.v
theories/Stn_Props.v
theories/Ice_Model.v
theories/Ice_Spec.v
theories/Ice_Proofs.v
theories/Ice_Props.v
theories/Land_Model.v
theories/Land_Spec.v
theories/Land_Proofs.v
theories/Land_Props.v
theories/RMat.v
theories/Opt_Model.v
theories/Opt_Spec.v
theories/Opt_Proofs.v
theories/Opt_Props.v
theories/View_Model.v
theories/View_Spec.v
theories/View_Proofs.v
theories/View_Proofs2.v
theories/View_Proofs3.v
theories/View_Proofs4.v
theories/View_Props.v
theories/Diag_Model.v
theories/Diag_Spec.v
theories/Diag_Proofs.v
theories/Diag_Proofs2.v
theories/Diag_Proofs3.v
theories/Diag_Props.v
theories/Src_Model.v
theories/Src_Spec.v
theories/Src_Proofs.v
theories/Src_Proofs2.v
theories/Src_Props.v
theories/Json_Model.v
theories/Json_Spec.v
theories/Json_Proofs.v
theories/Json_Proofs2.v
theories/Json_Proofs3.v
theories/Json_Props.v
theories/Conn_Model.v
theories/Conn_Spec.v
theories/Conn_Proofs.v
theories/Conn_Proofs2.v
theories/Conn_Props.v
theories/Conn_Props2.v
theories/Conn_Props3.v
theories/Setup_Model.v
theories/Setup_Spec.v
theories/Setup_Proofs.v
theories/Setup_Props.v
theories/Setup_Props2.v
theories/Setup_Props3.v
theories/Geo_Model.v
theories/Geo_Spec.v
theories/Geo_Proofs.v
theories/Geo_Props.v
theories/Geo_Props2.v
theories/Tools_Model.v
theories/Tools_Spec.v
theories/Tools_Proofs.v
theories/Tools_Props.v
theories/Tools_Props2.v
theories/Run_Model.v
theories/Run_Spec.v
theories/Run_Proofs.v
theories/Run_Props.v
theories/Run_Props2.v
theories/Jobs_Model.v
theories/Jobs_Spec.v
theories/Jobs_Props.v
theories/Jobs_Props2.v
theories/Diagop_Model.v
theories/Diagop_Spec.v
theories/Diagop_Proofs.v
theories/Diagop_Props.v
theories/Satjob_Model.v
theories/Satjob_Spec.v
theories/Satjob_Props.v
theories/Gen_Model.v
theories/Gen_Spec.v
theories/Gen_Props.v
theories/Rawjob_Model.v
theories/Rawjob_Spec.v
theories/Rawjob_Props.v
