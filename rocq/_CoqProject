-Q theories Verif

theories/Py_Model.v
theories/Py_Facts.v
theories/Struct_Model.v
theories/Struct_Spec.v
theories/Struct_DigProofs.v
theories/Struct_Proofs.v
theories/Struct_Proofs2.v
theories/Struct_Lemmas.v
theories/Struct_Props.v
theories/Shm_Model.v
theories/Shm_Spec.v
theories/Shm_Proofs.v
theories/Shm_Props.v
theories/Lock_Model.v
theories/Index_Model.v
theories/Addr_Facts.v
theories/Index_Spec.v
theories/Lock_Proofs.v
theories/Index_Proofs.v
theories/Crash_Facts.v
theories/Index_Hard.v
theories/Index_Crash.v
theories/Meta_Spec.v
theories/Meta_Proofs.v
theories/Index_Lemmas.v
theories/Index_Props.v
theories/Pad_Model.v
theories/Pad_Spec.v
theories/Pad_Proofs.v
theories/Pad_Lemmas.v
theories/Reserved_Spec.v
theories/Reserved_Proofs.v
theories/Grid_Proofs.v
theories/Grid_Lemmas.v
theories/Sticky_Proofs.v
theories/Spin_Spec.v
theories/Spin_Proofs.v
theories/Spin_Props.v
theories/Conc_Model.v
theories/Conc_Spec.v
theories/Conc_Proofs.v
theories/Conc_Mutex.v
theories/Pickle_Model.v
theories/Pickle_Spec.v
theories/Pickle_Code.v
theories/Pickle_Stream.v
theories/Pickle_Proofs.v
theories/Pickle_Final.v
theories/Pickle_Props.v
theories/Fair_Spec.v
theories/Fair_Proofs.v
theories/Fair_Props.v
theories/Free_Proofs.v
theories/Conc_Dead.v
theories/Race_Spec.v
theories/Race_Proofs.v
theories/Conc_Lemmas.v
theories/Conc_Props.v
theories/Free_Props.v
theories/Eff_Model.v
theories/Func_Model.v
theories/Func_Spec.v
theories/Func_Proofs.v
theories/Func_Lemmas.v
theories/Func_Props.v
theories/Pool_Model.v
theories/Pool_Spec.v
theories/Pool_Proofs.v
theories/Pool_Lemmas.v
theories/Pool_Props.v
theories/Track_Model.v
theories/Json_Model.v
theories/Track_Spec.v
theories/Track_Proofs.v
theories/Track_Read.v
theories/Json_Proofs.v
theories/Track_Lemmas.v
theories/Track_Props.v
theories/Comp_Model.v
theories/Comp_Spec.v
theories/Comp_Calls.v
theories/Comp_Proofs.v
theories/Comp_Sends.v
theories/Comp_Indep.v
theories/Comp_Watch.v
theories/Comp_Track.v
theories/Comp_Lemmas.v
theories/Comp_Props.v
theories/Nest_Model.v
theories/Nest_Spec.v
theories/Nest_Proofs.v
theories/Nest_Props.v
theories/Dyn_Model.v
theories/Dyn_Spec.v
theories/Dyn_Proofs.v
theories/Dyn_Lemmas.v
theories/Dyn_Props.v
theories/Dig_Model.v
theories/Dig_Spec.v
theories/Dig_Proofs.v
theories/Dig_Props.v
theories/Float_Model.v
theories/Float_Spec.v
theories/Float_Proofs.v
theories/Mosaic_Model.v
theories/Mosaic_Spec.v
theories/Mosaic_Proofs.v
theories/Mosaic_Props.v
theories/Down_Model.v
theories/Down_Spec.v
theories/Down_Proofs.v
theories/Down_Props.v
theories/Frame_Model.v
theories/Frame_Spec.v
theories/Frame_Lemmas.v
theories/Frame_Proofs.v
theories/Frame_Rows.v
theories/Frame_More.v
theories/Frame_Unpack.v
theories/Frame_Props.v
theories/Summary_Model.v
theories/Summary_Spec.v
theories/Summary_Proofs.v
theories/Summary_Props.v
theories/Scrape_Model.v
theories/Scrape_Spec.v
theories/Scrape_Text.v
theories/Scrape_Proofs.v
theories/Scrape_Props.v
theories/Tutil_Model.v
theories/Tutil_Spec.v
theories/Tutil_Proofs.v
theories/Rand_Model.v
theories/Rand_Spec.v
theories/Rand_Proofs.v
theories/Tutil_Props.v
theories/Codec_Model.v
theories/Codec_Spec.v
theories/Codec_Proofs.v
theories/Codec_Ast.v
theories/CodecGrid_Model.v
theories/CodecGrid_Proofs.v
theories/Codec_Props.v
theories/Dump_Model.v
theories/Dump_Spec.v
theories/Dump_Proofs.v
theories/Pad_Props.v
theories/Reserved_Props.v
theories/Dump_Props.v
theories/Exit_Model.v
theories/Exit_Spec.v
theories/Exit_Proofs.v
theories/Exit_Props.v
theories/Live_Spec.v
theories/Live_Core.v
theories/Live_Proofs.v
theories/Live_Readers.v
theories/Live_Lemmas.v
theories/Live_Props.v
theories/Serial_Model.v
theories/Serial_Spec.v
theories/Serial_Core.v
theories/Serial_Body.v
theories/Serial_Proofs.v
theories/Serial_Lemmas.v
theories/Free_Guarded.v
theories/Serial_Props.v
theories/Kept_Spec.v
theories/Kept_Proofs.v
theories/Kept_Props.v
theories/Done_Spec.v
theories/Done_Core.v
theories/Done_Proofs.v
theories/Done_Props.v
theories/Team_Model.v
theories/Team_Spec.v
theories/Team_Core.v
theories/Team_Proofs.v
theories/Team_Lemmas.v
theories/Team_Alone.v
theories/Team_Props.v
theories/Debug_Model.v
theories/Debug_Spec.v
theories/Debug_Proofs.v
theories/Debug_Lemmas.v
theories/Debug_Pad.v
theories/Debug_Log.v
theories/Debug_Wait.v
theories/Debug_Props.v
theories/Reg_Model.v
theories/Reg_Spec.v
theories/Reg_Proofs.v
theories/Reg_Lemmas.v
theories/Reg_Props.v
theories/Torn_Model.v
theories/Torn_Spec.v
theories/Torn_Lock.v
theories/Torn_Reg.v
theories/Torn_Lemmas.v
theories/Torn_Props.v
theories/Gen_Model.v
theories/Gen_Spec.v
theories/Gen_Proofs.v
theories/Gen_Props.v
theories/Show_Model.v
theories/Show_Spec.v
theories/Show_Proofs.v
theories/Show_Props.v
theories/Pipe_Model.v
theories/Pipe_Spec.v
theories/Pipe_Proofs.v
theories/Pipe_Props.v
theories/Tests_Examples.v
theories/Crowd_Spec.v
theories/Crowd_Core.v
theories/Crowd_Body.v
theories/Crowd_Proofs.v
theories/Crowd_Props.v
theories/Item_Model.v
theories/Item_Spec.v
theories/Item_Proofs.v
theories/Item_Props.v
theories/Pdstr_Model.v
theories/Pdstr_Spec.v
theories/Pdstr_Proofs.v
theories/Pdstr_Props.v
theories/Cells_Model.v
theories/Cells_Spec.v
theories/Cells_Proofs.v
theories/Cells_Props.v
theories/Shrink_Spec.v
theories/Shrink_Proofs.v
theories/Shrink_Props.v
