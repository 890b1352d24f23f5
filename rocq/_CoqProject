-Q theories Verif
theories/Arr_Model.v
theories/Arr_Proofs.v
theories/Arr_Proofs2.v
theories/Arr_Spec.v
theories/Asp_Model.v
theories/Asp_Spec.v
theories/Avp_Model.v
theories/Avp_Spec.v
theories/Base.v
theories/BaseFacts.v
theories/Bcode_Model.v
theories/Bcode_Proofs.v
theories/Bcode_Spec.v
theories/Built_Model.v
theories/Built_Proofs.v
theories/Built_Spec.v
theories/Cmp_Model.v
theories/Cmp_Proofs.v
theories/Cmp_Spec.v
theories/Coll_Proofs.v
theories/Coll_Proofs2.v
theories/Coll_Proofs3.v
theories/Coll_Spec.v
theories/Coll_Spec2.v
theories/Conv_Model.v
theories/Data_Model.v
theories/Data_Proofs.v
theories/Data_Spec.v
theories/Destroy_Model.v
theories/Destroy_Proofs.v
theories/Destroy_Spec.v
theories/Die_Model.v
theories/Die_Spec.v
theories/Disasm_Model.v
theories/Disasm_Proofs.v
theories/Disasm_Proofs2.v
theories/Disasm_Spec.v
theories/ErrMem_Model.v
theories/ErrMem_Spec.v
theories/Err_Model.v
theories/Err_Spec.v
theories/Escape_Model.v
theories/Escape_Spec.v
theories/Expr_Proofs.v
theories/Expr_Proofs1.v
theories/Expr_Proofs2.v
theories/Expr_Proofs3.v
theories/Expr_Proofs4.v
theories/Expr_Proofs5.v
theories/Expr_Proofs6.v
theories/Expr_Spec.v
theories/Ffi_Call_Proofs.v
theories/Ffi_Call_Spec.v
theories/Ffi_Cb_Proofs.v
theories/Ffi_Model.v
theories/Ffi_Proofs.v
theories/Ffi_Proofs2.v
theories/Ffi_Proofs3.v
theories/Ffi_Proofs4.v
theories/Ffi_Proofs5.v
theories/Ffi_Spec.v
theories/File_Model.v
theories/File_Spec.v
theories/Float_Proofs.v
theories/Fread_Model.v
theories/Gc_Fuel.v
theories/Gc_Log.v
theories/Gc_Model.v
theories/Gc_Proofs.v
theories/Gc_Proofs2.v
theories/Gc_Proofs3.v
theories/Gc_Proofs4.v
theories/Gc_Proofs5.v
theories/Gc_Spec.v
theories/Glob_Model.v
theories/Glob_Proofs.v
theories/Glob_Spec.v
theories/Host_Proofs.v
theories/Init_Model.v
theories/Init_Spec.v
theories/Iso_Proofs.v
theories/Iso_Spec.v
theories/JsonOut_Spec.v
theories/Json_Model.v
theories/Json_Proofs.v
theories/Json_Proofs2.v
theories/Json_Proofs3.v
theories/Json_Proofs4.v
theories/Json_Proofs5.v
theories/Json_Proofs6.v
theories/Json_Proofs7.v
theories/Json_Proofs8.v
theories/Json_Proofs9.v
theories/Json_Spec.v
theories/Lang_Apply.v
theories/Lang_Code.v
theories/Lang_Exec1.v
theories/Lang_Exec10.v
theories/Lang_Exec2.v
theories/Lang_Exec3.v
theories/Lang_Exec4.v
theories/Lang_Exec5.v
theories/Lang_Exec6.v
theories/Lang_Exec7.v
theories/Lang_Exec8.v
theories/Lang_Exec9.v
theories/Lang_Fail1.v
theories/Lang_Fail2.v
theories/Lang_Fail3.v
theories/Lang_Fail4.v
theories/Lang_Fail5.v
theories/Lang_Key.v
theories/Lang_Native.v
theories/Lang_Proofs1.v
theories/Lang_Proofs2.v
theories/Lang_Proofs3.v
theories/Lang_Proofs4.v
theories/Lang_Proofs5.v
theories/Lang_Proofs6.v
theories/Lang_Proofs7.v
theories/Lang_Spec.v
theories/Lang_Spec2.v
theories/Lang_Spec3.v
theories/Lang_Spec4.v
theories/Lang_Spec5.v
theories/Lang_Spec6.v
theories/Lex_Proofs.v
theories/Lit_Proofs.v
theories/Load_Model.v
theories/Load_Proofs.v
theories/Load_Proofs2.v
theories/Load_Spec.v
theories/Log_Model.v
theories/Log_Proofs.v
theories/Log_Spec.v
theories/Main_Model.v
theories/Main_Spec.v
theories/Mbuf_Model.v
theories/Mbuf_Proofs.v
theories/Mbuf_Spec.v
theories/Meth_Spec.v
theories/NumRound_Proofs.v
theories/NumRound_Proofs2.v
theories/NumRound_Proofs3.v
theories/NumRound_Spec.v
theories/NumText_Proofs.v
theories/NumText_Spec.v
theories/Num_Model.v
theories/Obj_Model.v
theories/Obj_Proofs.v
theories/Obj_Proofs2.v
theories/Obj_Spec.v
theories/Ops_Model.v
theories/Ops_Proofs.v
theories/Ops_Proofs2.v
theories/Ops_Spec.v
theories/Own_Model.v
theories/Own_Proofs.v
theories/Own_Spec.v
theories/Parse_Model.v
theories/Parse_Proofs.v
theories/Print_Model.v
theories/Print_Proofs.v
theories/Print_Spec.v
theories/Props_Apply.v
theories/Props_Arr.v
theories/Props_Asp.v
theories/Props_Avp.v
theories/Props_Bcode.v
theories/Props_Built.v
theories/Props_Cmp.v
theories/Props_Coll.v
theories/Props_Coll2.v
theories/Props_Data.v
theories/Props_Destroy.v
theories/Props_Dev.v
theories/Props_Die.v
theories/Props_Disasm.v
theories/Props_Err.v
theories/Props_ErrMem.v
theories/Props_Escape.v
theories/Props_Expr.v
theories/Props_Fail.v
theories/Props_Ffi.v
theories/Props_File.v
theories/Props_Fread.v
theories/Props_Gc.v
theories/Props_Glob.v
theories/Props_Host.v
theories/Props_Init.v
theories/Props_Init2.v
theories/Props_Json.v
theories/Props_JsonOut.v
theories/Props_Lang.v
theories/Props_Lang2.v
theories/Props_Lang3.v
theories/Props_Lang4.v
theories/Props_Load.v
theories/Props_Load2.v
theories/Props_Log.v
theories/Props_Main.v
theories/Props_Mbuf.v
theories/Props_Meth.v
theories/Props_Meth2.v
theories/Props_NumRound.v
theories/Props_Obj.v
theories/Props_Ops.v
theories/Props_Own.v
theories/Props_Parse.v
theories/Props_Print.v
theories/Props_RoundTrip.v
theories/Props_SUtil.v
theories/Props_Str.v
theories/Props_Time.v
theories/Props_Tok.v
theories/Props_TrMem.v
theories/Props_Trace.v
theories/Props_Trace2.v
theories/Props_Value.v
theories/Props_Varint.v
theories/Props_Vm.v
theories/RoundTrip_Spec.v
theories/Run_Model.v
theories/Run_Spec.v
theories/SUtil_Model.v
theories/SUtil_Proofs.v
theories/SUtil_Proofs2.v
theories/SUtil_Spec.v
theories/Str_Model.v
theories/Str_Proofs.v
theories/Str_Proofs2.v
theories/Str_Proofs3.v
theories/Str_Proofs4.v
theories/Str_Spec.v
theories/Time_Model.v
theories/Time_Proofs.v
theories/Time_Spec.v
theories/TokNum_Model.v
theories/Tok_Model.v
theories/Tok_Proofs.v
theories/Tok_Proofs2.v
theories/Tok_Proofs3.v
theories/Tok_Spec.v
theories/TrMem_Model.v
theories/TrMem_Spec.v
theories/Trace_Model.v
theories/Trace_Spec.v
theories/Txt_Model.v
theories/Value_Model.v
theories/Value_Proofs.v
theories/Value_Spec.v
theories/Varint_Model.v
theories/Varint_Proofs.v
theories/Varint_Spec.v
theories/Vm_Model.v
theories/Vm_Proofs.v
theories/Vm_Proofs2.v
theories/Vm_Proofs3.v
theories/Vm_Proofs4.v
theories/Vm_Spec.v
