-Q theories Verif
theories/M_Base.v
theories/M_Endian.v
theories/M_F64.v
theories/M_IO.v
theories/M_FileNull.v
theories/M_FileMem.v
theories/M_FileFile.v
theories/M_Durable.v
theories/M_Signature.v
theories/M_SigTables.v
theories/S_SigTables.v
theories/M_Header.v
theories/M_Context.v
theories/M_Profile.v
theories/M_Curve.v
theories/M_CurveReal.v
theories/M_CurveF64.v
theories/S_Bytes.v
theories/P_Bytes.v
theories/P_Endian.v
theories/Props_Endian.v
theories/P_List.v
theories/S_File.v
theories/S_Conditions.v
theories/S_S15.v
theories/P_FileMem.v
theories/S_Typed.v
theories/P_Typed.v
theories/P_MemProps.v
theories/P_FileFile.v
theories/P_IOProps.v
theories/Props_Typed.v
theories/Props_Mem.v
theories/Props_File.v
theories/P_FileNull.v
theories/Props_Null.v
theories/P_S15.v
theories/P_S15IO.v
theories/Props_S15.v
theories/S_Text.v
theories/P_Signature.v
theories/Props_Signature.v
theories/S_Header.v
theories/P_Header.v
theories/Props_Header.v
theories/S_Profile.v
theories/P_Profile.v
theories/P_Open.v
theories/P_Open2.v
theories/P_Open3.v
theories/Props_Profile.v
theories/M_Threads.v
theories/S_Threads.v
theories/P_Threads.v
theories/Props_Threads.v
theories/S_Context.v
theories/P_Context.v
theories/Props_Context.v
theories/S_Curve.v
theories/P_Curve.v
theories/Props_Curve.v
theories/S_Source.v
theories/P_Source.v
theories/Props_Source.v
theories/S_Assemble.v
theories/P_Assemble.v
theories/Props_Assemble.v
theories/M_Debug.v
theories/S_Debug.v
theories/P_Debug.v
theories/S_Same.v
theories/P_Same.v
theories/Props_Debug.v
theories/S_Counts.v
theories/P_Counts.v
theories/P_Counts2.v
theories/Props_Counts.v
theories/S_Grow.v
theories/P_Grow.v
theories/Props_Grow.v
theories/S_Contains.v
theories/P_Contains.v
theories/Props_Contains.v
theories/S_Talk.v
theories/P_Talk.v
theories/Props_Talk.v
theories/S_Curve2.v
theories/P_Curve2.v
theories/P_Formula.v
theories/Props_Curve2.v
theories/S_F64.v
theories/P_F64.v
theories/P_Curve3.v
theories/Props_Curve3.v
theories/P_S15Mono.v
theories/P_CurveErr.v
theories/P_Ideal.v
theories/P_CurveErr2.v
theories/Props_Curve4.v
theories/S_Search.v
theories/P_Search.v
theories/Props_Search.v
theories/Validate.v
theories/Validate2.v
theories/S_Srgb.v
theories/P_CurveErr3.v
theories/P_CurveErr4.v
theories/P_Srgb.v
theories/Props_Curve5.v
theories/P_Srgb2.v
theories/P_Srgb3.v
theories/P_Srgb4.v
theories/Props_Srgb.v
theories/S_SigMisc.v
theories/P_Fresh.v
theories/Props_Fresh.v
theories/S_Decimal.v
theories/P_Decimal.v
theories/Props_Decimal.v
theories/S_Exact.v
theories/P_Exact.v
theories/P_Exact2.v
theories/S_Pow.v
theories/P_Pow.v
theories/P_Exact3.v
theories/Props_Exact.v
theories/S_Order.v
theories/P_Order.v
theories/P_Order2.v
theories/P_Order3.v
theories/P_Order4.v
theories/P_Order5.v
theories/P_Order6.v
theories/Props_Order.v
theories/M_Layout.v
theories/S_Layout.v
theories/P_Layout.v
theories/Props_Layout.v
theories/M_Show.v
theories/M_Show2.v
theories/S_Show.v
theories/P_Show.v
theories/P_Show2.v
theories/Props_Show.v
theories/S_Accuracy.v
theories/P_Acc.v
theories/P_Acc2.v
theories/P_Acc3.v
theories/P_Acc4.v
theories/P_Acc5.v
theories/P_Acc6.v
theories/P_Acc7.v
theories/P_Acc9.v
theories/P_Acc8.v
theories/Props_Accuracy.v
theories/S_Disk.v
theories/P_Disk.v
theories/P_Failing.v
theories/Props_Disk.v
theories/S_Guard.v
theories/P_Guard.v
theories/Props_Guard.v
theories/S_Return.v
theories/P_Return.v
theories/P_Return2.v
theories/P_Return3.v
theories/P_Return4.v
theories/Props_Return.v
theories/S_Show2.v
theories/P_Show3.v
theories/P_Show4.v
theories/Props_Show2.v
theories/S_Signed.v
theories/P_Signed.v
theories/P_Signed2.v
theories/Props_Signed.v
theories/S_Neutral.v
theories/P_Neutral.v
theories/Props_Neutral.v
theories/S_Jump.v
theories/P_Jump.v
theories/P_Jump2.v
theories/Props_Jump.v
theories/S_Undo.v
theories/P_Undo.v
theories/Props_Undo.v
theories/P_Redo.v
theories/Props_Redo.v
theories/S_Opening.v
theories/P_Opening.v
theories/Props_Opening.v
theories/S_Fetch.v
theories/P_Fetch.v
theories/Props_Fetch.v
theories/S_Words.v
theories/P_Words.v
theories/Props_Words.v
theories/S_Store.v
theories/P_Store.v
theories/Props_Store.v
theories/S_Direction.v
theories/P_Direction.v
theories/Props_Direction.v
theories/S_Fault.v
theories/P_Fault.v
theories/Props_Fault.v
