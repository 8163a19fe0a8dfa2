-Q theories Verif
theories/M_Base.v
theories/P_Base.v
theories/M_Text.v
theories/S_Text.v
theories/P_Text.v
theories/C_Text.v
theories/M_Line.v
theories/S_Line.v
theories/P_Line.v
theories/C_Line.v
theories/M_Fold.v
theories/S_Fold.v
theories/P_Fold.v
theories/C_Fold.v
theories/M_Tree.v
theories/S_Tree.v
theories/P_Tree.v
theories/C_Tree.v
theories/M_Codec.v
theories/S_Codec.v
theories/P_Codec.v
theories/P_CodecX.v
theories/P_CodecX2.v
theories/C_Codec.v
theories/M_Cal.v
theories/P_Cal.v
theories/M_Time.v
theories/M_Span.v
theories/M_Dt.v
theories/S_Dt.v
theories/P_Dt.v
theories/C_Dt.v
theories/S_Span.v
theories/P_Span.v
theories/C_Span.v
theories/M_Event.v
theories/S_Event.v
theories/P_Event.v
theories/C_Event.v
theories/S_Assign.v
theories/P_Assign.v
theories/P_Assign2.v
theories/P_Assign3.v
theories/C_Assign.v
theories/M_Cmp.v
theories/S_Cmp.v
theories/P_Cmp.v
theories/P_CmpEq.v
theories/C_Cmp.v
theories/M_Norm.v
theories/S_Norm.v
theories/P_Norm.v
theories/C_Norm.v
theories/M_Heap.v
theories/P_Heap.v
theories/M_Timeline.v
theories/S_Timeline.v
theories/P_Timeline.v
theories/C_Timeline.v
theories/M_Zone.v
theories/S_Zone.v
theories/P_Zone.v
theories/C_Zone.v
theories/M_Cont.v
theories/S_Cont.v
theories/P_Cont.v
theories/C_Cont.v
theories/M_Scope.v
theories/S_Scope.v
theories/P_Scope.v
theories/C_Scope.v
theories/M_Attr.v
theories/S_Attr.v
theories/P_Attr.v
theories/C_Attr.v
theories/M_Open.v
theories/S_Open.v
theories/P_Open.v
theories/C_Open.v
theories/M_Comp.v
theories/M_Clone.v
theories/S_Clone.v
theories/P_Clone.v
theories/C_Clone.v
theories/S_Comp.v
theories/S_Toy.v
theories/P_Comp.v
theories/P_Keep.v
theories/C_Keep.v
theories/P_Frame.v
theories/S_Multi.v
theories/P_Multi.v
theories/P_Cat.v
theories/C_Multi.v
theories/S_Store.v
theories/P_Rt.v
theories/P_Field.v
theories/P_SpanRt.v
theories/P_Whole.v
theories/P_Store.v
theories/P_Back.v
theories/P_StoreEx.v
theories/C_Store.v
theories/P_Out.v
theories/S_Ref.v
theories/P_Ref.v
theories/M_Serial.v
theories/S_Wire.v
theories/P_Wire.v
theories/P_Calendar.v
theories/P_CalendarEx.v
theories/C_Ref.v
theories/C_Calendar.v
theories/M_Person.v
theories/S_Person.v
theories/P_Person.v
theories/P_PersonEx.v
theories/C_Person.v
theories/M_Rrule.v
theories/M_Vtz.v
theories/S_Vtz.v
theories/P_Rrule.v
theories/P_Vtz.v
theories/P_Vtz2.v
theories/P_VtzEx.v
theories/P_VtzCal.v
theories/C_Vtz.v
theories/S_Reorder.v
theories/P_Local.v
theories/P_Reorder.v
theories/P_ReorderEx.v
theories/C_Reorder.v
theories/S_Read.v
theories/P_Value.v
theories/P_ReadGen.v
theories/P_ReadVal.v
theories/P_ReadSpan.v
theories/P_Read.v
theories/P_ReadAll.v
theories/P_ReadEx.v
theories/C_Read.v
theories/M_Strip.v
theories/S_Strip.v
theories/P_Strip.v
theories/P_StripOut.v
theories/P_StripEx.v
theories/C_Strip.v
theories/M_TzConv.v
theories/S_TzConv.v
theories/P_TzConv.v
theories/P_TzConv2.v
theories/P_TzConvEx.v
theories/C_TzConv.v
theories/M_Decl.v
theories/S_Decl.v
theories/S_Order.v
theories/P_Decl.v
theories/P_Order.v
theories/P_OrderEx.v
theories/C_Decl.v
theories/C_Order.v
theories/S_Again.v
theories/P_Again.v
theories/P_Again2.v
theories/P_Again3.v
theories/P_Again4.v
theories/P_AgainEx.v
theories/C_Again.v
theories/M_Merge.v
theories/S_Merge.v
theories/P_Merge.v
theories/P_Merge2.v
theories/P_MergeEx.v
theories/C_Merge.v
theories/S_ZoneRead.v
theories/P_ZoneRead.v
theories/P_ZoneRead2.v
theories/P_ZoneRead3.v
theories/C_ZoneRead.v
theories/S_ZoneAgain.v
theories/P_ZoneAgain.v
theories/P_ZoneAgainEx.v
theories/C_ZoneAgain.v
theories/S_Origin.v
theories/P_Origin.v
theories/P_OriginEx.v
theories/C_Origin.v
theories/M_Show.v
theories/S_Show.v
theories/P_Show.v
theories/P_Show2.v
theories/P_Show3.v
theories/P_ShowEx.v
theories/C_Show.v
theories/M_RuleEq.v
theories/S_RuleEq.v
theories/P_RuleEq.v
theories/P_RuleEqEx.v
theories/C_RuleEq.v
theories/M_Check.v
theories/S_Check.v
theories/P_Check.v
theories/P_CheckEx.v
theories/C_Check.v
theories/S_Same.v
theories/P_Same.v
theories/P_Same2.v
theories/P_SameEx.v
theories/C_Same.v
theories/M_FromUtc.v
theories/S_FromUtc.v
theories/P_FromUtc.v
theories/P_FromUtcEx.v
theories/C_FromUtc.v
theories/M_Float.v
theories/S_Float.v
theories/P_Float.v
theories/P_Float2.v
theories/P_Float3.v
theories/P_Float4.v
theories/P_Float5.v
theories/P_Float6.v
theories/P_FloatEx.v
theories/C_Float.v
theories/M_Repr.v
theories/S_Repr.v
theories/P_Repr.v
theories/P_Repr2.v
theories/P_Repr3.v
theories/P_Repr4.v
theories/P_ReprEx.v
theories/C_Repr.v
theories/M_Fail.v
theories/S_Fail.v
theories/P_Fail.v
theories/P_Fail2.v
theories/P_Fail3.v
theories/P_Fail4.v
theories/P_Fail5.v
theories/P_FailEx.v
theories/C_Fail.v
theories/M_ContQ.v
theories/S_ContQ.v
theories/P_ContQ.v
theories/P_ContQ2.v
theories/C_ContQ.v
theories/M_CmpObj.v
theories/S_CmpObj.v
theories/P_CmpObj.v
theories/C_CmpObj.v
theories/S_PersonSet.v
theories/P_PersonSet.v
theories/C_PersonSet.v
theories/S_Period.v
theories/P_Period.v
theories/C_Period.v
theories/P_Action.v
theories/C_Action.v
theories/S_Write.v
theories/P_WriteText.v
theories/P_Write.v
theories/P_WriteEx.v
theories/C_Write.v
theories/S_SpanOps.v
theories/P_SpanOps.v
theories/P_SpanDay.v
theories/P_SpanOpsEx.v
theories/C_SpanOps.v
theories/M_Empty.v
theories/S_Empty.v
theories/P_Empty.v
theories/P_EmptyEx.v
theories/C_Empty.v
theories/M_Seconds.v
theories/S_Seconds.v
theories/P_Seconds.v
theories/P_SecondsEx.v
theories/C_Seconds.v
theories/P_VtzOnce.v
theories/C_VtzOnce.v
theories/S_Mark.v
theories/P_Mark.v
theories/C_Mark.v
theories/P_TlNone.v
theories/C_TlNone.v
theories/P_Floating.v
theories/C_Floating.v
theories/S_People.v
theories/P_People.v
theories/C_People.v
