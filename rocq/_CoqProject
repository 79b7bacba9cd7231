-Q theories Verif
theories/Base.v
theories/L_Appear.v
theories/L_Assign.v
theories/L_Bind.v
theories/L_Bind2.v
theories/L_Bind3.v
theories/L_Cast.v
theories/L_Chop.v
theories/L_Chop2.v
theories/L_Chop3.v
theories/L_DateTime.v
theories/L_Dbl.v
theories/L_DfList.v
theories/L_Dict.v
theories/L_DictHist.v
theories/L_DictNum.v
theories/L_DictOps.v
theories/L_DictOps2.v
theories/L_DictOps3.v
theories/L_DictRows.v
theories/L_Equal.v
theories/L_Factor.v
theories/L_Fields.v
theories/L_Fill.v
theories/L_Group.v
theories/L_Growable.v
theories/L_Hash.v
theories/L_Interval.v
theories/L_IntervalGap.v
theories/L_IntervalLoop.v
theories/L_IntervalRow.v
theories/L_MatchCont.v
theories/L_MatchEnv.v
theories/L_MatchExpand.v
theories/L_MatchFilter.v
theories/L_MatchGlue.v
theories/L_MatchJoint.v
theories/L_MatchKeys.v
theories/L_MatchLocate.v
theories/L_MatchNeedle.v
theories/L_MatchOps.v
theories/L_MatchOutcome.v
theories/L_MatchRec.v
theories/L_MatchRecord.v
theories/L_MatchResult.v
theories/L_MatchSearch.v
theories/L_MatchStable.v
theories/L_MatchSteps.v
theories/L_Missing.v
theories/L_Names.v
theories/L_Names2.v
theories/L_Object.v
theories/L_OrderChr.v
theories/L_OrderCount.v
theories/L_OrderDf.v
theories/L_OrderEntry.v
theories/L_OrderGroups.v
theories/L_OrderIns.v
theories/L_OrderKeys.v
theories/L_OrderRadix.v
theories/L_OrderScatter.v
theories/L_OrderSort.v
theories/L_OrderSpec.v
theories/L_OrderTl.v
theories/L_Owned.v
theories/L_Pairlist.v
theories/L_Proxy.v
theories/L_ProxyOrder.v
theories/L_Ptype.v
theories/L_Recycle.v
theories/L_Rep.v
theories/L_Restore.v
theories/L_Runs.v
theories/L_Runs2.v
theories/L_Runs3.v
theories/L_S3.v
theories/L_Scalar.v
theories/L_Set.v
theories/L_Sizes.v
theories/L_Slice.v
theories/L_SliceArray.v
theories/L_SliceVal.v
theories/L_Subscript.v
theories/L_Translate.v
theories/L_Unique.v
theories/L_Unrep.v
theories/L_Value.v
theories/M_Altrep.v
theories/M_Appear.v
theories/M_Arg.v
theories/M_Bind.v
theories/M_Cast.v
theories/M_Chop.v
theories/M_Combine.v
theories/M_DateTime.v
theories/M_DfList.v
theories/M_Dict.v
theories/M_DictApi.v
theories/M_Double.v
theories/M_DynListOf.v
theories/M_Env.v
theories/M_Factor.v
theories/M_Fields.v
theories/M_Fill.v
theories/M_Growable.v
theories/M_Hash.v
theories/M_Integer64.v
theories/M_Interval.v
theories/M_JointProxy.v
theories/M_Match.v
theories/M_Names.v
theories/M_Object.v
theories/M_Order.v
theories/M_OrderChr.v
theories/M_OrderDf.v
theories/M_Owned.v
theories/M_Pairlist.v
theories/M_Proxy.v
theories/M_ProxyOrder.v
theories/M_Ptype.v
theories/M_PtypeFlow.v
theories/M_Rank.v
theories/M_Rep.v
theories/M_Restore.v
theories/M_RlangDict.v
theories/M_Runs.v
theories/M_S3.v
theories/M_Scalar.v
theories/M_Shape.v
theories/M_Sizes.v
theories/M_Slice.v
theories/M_Subscript.v
theories/M_Translate.v
theories/M_Types.v
theories/M_VecUtils.v
theories/M_Walk.v
theories/P_Altrep.v
theories/P_Appear.v
theories/P_Arg.v
theories/P_Bind.v
theories/P_Cast.v
theories/P_Chop.v
theories/P_Combine.v
theories/P_Complement.v
theories/P_DateTime.v
theories/P_DfList.v
theories/P_Dict.v
theories/P_DynListOf.v
theories/P_Env.v
theories/P_Equal.v
theories/P_Expand.v
theories/P_Factor.v
theories/P_Fields.v
theories/P_Fill.v
theories/P_Growable.v
theories/P_Hash.v
theories/P_Integer64.v
theories/P_Interval.v
theories/P_JointProxy.v
theories/P_Match.v
theories/P_Missing.v
theories/P_Names.v
theories/P_Names2.v
theories/P_Order.v
theories/P_OrderKey.v
theories/P_Owned.v
theories/P_Pairlist.v
theories/P_ProxyOrder.v
theories/P_Ptype.v
theories/P_PtypeFlow.v
theories/P_Rank.v
theories/P_Rep.v
theories/P_Restore.v
theories/P_RlangDict.v
theories/P_Runs.v
theories/P_S3.v
theories/P_Shape.v
theories/P_Sizes.v
theories/P_Slice.v
theories/P_Subscript.v
theories/P_Translate.v
theories/P_Types.v
theories/P_VecUtils.v
theories/P_Walk.v
theories/Spec_Appear.v
theories/Spec_Arg.v
theories/Spec_Bind.v
theories/Spec_Cast.v
theories/Spec_Chop.v
theories/Spec_Combine.v
theories/Spec_DateTime.v
theories/Spec_DfList.v
theories/Spec_Dict.v
theories/Spec_Env.v
theories/Spec_Equal.v
theories/Spec_Factor.v
theories/Spec_Fields.v
theories/Spec_Fill.v
theories/Spec_Interval.v
theories/Spec_JointProxy.v
theories/Spec_Match.v
theories/Spec_Missing.v
theories/Spec_Names.v
theories/Spec_Order.v
theories/Spec_OrderRow.v
theories/Spec_Owned.v
theories/Spec_Pairlist.v
theories/Spec_ProxyOrder.v
theories/Spec_Ptype.v
theories/Spec_PtypeFlow.v
theories/Spec_Rep.v
theories/Spec_Restore.v
theories/Spec_Runs.v
theories/Spec_S3.v
theories/Spec_Sizes.v
theories/Spec_Slice.v
theories/Spec_Subscript.v
theories/Spec_Translate.v
theories/Spec_Types.v
theories/Spec_Value.v
theories/Spec_VecUtils.v
theories/Spec_Walk.v
