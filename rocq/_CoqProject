-Q theories Verif
theories/Base.v
theories/Types.v
theories/Score.v
theories/Selection.v
theories/Chain.v
theories/Pool.v
theories/Utils.v
theories/Lib.v
theories/Manage.v
theories/Callback.v
theories/Admin.v
theories/World.v
theories/Mock.v
theories/Spec.v
theories/L_Base.v
theories/L_Inv.v
theories/L_Inv2.v
theories/L_Sel.v
theories/L_Inv3.v
theories/L_Step.v
theories/L_Acct.v
theories/L_Ust.v
theories/L_Lists.v
theories/L_Flow.v
theories/L_Safe.v
theories/L_Pool.v
theories/L_User.v
theories/L_Tok.v
theories/L_Batch.v
theories/L_Access.v
theories/L_Worth.v
theories/Scenario.v
theories/P_Acct.v
theories/P_Flow.v
theories/P_Pool.v
theories/P_User.v
theories/P_Batch.v
theories/P_Access.v
theories/L_Mock.v
theories/P_Mock.v
theories/L_Score.v
theories/L_Net.v
theories/P_Score.v
theories/L_Order.v
theories/P_Order.v
theories/L_Find.v
theories/L_FindW.v
theories/L_Tight.v
theories/P_Find.v
theories/Spec2.v
theories/L_More.v
theories/L_Select.v
theories/P_More.v
theories/P_Select.v
theories/TestKit.v
theories/Conformance.v
theories/Spec3.v
theories/L_Books.v
theories/P_Books.v
theories/L_Donate.v
theories/L_Exit.v
theories/P_Exit.v
theories/L_Wd.v
theories/L_Find2.v
theories/P_Find2.v
theories/L_Real.v
theories/P_Real.v
theories/Spec4.v
theories/L_Iff.v
theories/L_Same.v
theories/P_Iff.v
theories/L_Accept.v
theories/L_Reply.v
theories/P_Accept.v
theories/Spec5.v
theories/L_Coal.v
theories/P_Coal.v
theories/L_Comm.v
theories/P_Comm.v
theories/L_Turn.v
theories/P_Turn.v
theories/L_Lost.v
theories/P_Lost.v
theories/Spec6.v
theories/L_Split.v
theories/P_Split.v
theories/L_View.v
theories/P_View.v
theories/L_Exact.v
theories/P_Exact.v
theories/L_Exact2.v
theories/P_Exact2.v
theories/Spec7.v
theories/L_Exits.v
theories/P_Exits.v
theories/Spec8.v
theories/L_Start.v
theories/P_Start.v
theories/Spec9.v
theories/L_Frame.v
theories/L_Settle.v
theories/P_Settle.v
theories/P_Frame.v
theories/Spec10.v
theories/L_Drain.v
theories/L_Share.v
theories/L_Pot.v
theories/L_Leave.v
theories/P_Drain.v
theories/P_Share.v
theories/P_Pot.v
theories/P_Leave.v
theories/Spec11.v
theories/L_Last.v
theories/P_Last.v
theories/Spec12.v
theories/L_Alike.v
theories/P_Alike.v
theories/Codec.v
theories/Storage.v
theories/Spec13.v
theories/L_Codec.v
theories/L_Store.v
theories/L_Calls.v
theories/L_Entries.v
theories/P_Store.v
theories/L_Track.v
theories/L_Typed.v
theories/P_Track.v
theories/Abi.v
theories/Spec14.v
theories/L_Abi.v
theories/P_Abi.v
theories/Mnet.v
theories/Spec15.v
theories/L_Mnet1.v
theories/L_Mnet2.v
theories/L_Mnet3.v
theories/L_Mnet4.v
theories/P_Mnet.v
theories/Spec16.v
theories/L_Own.v
theories/P_Own.v
theories/Wire.v
theories/Spec17.v
theories/L_Wire.v
theories/P_Wire.v
theories/Proxy.v
theories/Spec18.v
theories/L_Proxy.v
theories/P_Proxy.v
theories/Script.v
theories/Spec19.v
theories/L_Script.v
theories/P_Script.v
theories/Spec20.v
theories/L_Setting.v
theories/L_Setting2.v
theories/P_Setting.v
theories/Spec21.v
theories/L_Power.v
theories/P_Power.v
theories/Spec22.v
theories/L_Vault.v
theories/P_Vault.v
theories/Spec23.v
theories/L_Earn.v
theories/P_Earn.v
theories/L_Front.v
theories/P_Front.v
theories/L_Join.v
theories/P_Join.v
theories/Spec24.v
theories/L_Later.v
theories/P_Later.v
theories/Spec25.v
theories/L_Often.v
theories/P_Often.v
theories/Spec26.v
theories/L_Away.v
theories/P_Away.v
theories/Spec27.v
theories/L_Essence.v
theories/P_Essence.v
