-Q theories Verif
theories/Base.v
theories/M_Codec.v
theories/M_EC.v
theories/M_Flow.v
theories/M_HD.v
theories/M_Hash.v
theories/M_Interp.v
theories/M_Keys.v
theories/M_Obj.v
theories/M_Point.v
theories/M_Rand.v
theories/M_Script.v
theories/M_Show.v
theories/M_Sign.v
theories/M_Tx.v
theories/M_URI.v
theories/M_Unit.v
theories/M_Utils.v
theories/P_All.v
theories/P_Among.v
theories/P_Bind.v
theories/P_Both.v
theories/P_Codec.v
theories/P_Cofactor.v
theories/P_Count.v
theories/P_DSA.v
theories/P_Dead.v
theories/P_Decimal.v
theories/P_Depth.v
theories/P_Der.v
theories/P_EC.v
theories/P_ECDSA.v
theories/P_ECProps.v
theories/P_ErrCode.v
theories/P_Field.v
theories/P_Float.v
theories/P_Flow.v
theories/P_Form.v
theories/P_Formula.v
theories/P_Group.v
theories/P_HD.v
theories/P_HDText.v
theories/P_Huge.v
theories/P_Interp.v
theories/P_InterpIf.v
theories/P_KeyArith.v
theories/P_KeyTheory.v
theories/P_Keys.v
theories/P_Leaf.v
theories/P_Local.v
theories/P_Mall.v
theories/P_NumTheory.v
theories/P_Obj.v
theories/P_Order.v
theories/P_Origin.v
theories/P_Path.v
theories/P_Peak.v
theories/P_Peep.v
theories/P_PeepR.v
theories/P_PeepT.v
theories/P_PeepW.v
theories/P_Perm.v
theories/P_Point.v
theories/P_Policy.v
theories/P_Prime.v
theories/P_PubKey.v
theories/P_PubTx.v
theories/P_RFC6979.v
theories/P_Rand.v
theories/P_Ref.v
theories/P_RefBtc.v
theories/P_Script.v
theories/P_ScriptNum.v
theories/P_SecpOrder.v
theories/P_SecpPrime.v
theories/P_Show.v
theories/P_SigAlg.v
theories/P_SigErr.v
theories/P_SigTheory.v
theories/P_Sign.v
theories/P_SignTx.v
theories/P_Size.v
theories/P_Stream.v
theories/P_Table.v
theories/P_TextErr.v
theories/P_Turn.v
theories/P_TurnKeys.v
theories/P_Twin.v
theories/P_Tx.v
theories/P_TxSign.v
theories/P_URI.v
theories/P_Unit.v
theories/P_Utils.v
theories/P_Vector.v
theories/P_Wide.v
theories/Properties_All.v
theories/Properties_Among.v
theories/Properties_Bind.v
theories/Properties_Both.v
theories/Properties_Codec.v
theories/Properties_Count.v
theories/Properties_Dead.v
theories/Properties_Depth.v
theories/Properties_Der.v
theories/Properties_EC.v
theories/Properties_ErrCode.v
theories/Properties_Flow.v
theories/Properties_Form.v
theories/Properties_Formula.v
theories/Properties_HD.v
theories/Properties_HDText.v
theories/Properties_Huge.v
theories/Properties_Interp.v
theories/Properties_KeyArith.v
theories/Properties_Keys.v
theories/Properties_Leaf.v
theories/Properties_Local.v
theories/Properties_Mall.v
theories/Properties_Obj.v
theories/Properties_Order.v
theories/Properties_Origin.v
theories/Properties_Path.v
theories/Properties_Peep.v
theories/Properties_Perm.v
theories/Properties_Point.v
theories/Properties_Policy.v
theories/Properties_PubKey.v
theories/Properties_RFC6979.v
theories/Properties_Rand.v
theories/Properties_Ref.v
theories/Properties_Script.v
theories/Properties_Show.v
theories/Properties_SigErr.v
theories/Properties_SigTheory.v
theories/Properties_Sign.v
theories/Properties_Size.v
theories/Properties_Stream.v
theories/Properties_Table.v
theories/Properties_TextErr.v
theories/Properties_Turn.v
theories/Properties_Twin.v
theories/Properties_Tx.v
theories/Properties_URI.v
theories/Properties_Unit.v
theories/Properties_Utils.v
theories/Properties_Wide.v
theories/S_All.v
theories/S_Among.v
theories/S_Bind.v
theories/S_Both.v
theories/S_Codec.v
theories/S_Count.v
theories/S_Dead.v
theories/S_Depth.v
theories/S_Der.v
theories/S_EC.v
theories/S_ErrCode.v
theories/S_Flow.v
theories/S_Form.v
theories/S_Formula.v
theories/S_HD.v
theories/S_HDText.v
theories/S_Interp.v
theories/S_KeyArith.v
theories/S_Keys.v
theories/S_Leaf.v
theories/S_Local.v
theories/S_Obj.v
theories/S_Order.v
theories/S_Origin.v
theories/S_Path.v
theories/S_Peep.v
theories/S_Perm.v
theories/S_Point.v
theories/S_Policy.v
theories/S_RFC6979.v
theories/S_Rand.v
theories/S_Ref.v
theories/S_Script.v
theories/S_Show.v
theories/S_SigTheory.v
theories/S_Sign.v
theories/S_Size.v
theories/S_Stream.v
theories/S_Table.v
theories/S_TextErr.v
theories/S_Turn.v
theories/S_Twin.v
theories/S_Tx.v
theories/S_URI.v
theories/S_Unit.v
theories/S_Utils.v
theories/S_Wide.v
theories/T_Hash.v
theories/T_Repo.v
theories/T_TxData.v
