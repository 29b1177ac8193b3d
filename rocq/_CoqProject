-Q theories Verif
theories/Base.v
theories/BaseLemmas.v
theories/Model_Encoding.v
theories/Spec_Encoding.v
theories/Proofs_Encoding.v
theories/Prop_Encoding.v
theories/Model_Integer.v
theories/Spec_Integer.v
theories/Spec_IntegerExpr.v
theories/Proofs_Integer.v
theories/Prop_Integer.v
theories/Model_ByteArray.v
theories/Spec_ByteArray.v
theories/Proofs_ByteArray.v
theories/Prop_ByteArray.v
theories/Model_Opcode.v
theories/Model_Script.v
theories/Spec_Script.v
theories/Proofs_Script.v
theories/Prop_Script.v
theories/Model_Code.v
theories/Spec_Code.v
theories/Spec_Wire.v
theories/Proofs_Code.v
theories/Proofs_Wire.v
theories/Proofs_Codec.v
theories/Proofs_Reser.v
theories/Prop_Code.v
theories/Model_Address.v
theories/Spec_Address.v
theories/Proofs_Address.v
theories/Proofs_Address2.v
theories/Proofs_AddressDist.v
theories/Proofs_Address3.v
theories/Prop_Address.v
theories/Model_Destination.v
theories/Spec_Destination.v
theories/Proofs_Destination.v
theories/Prop_Destination.v
theories/Model_Preimage.v
theories/Spec_Preimage.v
theories/Proofs_Preimage.v
theories/Prop_Preimage.v
theories/Model_TxBuilder.v
theories/Spec_TxBuilder.v
theories/Proofs_TxBuilder.v
theories/Proofs_TxBuilder2.v
theories/Proofs_TxBuilder3.v
theories/Proofs_TxBuilder4.v
theories/Proofs_TxBuilder5.v
theories/Prop_TxBuilder.v
theories/Prop_TxBuilder2.v
theories/Model_Json.v
theories/Spec_Json.v
theories/Spec_Base64.v
theories/Proofs_Json.v
theories/Proofs_Json2.v
theories/Proofs_Json3.v
theories/Prop_Json.v
theories/Spec_JsonFile.v
theories/Prop_JsonFile.v
theories/Model_Hash.v
theories/Spec_Hash.v
theories/Prop_Hash.v
theories/Model_Slp.v
theories/Spec_Slp.v
theories/Prop_Slp.v
theories/Model_Behavior.v
theories/Model_Macro.v
theories/Spec_Macro.v
theories/Proofs_Macro.v
theories/Prop_Macro.v
theories/Proofs_Macro2.v
theories/Proofs_Macro3.v
theories/Proofs_Macro4.v
theories/Proofs_Macro5.v
theories/Proofs_Macro6.v
theories/Proofs_Macro7.v
theories/Proofs_Macro8.v
theories/Prop_Macro2.v
theories/Model_Derive.v
theories/Spec_Derive.v
theories/Proofs_Derive.v
theories/Prop_Derive.v
theories/Model_DataType.v
theories/Spec_DataType.v
theories/Prop_DataType.v
theories/Model_AddressApi.v
theories/Spec_AddressApi.v
theories/Prop_AddressApi.v
theories/Model_IntConv.v
theories/Spec_IntConv.v
theories/Prop_IntConv.v
theories/Spec_Twin.v
theories/Proofs_Twin.v
theories/Prop_Twin.v
theories/Spec_Parts.v
theories/Prop_Parts.v
theories/Spec_Calls.v
theories/Prop_Calls.v
theories/Prop_Small.v
theories/Spec_Depth.v
theories/Prop_Small2.v
theories/Spec_Network.v
theories/Spec_NetView.v
theories/Proofs_Network.v
theories/Proofs_Network2.v
theories/Proofs_Network3.v
theories/Proofs_Network4.v
theories/Prop_Network.v
theories/Spec_OffChain.v
theories/Proofs_OffChain.v
theories/Proofs_OffChain2.v
theories/Prop_OffChain.v
theories/Spec_Behavior.v
theories/Proofs_Behavior.v
theories/Prop_Behavior.v
theories/Spec_MacroRun.v
theories/Proofs_MacroRun.v
theories/Prop_MacroRun.v
theories/Model_MacroParse.v
theories/Spec_MacroParse.v
theories/Proofs_MacroParse.v
theories/Proofs_MacroParse2.v
theories/Prop_MacroParse.v
theories/Model_MacroOut.v
theories/Spec_MacroOut.v
theories/Proofs_MacroOut.v
theories/Proofs_MacroOut2.v
theories/Prop_MacroOut.v
theories/Prop_MacroOut2.v
theories/Model_Ecc.v
theories/Spec_Ecc.v
theories/Proofs_Ecc.v
theories/Prop_Ecc.v
theories/Model_Mock.v
theories/Model_MacroType.v
theories/Spec_MacroType.v
theories/Proofs_MacroType.v
theories/Proofs_MacroType2.v
theories/Proofs_MacroType3.v
theories/Proofs_MacroType4.v
theories/Proofs_MacroType5.v
theories/Proofs_MacroType6.v
theories/Proofs_MacroType7.v
theories/Proofs_MacroType8.v
theories/Prop_MacroType.v
theories/Prop_MacroType2.v
theories/Model_Serde.v
theories/Spec_Serde.v
theories/Proofs_Serde.v
theories/Proofs_Serde2.v
theories/Proofs_Serde3.v
theories/Proofs_Serde4.v
theories/Proofs_Serde5.v
theories/Prop_Serde.v
theories/Prop_MacroType3.v
theories/Digest.v
theories/Digest_Facts.v
theories/Conform_Integer.v
theories/Conform_Data.v
theories/Conform_Macro.v
theories/Conform_Public.v
theories/Model_Text.v
theories/Spec_Text.v
theories/Proofs_Text.v
theories/Proofs_Text2.v
theories/Prop_Text.v
theories/Model_GenSource.v
theories/Spec_GenSource.v
theories/Proofs_GenSource.v
theories/Prop_GenSource.v
theories/Model_Binary.v
theories/Spec_Binary.v
theories/Proofs_Binary.v
theories/Prop_Binary.v
theories/Spec_Errors.v
theories/Proofs_Errors.v
theories/Proofs_Errors2.v
theories/Proofs_Errors3.v
theories/Prop_Errors.v
theories/Spec_Asked.v
theories/Prop_Asked.v
theories/Spec_Labels.v
theories/Proofs_Labels.v
theories/Prop_Labels.v
theories/Model_ErrorText.v
theories/Spec_ErrorText.v
theories/Prop_ErrorText.v
theories/Model_Equality.v
theories/Spec_Equality.v
theories/Proofs_Equality.v
theories/Prop_Equality.v
theories/Model_InputRef.v
theories/Spec_InputRef.v
theories/Prop_InputRef.v
theories/Spec_SlpTx.v
theories/Prop_SlpTx.v
