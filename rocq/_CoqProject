-Q theories Verif

theories/Base.v
theories/BaseFacts.v
theories/Model_Payload.v
theories/Model_Transport.v
theories/Spec_Transport.v
theories/Proofs_Payload.v
theories/Proofs_Send.v
theories/Proofs_Send2.v
theories/Proofs_Recv.v
theories/Proofs_Conn.v
theories/Properties_Transport.v
theories/Model_Strings.v
theories/Spec_Strings.v
theories/Proofs_Strings.v
theories/Properties_Strings.v
theories/Model_Scalars.v
theories/Spec_Scalars.v
theories/Proofs_Scalars.v
theories/Proofs_Duration.v
theories/Proofs_Datetime.v
theories/Model_Text.v
theories/Proofs_Text.v
theories/Properties_Scalars.v
theories/Model_Crypto.v
theories/Proofs_Crypto.v
theories/Model_Enum.v
theories/Proofs_Enum.v
theories/Properties_Crypto.v
theories/Model_Object.v
theories/Spec_Object.v
theories/Proofs_Object.v
theories/Properties_Object.v
theories/Model_Command.v
theories/Spec_Command.v
theories/Proofs_Command.v
theories/Properties_Command.v
theories/Model_Host.v
theories/Spec_Host.v
theories/Proofs_Host.v
theories/Properties_Host.v
theories/Model_Pool.v
theories/Spec_Pool.v
theories/Proofs_Pool.v
theories/Proofs_Pool2.v
theories/Proofs_Pool3.v
theories/Properties_Pool.v
theories/Proofs_Sys.v
theories/Proofs_Sys2.v
theories/Spec_Sys.v
theories/Proofs_Sys3.v
theories/Proofs_Sys4.v
theories/Proofs_Sys5.v
theories/Proofs_Sys6.v
theories/Proofs_Sys7.v
theories/Properties_Sys.v
theories/Model_Clixml.v
theories/Spec_Clixml.v
theories/Proofs_Clixml1.v
theories/Proofs_Clixml2.v
theories/Proofs_Clixml3.v
theories/Proofs_Clixml4.v
theories/Proofs_Clixml5.v
theories/Proofs_Clixml6.v
theories/Proofs_Clixml7.v
theories/Properties_Clixml.v
theories/Model_Xml.v
theories/Spec_Xml.v
theories/Proofs_Xml1.v
theories/Proofs_Xml2.v
theories/Proofs_Xml3.v
theories/Properties_Xml.v
theories/Model_Shell.v
theories/Spec_Shell.v
theories/Proofs_Shell.v
theories/Properties_Shell.v
theories/Spec_Wire.v
theories/Proofs_Wire.v
theories/Proofs_Wire2.v
theories/Spec_Shown.v
theories/Proofs_Shown.v
theories/Properties_Wire.v
theories/Spec_Effects.v
theories/Proofs_Effects.v
theories/Proofs_Effects2.v
theories/Properties_Effects.v
theories/Model_Utf8.v
theories/Spec_Utf8.v
theories/Proofs_Utf8.v
theories/Model_Messages.v
theories/Spec_Messages.v
theories/Proofs_Messages.v
theories/Properties_Messages.v
theories/Model_Bytes.v
theories/Spec_Bytes.v
theories/Proofs_Bytes.v
theories/Properties_Bytes.v
theories/Model_Records.v
theories/Spec_Records.v
theories/Proofs_Records.v
theories/Properties_Records.v
theories/Model_Time.v
theories/Spec_Time.v
theories/Proofs_Time.v
theories/Properties_Time.v
theories/Model_Class.v
theories/Spec_Class.v
theories/Proofs_Class.v
theories/Proofs_Class2.v
theories/Proofs_Class3.v
theories/Properties_Class.v
theories/Spec_Crypto.v
theories/Proofs_Crypto2.v
theories/Spec_Read.v
theories/Proofs_Read.v
theories/Proofs_Read2.v
theories/Proofs_Read3.v
theories/Proofs_Read4.v
theories/Properties_Read.v
theories/Proofs_Host2.v
theories/Model_Index.v
theories/Spec_Index.v
theories/Proofs_Index.v
theories/Proofs_Index2.v
theories/Properties_Index.v
theories/Spec_HostWire.v
theories/Proofs_HostWire.v
theories/Proofs_HostWire2.v
theories/Proofs_HostWire3.v
theories/Properties_HostWire.v
theories/Proofs_Lines.v
theories/Model_Pipeline.v
theories/Spec_Pipeline.v
theories/Proofs_Pipeline.v
theories/Proofs_Pipeline2.v
theories/Proofs_Pipeline3.v
theories/Properties_Pipeline.v
theories/Model_Builder.v
theories/Spec_Builder.v
theories/Proofs_Builder.v
theories/Properties_Builder.v
theories/Model_Dates.v
theories/Spec_Dates.v
theories/Proofs_Dates.v
theories/Proofs_Dates2.v
theories/Properties_Dates.v
theories/Model_Journey.v
theories/Spec_Journey.v
theories/Proofs_Journey.v
theories/Properties_Journey.v
theories/Spec_Numeral.v
theories/Proofs_Numeral.v
theories/Properties_Numeral.v
theories/Model_ToString.v
theories/Spec_ToString.v
theories/Proofs_ToString.v
theories/Properties_ToString.v
theories/Spec_Duration.v
theories/Proofs_Duration2.v
theories/Properties_Duration.v
theories/Spec_DateText.v
theories/Proofs_DateText.v
theories/Properties_DateText.v
theories/Spec_TextForms.v
theories/Proofs_TextForms.v
theories/Properties_TextForms.v
theories/Spec_Bytes64.v
theories/Proofs_Bytes64.v
theories/Properties_Bytes64.v
theories/Model_Metadata.v
theories/Spec_Metadata.v
theories/Proofs_Metadata.v
theories/Properties_Metadata.v
theories/Model_RecordWire.v
theories/Spec_RecordWire.v
theories/Proofs_RecordWire.v
theories/Properties_RecordWire.v
theories/Spec_Hooks.v
theories/Proofs_Hooks.v
theories/Properties_Hooks.v
theories/Model_Notices.v
theories/Spec_Notices.v
theories/Proofs_Notices.v
theories/Properties_Notices.v
theories/Model_FromHook.v
theories/Spec_FromHook.v
theories/Proofs_FromHook.v
theories/Properties_FromHook.v
theories/Spec_Nested.v
theories/Proofs_Nested.v
theories/Proofs_Nested2.v
theories/Properties_Nested.v
theories/Model_Numbers.v
theories/Spec_Numbers.v
theories/Proofs_Numbers.v
theories/Properties_Numbers.v
theories/Model_Decimal.v
theories/Spec_Decimal.v
theories/Proofs_Decimal.v
theories/Proofs_Decimal2.v
theories/Properties_Decimal.v
theories/Model_Float.v
theories/Spec_Float.v
theories/Proofs_Float.v
theories/Proofs_Float2.v
theories/Properties_Float.v
theories/Proofs_Float3.v
theories/Model_Registry.v
theories/Spec_Registry.v
theories/Proofs_Registry.v
theories/Properties_Registry.v
theories/Model_EnumClass.v
theories/Spec_EnumClass.v
theories/Properties_EnumClass.v
theories/Model_EnumOps.v
theories/Spec_EnumOps.v
theories/Properties_EnumOps.v
theories/Model_FlagOps.v
theories/Spec_FlagOps.v
theories/Properties_FlagOps.v
theories/Model_PowMod.v
theories/Spec_PowMod.v
theories/Properties_PowMod.v
