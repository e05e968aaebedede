-Q theories Verif
theories/Base.v
theories/Base64.v
theories/PyStr.v
theories/Utf8.v
theories/Uuid.v
theories/Time.v
theories/Codec_facts.v
theories/Prop_Codec.v
theories/Twofish.v
theories/Twofish_inv.v
theories/TwofishSpec.v
theories/Twofish_facts.v
theories/Cbc.v
theories/Cbc_facts.v
theories/Prop_Cipher.v
theories/Xml.v
theories/Xml_facts.v
theories/Lib.v
theories/Keyfile.v
theories/Construct.v
theories/Kdbx.v
theories/KdbxSpec.v
theories/Kdbx_facts.v
theories/Kdbx_rt.v
theories/Kdbx_inner.v
theories/Kdbx_file.v
theories/Kdbx_v3.v
theories/Kdbx_auth.v
theories/Kdbx_claims.v
theories/Toy.v
theories/Toy_facts.v
theories/Prop_Kdbx.v
theories/KeyfileSpec.v
theories/Keyfile_facts.v
theories/Kdbx_keyfile.v
theories/Prop_Keyfile.v
theories/Save.v
theories/Save_facts.v
theories/Prop_Save.v
theories/Tree.v
theories/XPath.v
theories/XPath_facts.v
theories/Db.v
theories/XPath_parse.v
theories/XPath_eval.v
theories/FindSpec.v
theories/Find_facts.v
theories/Find_path.v
theories/FindEx.v
theories/Find_more.v
theories/Prop_Find.v
theories/Api.v
theories/ApiSpec.v
theories/Heap.v
theories/Prim.v
theories/Api_xpath.v
theories/Api_fields.v
theories/Api_custom.v
theories/Api_sub.v
theories/ApiEx.v
theories/Api_claims.v
theories/Prop_Api.v
theories/StructSpec.v
theories/Struct.v
theories/Struct_add.v
theories/Struct_find.v
theories/Struct_bin.v
theories/Struct_trash.v
theories/Struct_empty.v
theories/Struct_index.v
theories/Struct_hist.v
theories/Struct_claims.v
theories/StructEx.v
theories/Prop_Struct.v
theories/BinSpec.v
theories/Bin_xpath.v
theories/Bin.v
theories/BinStore.v
theories/BinEx.v
theories/Prop_Bin.v
theories/CredSpec.v
theories/Cred.v
theories/Prop_Cred.v
theories/RefSpec.v
theories/Ref.v
theories/Ref_loop.v
theories/RefEx.v
theories/Prop_Ref.v
theories/PathSpec.v
theories/Path.v
theories/PathEx.v
theories/Prop_Path.v
theories/FormatSpec.v
theories/Format.v
theories/FormatEx.v
theories/Prop_Format.v
theories/IntegritySpec.v
theories/Integrity.v
theories/Integrity_ops.v
theories/Integrity_calls.v
theories/Integrity_step.v
theories/Integrity_hist.v
theories/IntegrityEx.v
theories/Prop_Integrity.v
theories/Clean.v
theories/Object.v
theories/Xml_sound.v
theories/ObjectSpec.v
theories/Object_facts.v
theories/NoDecrypt.v
theories/Object_claims.v
theories/Object_meta.v
theories/ObjectEx.v
theories/Prop_Object.v
theories/Listing.v
theories/Relabel.v
theories/Shown.v
theories/ListingEx.v
theories/Prop_Listing.v
theories/Deprecated.v
theories/Prop_More.v
theories/Ledger.v
theories/Streams.v
theories/Prop_Streams.v
theories/Trash_seq.v
theories/Prop_Trash.v
theories/Dump.v
theories/Dump_obj.v
theories/DumpPretty.v
theories/Prop_Dump.v
theories/ReopenSpec.v
theories/Reopen.v
theories/Prop_Reopen.v
theories/LocalSpec.v
theories/Local.v
theories/Local_step.v
theories/LocalEx.v
theories/Prop_Local.v
theories/Format_more.v
theories/HeaderEx.v
theories/Prop_Header.v
theories/UserXPath.v
theories/XPath_owner.v
theories/XPath_number.v
theories/Prop_XPath.v
theories/BinLedger.v
theories/Prop_BinSeq.v
theories/Stable.v
theories/Prop_Stable.v
theories/Shared.v
theories/Prop_Shared.v
theories/Hash.v
theories/Aes.v
theories/Chacha.v
theories/Inflate.v
theories/Argon.v
theories/Real.v
theories/RealFiles.v
theories/RealOpen.v
theories/Conform.v
theories/Conform_save.v
theories/Conform3.v
theories/Conform4.v
theories/ConformS.v
theories/ConformA.v
theories/ConformB.v
theories/ConformC.v
theories/ConformR.v
theories/Real_facts.v
theories/Prop_Real.v
theories/Find_rpath.v
theories/Limits.v
theories/Prop_Limits.v
theories/OutlineSpec.v
theories/Outline_tree.v
theories/Outline_calm.v
theories/Outline_step.v
theories/Outline_list.v
theories/OutlineEx.v
theories/Prop_Outline.v
theories/Level.v
theories/RegisterSpec.v
theories/Register_mute.v
theories/Register_calls.v
theories/Register.v
theories/Prop_Register.v
theories/LineSpec.v
theories/Line.v
theories/Prop_Line.v
theories/SettingSpec.v
theories/Setting.v
theories/Prop_Setting.v
theories/UniqueSpec.v
theories/Unique.v
theories/Prop_Unique.v
theories/UnicodeSpec.v
theories/Unicode.v
theories/Prop_Unicode.v
theories/ElementPath.v
theories/Prop_ElementPath.v
theories/ReadSpec.v
theories/Read.v
theories/Prop_Read.v
theories/FailSpec.v
theories/Fail.v
theories/FailBin.v
theories/Prop_Fail.v
theories/ScratchSpec.v
theories/Spare.v
theories/Calm.v
theories/Scratch.v
theories/Prop_Scratch.v
theories/Undo.v
theories/Prop_Undo.v
theories/AgainSpec.v
theories/Again.v
theories/Prop_Again.v
theories/LastSpec.v
theories/Last.v
theories/LastSet.v
theories/LastAtt.v
theories/Prop_Last.v
theories/SwapSpec.v
theories/Swap.v
theories/Apart.v
theories/Inside.v
theories/Nested.v
theories/Prop_Swap.v
theories/DropSpec.v
theories/Drop.v
theories/Prop_Drop.v
theories/DropMore.v
theories/Prop_DropMore.v
