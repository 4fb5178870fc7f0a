-Q theories Verif
theories/Base.v
theories/Pack_Model.v
theories/Pack_Spec.v
theories/Pack_Proofs.v
theories/Pack_Proofs2.v
theories/P_Pack.v
theories/Opcodes_Model.v
theories/Opcodes_Spec.v
theories/Opcodes_Proofs.v
theories/P_Opcodes.v
theories/ConstPool_Model.v
theories/ConstPool_Spec.v
theories/ConstPool_Proofs.v
theories/ConstPool_Deref.v
theories/ClassFile_Model.v
theories/ClassFile_Spec.v
theories/ClassFile_Proofs.v
theories/ClassFile_Names.v
theories/P_ClassFile.v
theories/Descr_Model.v
theories/Descr_Spec.v
theories/Descr_Proofs.v
theories/P_Descr.v
theories/Anno_Model.v
theories/Anno_Spec.v
theories/Anno_Proofs.v
theories/P_Anno.v
theories/Glob_Model.v
theories/Glob_Spec.v
theories/Glob_Proofs.v
theories/P_Glob.v
theories/Manifest_Model.v
theories/Manifest_Spec.v
theories/Manifest_Proofs.v
theories/Manifest_RT.v
theories/Manifest_Canon.v
theories/P_Manifest.v
theories/Manifest_Grammar.v
theories/Manifest_Parse.v
theories/P_Manifest2.v
theories/Sign_Model.v
theories/Sign_Spec.v
theories/Sign_Proofs.v
theories/Sign_Names.v
theories/Sign_Bind.v
theories/Sign_Tamper.v
theories/Sign_Parsed.v
theories/Sign_Jar.v
theories/Sign_C31.v
theories/Sign_C32.v
theories/P_Sign.v
theories/Change_Model.v
theories/Change_Spec.v
theories/Change_Proofs.v
theories/Change_Report.v
theories/P_Change.v
theories/Zip_Model.v
theories/Zip_Spec.v
theories/Zip_Proofs.v
theories/Zip_Tree.v
theories/Crc_Spec.v
theories/Crc_Proofs.v
theories/P_Zip.v
theories/Dir_Model.v
theories/Dir_Spec.v
theories/Dir_Proofs.v
theories/Dir_Copy.v
theories/P_Dir.v
theories/Classdiff_Model.v
theories/Classdiff_Spec.v
theories/Classdiff_Members.v
theories/Classdiff_Code.v
theories/Classdiff_Class.v
theories/Classdiff_Passes.v
theories/Classdiff_Self.v
theories/Classdiff_Merge.v
theories/P_Classdiff.v
theories/Change_Tame.v
theories/Jardiff_Model.v
theories/Jardiff_Spec.v
theories/Jardiff_Proofs.v
theories/Jardiff_Jar.v
theories/Jardiff_Report.v
theories/P_Jardiff.v
theories/Distdiff_Model.v
theories/Distdiff_Spec.v
theories/Distdiff_Proofs.v
theories/Distdiff_Dist.v
theories/P_Distdiff.v
theories/Parallel_Model.v
theories/Parallel_Proofs.v
theories/P_Parallel.v
theories/Info_Model.v
theories/Info_Spec.v
theories/Info_Class.v
theories/Info_Lookup.v
theories/Info_Jar.v
theories/Info_More.v
theories/P_Info.v
theories/Report_Model.v
theories/Report_Spec.v
theories/Report_Paths.v
theories/Report_Proofs.v
theories/Report_Jar.v
theories/Report_Written.v
theories/P_Report.v
theories/Opts_Model.v
theories/Opts_Spec.v
theories/Opts_Proofs.v
theories/Opts_Mono.v
theories/P_Opts.v
theories/Kinds_Spec.v
theories/P_Kinds.v
theories/Tool_Model.v
theories/Tool_Spec.v
theories/Tool_Create.v
theories/Tool_Jar.v
theories/Tool_Errors.v
theories/P_Tool.v
theories/Print_Model.v
theories/Print_Spec.v
theories/Print_Decl.v
theories/Print_Inj.v
theories/Print_Code.v
theories/Print_List.v
theories/P_Print.v
theories/Crypto_Model.v
theories/Crypto_Spec.v
theories/P_Crypto.v
theories/Tmpl_Model.v
theories/Tmpl_Spec.v
theories/Tmpl_Proofs.v
theories/P_Tmpl.v
theories/Html_Model.v
theories/Html_Spec.v
theories/Html_Table.v
theories/Html_Page.v
theories/Html_Members.v
theories/Html_Values.v
theories/Html_Class.v
theories/Html_Pool.v
theories/Html_Heads.v
theories/Html_Wf.v
theories/Html_Pages.v
theories/P_Html.v
theories/Jinfo_Model.v
theories/Jinfo_Spec.v
theories/Jinfo_Proofs.v
theories/P_Jinfo.v
theories/Page_Model.v
theories/Page_Spec.v
theories/Page_Listing.v
theories/Page_Proofs.v
theories/Page_Dist.v
theories/Page_Wf.v
theories/P_Page.v
theories/Verdict_Anno.v
theories/Verdict_Spec.v
theories/Verdict_Class.v
theories/Verdict_Jar.v
theories/P_Verdict.v
theories/Drep_Model.v
theories/Drep_Spec.v
theories/Drep_Proofs.v
theories/P_Drep.v
theories/Signdiff_Spec.v
theories/Signdiff_Proofs.v
theories/P_Signdiff.v
theories/Verbose_Spec.v
theories/Verbose_Proofs.v
theories/P_Verbose.v
theories/Annopage_Spec.v
theories/Annopage_Proofs.v
theories/P_Annopage.v
theories/Resource_Model.v
theories/Resource_Spec.v
theories/Resource_Proofs.v
theories/P_Resource.v
theories/Text_Spec.v
theories/Text_Proofs.v
theories/Text_Class.v
theories/Text_Unique.v
theories/P_Text.v
theories/Cjson_Model.v
theories/Cjson_Spec.v
theories/Cjson_Proofs.v
theories/P_Cjson.v
theories/Jtext_Spec.v
theories/Jtext_Proofs.v
theories/Jtext_Jar.v
theories/P_Jtext.v
theories/Dtext_Model.v
theories/Dtext_Spec.v
theories/Dtext_Proofs.v
theories/P_Dtext.v
theories/Doc_Spec.v
theories/Doc_Proofs.v
theories/Doc_Code.v
theories/Doc_Class.v
theories/Doc_Unique.v
theories/P_Doc.v
theories/Jdoc_Spec.v
theories/Jdoc_Proofs.v
theories/Jdoc_Jar.v
theories/P_Jdoc.v
theories/Ddoc_Model.v
theories/Ddoc_Spec.v
theories/Ddoc_Proofs.v
theories/P_Ddoc.v
theories/Written_Spec.v
theories/Written_Proofs.v
theories/Written_Jar.v
theories/P_Written.v
theories/Written_Dspec.v
theories/Written_Dist.v
theories/P_Wdist.v
theories/Tables_Spec.v
theories/P_Tables.v
theories/Quick_Model.v
theories/Quick_Spec.v
theories/Quick_Proofs.v
theories/P_Quick.v
theories/Reuse_Model.v
theories/Reuse_Spec.v
theories/Reuse_Verify.v
theories/P_Reuse.v
theories/Upto_Model.v
theories/Upto_Spec.v
theories/Upto_Proofs.v
theories/P_Upto.v
theories/Debug_Model.v
theories/Debug_Spec.v
theories/Debug_Proofs.v
theories/P_Debug.v
theories/Session_Model.v
theories/Session_Spec.v
theories/Session_Proofs.v
theories/P_Session.v
theories/Tmp_Model.v
theories/Tmp_Spec.v
theories/Tmp_Proofs.v
theories/P_Tmp.v
theories/Stream_Model.v
theories/P_Stream.v
theories/Files_Model.v
theories/Files_Proofs.v
theories/P_Files.v
theories/Mfile_Model.v
theories/P_Mfile.v
theories/Dsess_Model.v
theories/P_Dsess.v
theories/Csess_Model.v
theories/P_Csess.v
