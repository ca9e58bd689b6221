-Q theories Verif
theories/Base.v
theories/BaseLemmas.v
theories/DiskModel.v
theories/DirLemmas.v
theories/AtariModel.v
theories/AtariSpec.v
theories/AtariGeom.v
theories/AtariDir.v
theories/AtariVtoc.v
theories/AtariChain.v
theories/AtariSectors.v
theories/AtariWrite.v
theories/AtariDelete.v
theories/AtariShred.v
theories/AtariOps.v
theories/AtariSession.v
theories/AtariBlank.v
theories/AtariMore.v
theories/AtariHeader.v
theories/AtariProps.v
theories/AtariDemo.v
theories/Properties_Atari.v
theories/Dos33Model.v
theories/Dos33Spec.v
theories/Dos33Geom.v
theories/Dos33Vtoc.v
theories/Dos33Dir.v
theories/Dos33Files.v
theories/Dos33Update.v
theories/Dos33Sectors.v
theories/Dos33Alloc.v
theories/Dos33Write.v
theories/Dos33Delete.v
theories/Dos33Shred.v
theories/Dos33Ops.v
theories/Dos33Session.v
theories/Loops.v
theories/Dos33Loops.v
theories/Dos33Demo.v
theories/Dos33Props.v
theories/Properties_Dos33.v
theories/AtariExtra.v
theories/Properties_Atari2.v
theories/ExecModel.v
theories/ExecSpec.v
theories/ExecProofs.v
theories/ExecProofs2.v
theories/Properties_Exec.v
theories/SegModel.v
theories/SegSpec.v
theories/SegProofs.v
theories/SegProofs2.v
theories/SegProofs3.v
theories/SegProofs4.v
theories/SegProofs5.v
theories/SegProofs6.v
theories/Properties_Seg.v
theories/CliModel.v
theories/CliProofs.v
theories/CliInst.v
theories/Properties_Cli.v
theories/CartModel.v
theories/CartProofs.v
theories/Properties_Cart.v
theories/SpartaModel.v
theories/SpartaSpec.v
theories/SpartaProofs.v
theories/SpartaProofs2.v
theories/SpartaLoops.v
theories/Properties_Sparta.v
theories/SdModel.v
theories/SdSpec.v
theories/SdProofs.v
theories/SdProofs2.v
theories/Properties_Sd.v
theories/DetectModel.v
theories/DetectSpec.v
theories/DetectProofs.v
theories/DetectErrors.v
theories/DetectErrors2.v
theories/DetectErrors3.v
theories/Properties_Detect.v
theories/DetectStay.v
theories/Properties_Detect2.v
theories/DetectDsk.v
theories/Properties_Detect3.v
theories/Properties_Detect4.v
theories/SegModel2.v
theories/Properties_Seg2.v
theories/ObjModel.v
theories/MainModel.v
theories/MainProofs.v
theories/DetectExec.v
theories/MainInst.v
theories/MainProofs2.v
theories/Properties_Main.v
theories/Properties_Main2.v
theories/Properties_Main3.v
theories/Properties_Seg3.v
theories/TemplAtari.v
theories/TemplData.v
theories/TemplDetect.v
theories/Templ33.v
theories/TemplData33.v
theories/Properties_Templ.v
theories/Properties_Main4.v
theories/CpuModel.v
theories/AppleSpec.v
theories/AppleBoot.v
theories/Properties_Boot.v
theories/Properties_Boot2.v
theories/KbSpec.v
theories/KbBoot.v
theories/Properties_Kb.v
theories/Properties_Kb2.v
theories/MainCopy.v
theories/Properties_Copy.v
theories/EditModel.v
theories/EditSpec.v
theories/EditProofs.v
theories/EditAtari.v
theories/Edit33.v
theories/Properties_Edit.v
theories/TextModel.v
theories/TextSpec.v
theories/TextProofs.v
theories/TextOpen.v
theories/Properties_Text.v
theories/ArgModel.v
theories/ArgSpec.v
theories/ArgProofs.v
theories/Properties_Arg.v
theories/SegListModel.v
theories/SegListSpec.v
theories/SegListProofs.v
theories/SegListAtari.v
theories/SegList33.v
theories/SegListOther.v
theories/SegListSparta.v
theories/Properties_SegList.v
theories/Properties_Main5.v
theories/Properties_Text2.v
theories/SegSaveModel.v
theories/SegSaveProofs.v
theories/Properties_SegSave.v
theories/SegListExec.v
theories/Properties_SegList2.v
theories/SegListTotal.v
theories/ObjBytes.v
theories/ObjProofs.v
theories/Properties_Obj.v
theories/Properties_Obj2.v
theories/SegAddrModel.v
theories/SegAddrProofs.v
theories/Properties_SegAddr.v
theories/MetaModel.v
theories/Properties_Meta.v
theories/LoaderModel.v
theories/Properties_Loader.v
theories/DetectErrors4.v
theories/DetectErrors5.v
theories/Properties_Detect5.v
theories/DetectErrors6.v
theories/Properties_Detect6.v
theories/PackedProofs.v
theories/Properties_Packed.v
theories/SpartaWhole.v
theories/Properties_Sparta2.v
theories/VerboseModel.v
theories/Properties_Verbose.v
theories/Properties_Again.v
theories/Properties_SpartaBoot.v
theories/AtariWrap.v
theories/Properties_Wrap.v
theories/Properties_Table.v
theories/Properties_SpartaMap.v
theories/AtariBalance.v
theories/Properties_Balance.v
theories/Properties_Balance3.v
theories/Properties_Balance4.v
theories/Properties_Entry3.v
theories/Properties_MyDos.v
