-Q theories Verif
theories/Base.v
theories/DataArray.v
theories/ArrLib.v
theories/SlicesModel.v
theories/SlicesSpec.v
theories/SlicesProofs.v
theories/PropSlices.v
theories/RenumModel.v
theories/RenumSpec.v
theories/RenumProofs.v
theories/RenumProofs2.v
theories/PropRenum.v
theories/StdModel.v
theories/SearchSpec.v
theories/StdProofs.v
theories/SearchModel.v
theories/SearchProofs.v
theories/SetsModel.v
theories/SearchProofs2.v
theories/PropSearch.v
theories/SetsSpec.v
theories/SetsProofs.v
theories/PermProofs.v
theories/PropSets.v
theories/IndexSpec.v
theories/IndexModel.v
theories/FillLib.v
theories/IndexProofs.v
theories/IndexProofs2.v
theories/IndexProofs3.v
theories/IndexProofs4.v
theories/IndexProofs5.v
theories/IndexProofs6.v
theories/IndexProofs7.v
theories/PropIndex.v
theories/PartSpec.v
theories/PartModel.v
theories/PartProofs.v
theories/PartProofs2.v
theories/PartProofs3.v
theories/PartProofs4.v
theories/PartProofs5.v
theories/PartProofs6.v
theories/PartProofs7.v
theories/PartProofs8.v
theories/PropPart.v
theories/LayoutSpec.v
theories/LayoutModel.v
theories/LayoutProofs.v
theories/LayoutProofs2.v
theories/LayoutProofs3.v
theories/LayoutProofs4.v
theories/PropLayout.v
theories/BufModel.v
theories/BufSpec.v
theories/BufProofs.v
theories/BufProofs2.v
theories/BufProofs3.v
theories/PropBuf.v
theories/TimeModel.v
theories/TimeSpec.v
theories/TimeProofs.v
theories/PropTime.v
theories/RefModel.v
theories/RefSpec.v
theories/RefProofs.v
theories/RefProofs2.v
theories/RefProofs3.v
theories/RefProofs4.v
theories/RefProofs5.v
theories/PropRef.v
theories/SkyModel.v
theories/SkySpec.v
theories/SkyProofs.v
theories/SkyProofs2.v
theories/SkyProofs3.v
theories/SkyProofs4.v
theories/SkyProofs5.v
theories/SkyProofs6.v
theories/SkyProofs7.v
theories/SkyProofs8.v
theories/PropSky.v
theories/PartDefModel.v
theories/PartDefSpec.v
theories/PartDefProofs.v
theories/PropPartDef.v
theories/StrModel.v
theories/StrSpec.v
theories/StrProofs.v
theories/StrProofs2.v
theories/StrProofs3.v
theories/StrProofs4.v
theories/StrProofs5.v
theories/StrProofs6.v
theories/StrProofs7.v
theories/StrProofs8.v
theories/PropStr.v
theories/ConnModel.v
theories/ConnSpec.v
theories/ConnProofs.v
theories/ConnProofs2.v
theories/ConnProofs3.v
theories/ConnProofs4.v
theories/ConnProofs5.v
theories/PropConn.v
theories/AmrModel.v
theories/AmrSpec.v
theories/AmrProofs.v
theories/AmrProofs2.v
theories/AmrProofs3.v
theories/AmrProofs4.v
theories/AmrProofs5.v
theories/AmrProofs6.v
theories/AmrProofs7.v
theories/AmrProofs8.v
theories/AmrProofs9.v
theories/PropAmr.v
theories/BlkModel.v
theories/BlkSpec.v
theories/BlkProofs.v
theories/BlkProofs2.v
theories/BlkProofs3.v
theories/PropBlk.v
theories/SerModel.v
theories/SerSpec.v
theories/SerProofs.v
theories/SerProofs2.v
theories/PropSer.v
theories/SetModel.v
theories/SetSpec.v
theories/SetProofs.v
theories/SetProofs2.v
theories/SetProofs3.v
theories/PropSet.v
theories/ArithModel.v
theories/ArithSpec.v
theories/ArithProofs.v
theories/ArithProofs2.v
theories/ArithProofs3.v
theories/PropArith.v
theories/RemapModel.v
theories/RemapSpec.v
theories/RemapProofs.v
theories/RemapProofs2.v
theories/RemapProofs3.v
theories/RemapProofs4.v
theories/RemapProofs5.v
theories/RemapProofs6.v
theories/PropRemap.v
theories/TreeModel.v
theories/TreeModel2.v
theories/TreeSpec.v
theories/TreeProofs.v
theories/TreeProofs2.v
theories/TreeProofs3.v
theories/TreeProofs4.v
theories/TreeProofs5.v
theories/TreeProofs6.v
theories/TreeProofs7.v
theories/TreeProofs8.v
theories/TreeProofs9.v
theories/TreeProofs10.v
theories/TreeProofs11.v
theories/TreeProofs12.v
theories/PropTree.v
theories/CellTable.v
theories/CellModel.v
theories/CellSpec.v
theories/CellProofs.v
theories/CellProofs2.v
theories/CellProofs3.v
theories/CellProofs4.v
theories/CellProofs5.v
theories/PropCell.v
theories/UmModel.v
theories/UmSpec.v
theories/UmProofs.v
theories/UmProofs2.v
theories/UmProofs3.v
theories/UmProofs4.v
theories/UmProofs5.v
theories/UmProofs6.v
theories/UmProofs7.v
theories/PropUmBuild.v
theories/PropUmNode.v
theories/UmProofs8.v
theories/UmProofs9.v
theories/UmProofs10.v
theories/PropUmCell.v
theories/UcModel.v
theories/UcSpec.v
theories/UcProofs.v
theories/UcProofs2.v
theories/UcProofs3.v
theories/UcProofs4.v
theories/UcProofs5.v
theories/UcProofs6.v
theories/PropUc.v
theories/DsModel.v
theories/DsSpec.v
theories/DsProofs.v
theories/DsProofs2.v
theories/DsProofs3.v
theories/DsProofs4.v
theories/DsProofs5.v
theories/DsProofs6.v
theories/DsProofs7.v
theories/PropDs.v
theories/TyModel.v
theories/TySpec.v
theories/TyProofs.v
theories/TyProofs2.v
theories/TyProofs3.v
theories/TyProofs4.v
theories/TyProofs5.v
theories/TyProofs6.v
theories/TyProofs7.v
theories/TyProofs8.v
theories/TyProofs9.v
theories/TyProofs10.v
theories/TyExamples.v
theories/PropTy.v
theories/ZnModel.v
theories/ZnSpec.v
theories/ZnProofs.v
theories/ZnProofs2.v
theories/ZnProofs3.v
theories/ZnProofs4.v
theories/ZnProofs5.v
theories/ZnExamples.v
theories/PropZn.v
theories/MgModel.v
theories/MgSpec.v
theories/MgProofs.v
theories/MgProofs2.v
theories/MgProofs3.v
theories/MgProofs4.v
theories/MgExamples.v
theories/PropMg.v
theories/GlModel.v
theories/GlSpec.v
theories/GlProofs.v
theories/GlProofs2.v
theories/GlExamples.v
theories/PropGl.v
theories/FdModel.v
theories/FdSpec.v
theories/FdProofs.v
theories/FdProofs2.v
theories/FdProofs3.v
theories/FdProofs4.v
theories/FdProofs5.v
theories/FdProofs6.v
theories/FdProofs7.v
theories/FdExamples.v
theories/PropFd.v
theories/FgModel.v
theories/FgSpec.v
theories/FgProofs.v
theories/FgProofs2.v
theories/FgProofs3.v
theories/FgProofs4.v
theories/FgProofs5.v
theories/FgProofs6.v
theories/FgProofs7.v
theories/FgProofs8.v
theories/FgExamples.v
theories/PropFg.v
theories/FgModel2.v
theories/FgSpec2.v
theories/FgProofs9.v
theories/FgProofs10.v
theories/FgProofs11.v
theories/FgExamples2.v
theories/PropFg2.v
theories/OverModel.v
theories/OverSpec.v
theories/OverProofs.v
theories/OverProofs2.v
theories/OverProofs3.v
theories/OverExamples.v
theories/PropOver.v
theories/DecModel.v
theories/DecProofs.v
theories/DecProofs2.v
theories/DecExamples.v
theories/PropDec.v
theories/ParModel.v
theories/ParProofs.v
theories/ParProofs2.v
theories/ParProofs3.v
theories/ParProofs4.v
theories/ParSpec.v
theories/ParProofs5.v
theories/ParExamples.v
theories/PropPar.v
theories/ExModel.v
theories/ExSpec.v
theories/ExProofs.v
theories/ExProofs2.v
theories/ExProofs3.v
theories/ExProofs4.v
theories/ExProofs5.v
theories/ExProofs6.v
theories/ExExamples.v
theories/PropEx.v
theories/GtModel.v
theories/GtSpec.v
theories/GtProofs.v
theories/GtProofs2.v
theories/GtProofs3.v
theories/GtProofs4.v
theories/GtExamples.v
theories/GtProofs13.v
theories/PropGt.v
theories/GtProofs5.v
theories/GtProofs6.v
theories/GtProofs7.v
theories/PropGt2.v
theories/GtSpec2.v
theories/GtProofs8.v
theories/GtProofs9.v
theories/GtProofs10.v
theories/GtProofs11.v
theories/GtProofs12.v
theories/GtExamples2.v
theories/PropGt3.v
theories/DtModel.v
theories/DtSpec.v
theories/DtProofs.v
theories/DtProofs2.v
theories/DtProofs3.v
theories/DtProofs4.v
theories/DtProofs5.v
theories/DtExamples.v
theories/PropDt.v
theories/MfModel.v
theories/MfSpec.v
theories/MfProofs.v
theories/MfProofs2.v
theories/MfProofs3.v
theories/MfProofs4.v
theories/MfProofs5.v
theories/MfProofs6.v
theories/MfProofs7.v
theories/MfExamples.v
theories/PropMf.v
theories/OcModel.v
theories/OcSpec.v
theories/OcProofs.v
theories/OcProofs2.v
theories/OcExamples.v
theories/PropOc.v
theories/IvModel.v
theories/IvSpec.v
theories/IvProofs.v
theories/IvProofs2.v
theories/IvProofs3.v
theories/IvProofs4.v
theories/IvProofs5.v
theories/IvProofs6.v
theories/IvExamples.v
theories/PropIv.v
theories/DmModel.v
theories/DmSpec.v
theories/DmProofs.v
theories/DmProofs2.v
theories/DmExamples.v
theories/PropDm.v
theories/DgModel.v
theories/DgSpec.v
theories/DgProofs.v
theories/DgProofs2.v
theories/DgProofs3.v
theories/DgProofs4.v
theories/DgProofs5.v
theories/DgProofs6.v
theories/DgProofs7.v
theories/DgExamples.v
theories/PropDg.v
theories/SxModel.v
theories/SxSpec.v
theories/SxProofs.v
theories/SxProofs2.v
theories/SxProofs3.v
theories/SxProofs4.v
theories/SxExamples.v
theories/PropSx.v
theories/OiModel.v
theories/OiSpec.v
theories/OiProofs.v
theories/OiProofs2.v
theories/OiExamples.v
theories/PropOi.v
theories/GxModel.v
theories/GxSpec.v
theories/GxProofs.v
theories/GxProofs2.v
theories/GxExamples.v
theories/PropGx.v
theories/RpModel.v
theories/RpSpec.v
theories/RpProofs.v
theories/RpProofs2.v
theories/RpExamples.v
theories/PropRp.v
