-Q theories Verif

theories/Base.v
theories/BaseProofs.v
theories/ParamsModel.v
theories/ParamsSpec.v
theories/ParamsProofs.v
theories/PropParams.v
theories/MgrModel.v
theories/MgrSpec.v
theories/MgrProofs.v
theories/PropMgr.v
theories/RBase.v
theories/ListExtra.v
theories/BitProofs.v
theories/RectModel.v
theories/RectSpec.v
theories/RectProofs.v
theories/RectProofs2.v
theories/RectProofs3.v
theories/RectProofs4.v
theories/RectProofs5.v
theories/RectProofs6.v
theories/PropRect.v
theories/DiskBase.v
theories/FpsModel.v
theories/FpaModel.v
theories/VdModel.v
theories/DiskSpec.v
theories/DiskProofs.v
theories/FpsProofs.v
theories/FpsProofs2.v
theories/FpsProofs3.v
theories/FpsProofs4.v
theories/FpsProofs5.v
theories/FpaProofs.v
theories/VdProofs.v
theories/VdProofs2.v
theories/VdProofs3.v
theories/VdProofs4.v
theories/VdProofs5.v
theories/PropFps.v
theories/PropFpa.v
theories/PropVd.v
theories/CaloModel.v
theories/CaloSpec.v
theories/CaloProofs.v
theories/PropCalo.v
theories/Trig.v
theories/VecModel.v
theories/VecProofs.v
theories/PropVec.v
theories/SurfModel.v
theories/SurfSpec.v
theories/SurfProofs.v
theories/PropSurf.v
theories/TpcModuleModel.v
theories/TpcModel.v
theories/TpcSpec.v
theories/TpcModuleProofs.v
theories/TpcModuleProofs2.v
theories/TpcModuleProofs3.v
theories/TpcModuleProofs4.v
theories/TpcAngle.v
theories/TpcModuleProofs5.v
theories/TpcModuleProofs6.v
theories/TpcProofs.v
theories/TpcProofs2.v
theories/PropTpcModule.v
theories/PropTpc.v
theories/FtdModel.v
theories/FtdSpec.v
theories/FtdProofs.v
theories/PropFtd.v
theories/ZpModel.v
theories/ZpSpec.v
theories/ZpProofs.v
theories/ZpProofs2.v
theories/ZpProofs3.v
theories/ZpProofs4.v
theories/ZpProofs5.v
theories/ZpProofs6.v
theories/PropZp.v
theories/MatModel.v
theories/MatSpec.v
theories/MatProofs.v
theories/PropMat.v
theories/TgeoModel.v
theories/TgeoSpec.v
theories/TgeoProofs.v
theories/PropTgeo.v
theories/PointModel.v
theories/PointSpec.v
theories/PointProofs.v
theories/PropPoint.v
theories/CgaModel.v
theories/HandlerModel.v
theories/HandlerSpec.v
theories/HandlerProofs.v
theories/PropHandler.v
theories/XmlModel.v
theories/XmlSpec.v
theories/XmlProofs.v
theories/XmlProofs2.v
theories/XmlProofs3.v
theories/PropXml.v
theories/NumModel.v
theories/NumSpec.v
theories/NumProofs.v
theories/HxModel.v
theories/HxProofs.v
theories/ParXmlModel.v
theories/ParXmlSpec.v
theories/ParXmlProofs.v
theories/PropNum.v
theories/PropParXml.v
theories/HxSpec.v
theories/CaloXmlModel.v
theories/CaloXmlSpec.v
theories/CaloXmlProofs.v
theories/PropCaloXml.v
theories/PiBounds.v
theories/NumProofs2.v
theories/PadXmlModel.v
theories/PadXmlSpec.v
theories/PadXmlProofs.v
theories/PadXmlProofs2.v
theories/PropPadXml.v
theories/MergeModel.v
theories/MergeSpec.v
theories/MergeProofs.v
theories/MergeProofs2.v
theories/PropMerge.v
theories/TrkModel.v
theories/TrkSpec.v
theories/TrkProofs.v
theories/PropTrk.v
theories/TrkXmlModel.v
theories/TrkXmlSpec.v
theories/TrkXmlProofs.v
theories/TrkXmlProofs2.v
theories/TrkXmlProofs3.v
theories/TrkXmlProofs4.v
theories/PropTrkXml.v
theories/TpcXmlModel.v
theories/TpcXmlSpec.v
theories/TpcXmlProofs.v
theories/TpcXmlProofs2.v
theories/TpcXmlProofs3.v
theories/TpcXmlProofs4.v
theories/PropTpcXml.v
theories/GearXmlModel.v
theories/GearXmlSpec.v
theories/GearXmlProofs.v
theories/GearXmlProofs2.v
theories/GearXmlProofs3.v
theories/GearXmlProofs4.v
theories/GearXmlProofs5.v
theories/GearXmlProofs6.v
theories/PropGearXml.v
theories/FpModel.v
theories/FpSpec.v
theories/FpProofs.v
theories/FpMapModel.v
theories/FpMapSpec.v
theories/FpMapProofs.v
theories/FpMapCases.v
theories/PropFp.v
theories/UtilModel.v
theories/UtilSpec.v
theories/UtilTextProofs.v
theories/UtilProofs.v
theories/UtilProofs2.v
theories/UtilProofs3.v
theories/UtilProofs4.v
theories/UtilProofs5.v
theories/PropUtil.v
theories/FpRectModel.v
theories/FpRectSpec.v
theories/FpRectProofs.v
theories/FpRectProofs2.v
theories/FpRectProofs3.v
theories/FpRectProofs4.v
theories/FpRectProofs5.v
theories/FpRectProofs6.v
theories/FpRectProofs7.v
theories/FpRectCases.v
theories/PropFpRect.v
theories/CopySpec.v
theories/CopyProofs.v
theories/CopyProofs2.v
theories/CopyProofs3.v
theories/CopyProofs4.v
theories/PropCopy.v
theories/TpcPadProofs.v
theories/PropTpcPad.v
theories/FpReadProofs.v
theories/FpDefined.v
theories/ToolModel.v
theories/ToolSpec.v
theories/ToolProofs.v
theories/PropTool.v
theories/TpcPadSpec.v
theories/TpcPadProofs2.v
theories/PropTpcPad2.v
theories/RectOldModel.v
theories/RectOldSpec.v
theories/RectOldProofs.v
theories/RectOldProofs2.v
theories/PropRectOld.v
theories/PosModel.v
theories/PosSpec.v
theories/PosProofs.v
theories/PosProofs2.v
theories/PosProofs3.v
theories/PosProofs4.v
theories/PosProofs5.v
theories/PosProofs6.v
theories/PosProofs7.v
theories/PropPos.v
theories/MemModel.v
theories/MemSpec.v
theories/MemProofs.v
theories/MemProofs2.v
theories/MemProofs3.v
theories/PropMem.v
theories/FpCaloModel.v
theories/FpCaloSpec.v
theories/FpCaloProofs.v
theories/PropFpCalo.v
theories/DomModel.v
theories/DomSpec.v
theories/DomProofs.v
theories/DomProofs2.v
theories/DomProofs3.v
theories/DomProofs4.v
theories/DomProofs5.v
theories/PropDom.v
theories/AttrModel.v
theories/AttrSpec.v
theories/AttrProofs.v
theories/AttrProofs2.v
theories/AttrProofs3.v
theories/PropAttr.v
theories/StreamModel.v
theories/StreamSpec.v
theories/StreamProofs.v
theories/StreamProofs2.v
theories/StreamProofs3.v
theories/StreamProofs4.v
theories/StreamProofs5.v
theories/PropStream.v
theories/RefModel.v
theories/RefSpec.v
theories/RefProofs.v
theories/RefProofs2.v
theories/PropRef.v
theories/FpZpModel.v
theories/FpZpSpec.v
theories/FpZpProofs.v
theories/FpZpProofs2.v
theories/PropFpZp.v
theories/HandleModel.v
theories/HandleSpec.v
theories/HandleProofs.v
theories/PropHandle.v
theories/FpFpaModel.v
theories/FpFpaSpec.v
theories/FpFpaProofs.v
theories/PropFpFpa.v
theories/FpFpsModel.v
theories/FpFpsSpec.v
theories/FpFpsProofs.v
theories/PropFpFps.v
theories/FpVdModel.v
theories/FpVdSpec.v
theories/FpVdProofs.v
theories/PropFpVd.v
theories/FpDiskSpec.v
theories/FpDiskProofs.v
theories/PropFpDisk.v
theories/IntPadModel.v
theories/IntPadSpec.v
theories/IntPadProofs.v
theories/PropIntPad.v
theories/FpInsideModel.v
theories/FpInsideSpec.v
theories/FpInsideProofs.v
theories/PropFpInside.v
theories/FpInside2Model.v
theories/FpInside2Spec.v
theories/FpInside2Proofs.v
theories/PropFpInside2.v
theories/FpInside3Model.v
theories/FpInside3Spec.v
theories/FpInside3Proofs.v
theories/PropFpInside3.v
