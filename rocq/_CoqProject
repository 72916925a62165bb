-Q theories Verif
theories/Base.v
theories/BaseFacts.v
theories/Codec.v
theories/CodecFacts.v
theories/LRUModel.v
theories/LRUProofs.v
theories/LRUSpec.v
theories/LRUHistory.v
theories/PropsCache.v
theories/CfbModel.v
theories/ChainSpec.v
theories/ChainProofs.v
theories/PropsChain.v
theories/TableInv.v
theories/DifatInv.v
theories/CfbInv.v
theories/CfbBytes.v
theories/CfbStream.v
theories/StreamSpec.v
theories/StreamRun.v
theories/StreamInit.v
theories/PropsStream.v
theories/Text.v
theories/TextFacts.v
theories/IdsModel.v
theories/IdsFacts.v
theories/PropsIds.v
theories/TypesModel.v
theories/TypesFacts.v
theories/TypesRound.v
theories/PropsTypes.v
theories/TimelineModel.v
theories/TimelineFacts.v
theories/PropsTimeline.v
theories/MediaModel.v
theories/MediaFacts.v
theories/PropsMedia.v
theories/ObjModel.v
theories/PropsObj.v
theories/VecModel.v
theories/VecFacts.v
theories/PropsVec.v
theories/SetModel.v
theories/SetFacts.v
theories/PropsSet.v
theories/DirEntryModel.v
theories/PropsDirEntry.v
theories/CfbExtra.v
theories/CfbSave.v
theories/SaveFacts.v
theories/PropsSave.v
theories/SaveInv.v
theories/CloseFacts.v
theories/Session.v
theories/SessionFacts.v
theories/SessionStep.v
theories/SessionInit.v
theories/PropsSession.v
theories/DirCacheModel.v
theories/DirCacheFacts.v
theories/PropsDirCache.v
theories/RBModel.v
theories/RBTree.v
theories/RBOrder.v
theories/RBInsert.v
theories/RBPop.v
theories/RBSpec.v
theories/RBLink.v
theories/PropsRB.v
theories/RBAny.v
theories/NsModel.v
theories/NsSpec.v
theories/NsPath.v
theories/NsInv.v
theories/NsFind.v
theories/NsChange.v
theories/NsSteps.v
theories/NsTree.v
theories/NsMove.v
theories/NsRun.v
theories/NsLegal.v
theories/PropsNs.v
theories/PropsEmpty.v
theories/PropsTight.v
theories/MetaModel.v
theories/MetaTables.v
theories/MetaFacts.v
theories/PropsMeta.v
theories/PropsBuiltin.v
theories/MetaCopyFacts.v
theories/PropsMetaCopy.v
theories/PropsMetaMore.v
theories/TreeModel.v
theories/PropsTree.v
theories/PropsPaths.v
theories/PropsTreeMore.v
theories/PropsTreeCopy.v
theories/EditModel.v
theories/EditFacts.v
theories/PropsEdit.v
theories/PropsEditMore.v
theories/ManagerModel.v
theories/PropsManager.v
theories/OpenMetaModel.v
theories/OpenMetaFacts.v
theories/PropsOpenMeta.v
theories/PropsOpenRun.v
theories/PropsOpenCases.v
theories/PropsOpenKept.v
theories/PropsOpenReg.v
theories/WeakModel.v
theories/PropsWeak.v
theories/DictModel.v
theories/PropsDict.v
theories/WalkModel.v
theories/PropsWalk.v
theories/TagModel.v
theories/PropsTag.v
theories/PropsOpenExt.v
theories/MxfModel.v
theories/PropsMxf.v
