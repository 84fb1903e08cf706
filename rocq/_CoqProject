-Q theories Verif

theories/Base.v
theories/Base64Model.v
theories/Base64Spec.v
theories/Base64Proofs.v
theories/Base64Decode.v
theories/Base64Round.v
theories/Base64Any.v
theories/Base64Props.v
theories/FloatModel.v
theories/FloatSpec.v
theories/FloatProofs.v
theories/FloatFlocq.v
theories/FloatProps.v
theories/IntegerModel.v
theories/IntegerProofs.v
theories/IntegerProps.v
theories/DateModel.v
theories/DateSpec.v
theories/DateCycle.v
theories/DateProofs.v
theories/DateProps.v
theories/IntsetModel.v
theories/IntsetSpec.v
theories/IntsetProofs.v
theories/IntsetEdge.v
theories/IntsetProps.v
theories/CMem.v
theories/ByteArrayModel.v
theories/ByteArraySpec.v
theories/ByteArrayProofs.v
theories/ByteArrayProps.v
theories/PriorqModel.v
theories/PriorqSpec.v
theories/PriorqProofs.v
theories/PriorqProps.v
theories/PriorqCostModel.v
theories/PriorqCost.v
theories/PriorqCostProps.v
theories/CharstrTables.v
theories/CharstrModel.v
theories/CharstrSpec.v
theories/CharstrProofs.v
theories/CharstrProps.v
theories/Utf8Model.v
theories/UrlModel.v
theories/Utf8Spec.v
theories/Utf8Proofs.v
theories/Utf8Props.v
theories/UrlSpec.v
theories/UrlProofs.v
theories/UrlProps.v
theories/Heap.v
theories/ListModel.v
theories/ListSpec.v
theories/ListProofs.v
theories/ListProps.v
theories/HashModel.v
theories/HashSpec.v
theories/HashProofs.v
theories/HashProps.v
theories/Sep.v
theories/AvlModel.v
theories/AvlSpec.v
theories/AvlProofs.v
theories/AvlDetach.v
theories/AvlReads.v
theories/AvlHist.v
theories/AvlProps.v
theories/UcdData.v
theories/NormModel.v
theories/NormSpec.v
theories/Ptree.v
theories/NormTables.v
theories/NormFacts.v
theories/NormOrder.v
theories/NormBytes.v
theories/Utf8KeepSpec.v
theories/Utf8Keep.v
theories/Utf8KeepProps.v
theories/NormDecompose.v
theories/NormRecompose.v
theories/NormMain.v
theories/NormProps.v
theories/CategoryModel.v
theories/CategorySpec.v
theories/CategoryData.v
theories/CategoryProofs.v
theories/CategoryProps.v
theories/CaseModel.v
theories/CaseData.v
theories/CaseProofs.v
theories/CaseProps.v
theories/IdnaTabModel.v
theories/IdnaTabSpec.v
theories/IdnaData.v
theories/IdnaTabProofs.v
theories/IdnaModel.v
theories/IdnaProofs.v
theories/IdnaProps.v
theories/NormSyllable.v
theories/NormExact.v
theories/PunyModel.v
theories/PunySpec.v
theories/PunyProofs.v
theories/PunyPass.v
theories/PunyHost.v
theories/PunyName.v
theories/PunyNfc.v
theories/PunyTop.v
theories/PunyLe.v
theories/PunyUnique.v
theories/IdnaEncodeModel.v
theories/IdnaEncodeSpec.v
theories/IdnaEncodeProofs.v
theories/IdnaEncodeProps.v
theories/IdnaEncodeMore.v
theories/IdnaEncodeFate.v
theories/IdnaEncodeMoreProps.v
theories/IdnaCase.v
theories/IdnaCaseProps.v
theories/NormDetect.v
theories/NormDetectProps.v
theories/NormEquivSpec.v
theories/NormEquiv.v
theories/NormEquivProps.v
theories/CompatData.v
theories/NormCompatSpec.v
theories/NormCompat.v
theories/NormCompatProps.v
theories/IdnaTextModel.v
theories/IdnaTextSpec.v
theories/IdnaTextProofs.v
theories/UrlListSpec.v
theories/UrlList.v
theories/UrlListProps.v
theories/IdnaOther.v
theories/IdnaTextProps.v
theories/PyModel.v
theories/UcdTextModel.v
theories/UcdTextSpec.v
theories/PyProofs.v
theories/UcdTextProofs.v
theories/UcdTextProps.v
theories/AvlAnySpec.v
theories/AvlAny.v
theories/AvlAnyProps.v
theories/HashAnySpec.v
theories/HashAny.v
theories/HashAnyProps.v
theories/PriorqAnySpec.v
theories/PriorqAny.v
theories/PriorqAnyProps.v
theories/ByteMemModel.v
theories/ByteMemSpec.v
theories/ByteMem.v
theories/ByteMemHist.v
theories/ByteMemEnd.v
theories/ByteMemProps.v
theories/FsallocModel.v
theories/FsallocSpec.v
theories/FsallocProofs.v
theories/FsallocProps.v
theories/OwnModel.v
theories/OwnSpec.v
theories/OwnProofs.v
theories/OwnProps.v
theories/ObjModel.v
theories/ByteHeapModel.v
theories/ObjBase.v
theories/ByteHeap.v
theories/ObjSpec.v
theories/ObjProofs.v
theories/ObjMeans.v
theories/ObjProps.v
theories/DateEdge.v
theories/DateEdgeProps.v
theories/DateOrderSpec.v
theories/DateOrder.v
theories/DateOrderProps.v
theories/ListIterSpec.v
theories/ListIter.v
theories/ListIterProps.v
theories/HashIterSpec.v
theories/HashIter.v
theories/HashIterProps.v
theories/AvlIterSpec.v
theories/AvlIter.v
theories/AvlIterProps.v
theories/AvlDepth.v
theories/AvlDepthProps.v
theories/HashCostModel.v
theories/HashCost.v
theories/HashCostProps.v
theories/NormFitSpec.v
theories/NormFit.v
theories/NormFitProps.v
theories/IdnaExactSpec.v
theories/IdnaExact.v
theories/IdnaExactProps.v
theories/NormQuickSpec.v
theories/NormQuick.v
theories/NormQuickProps.v
theories/MixSpec.v
theories/MixStrings.v
theories/MixProofs.v
theories/MixCalls.v
theories/MixProps.v
theories/ByteMakeProps.v
theories/PriorqGrowSpec.v
theories/PriorqGrow.v
theories/PriorqGrowProps.v
theories/AvlWalkModel.v
theories/AvlWalk.v
theories/AvlWalkProps.v
theories/HashWalkModel.v
theories/HashWalk.v
theories/HashWalkProps.v
theories/UrlHeapModel.v
theories/UrlHeapSpec.v
theories/UrlHeap.v
theories/UrlHeapProps.v
theories/NewMemModel.v
theories/NewMem.v
theories/NewMemProps.v
theories/GenMemModel.v
theories/GenMemSpec.v
theories/GenMem.v
theories/GenMemFile.v
theories/GenMemProps.v
theories/StackModel.v
theories/Stack.v
theories/StackProps.v
theories/Base64TabProps.v
theories/NormCostModel.v
theories/NormCost.v
theories/NormCostProps.v
theories/RecompCostModel.v
theories/RecompCost.v
theories/RecompCostProps.v
theories/CppPtrModel.v
theories/CppPtrSpec.v
theories/CppPtr.v
theories/CppPtrProps.v
theories/ThreadModel.v
theories/ThreadSpec.v
theories/Thread.v
theories/ThreadApi.v
theories/ThreadWork.v
theories/ThreadProps.v
theories/ChangeProps.v
theories/Primes.v
theories/HashSpread.v
theories/HashSpreadProps.v
theories/CharSignModel.v
theories/CharSign.v
theories/CharSignProps.v
theories/IdnaCheck.v
theories/PiecesSpec.v
theories/Pieces.v
theories/PiecesProps.v
theories/WidthModel.v
theories/WidthSpec.v
theories/WidthInt.v
theories/Width.v
theories/WidthMore.v
theories/Width64.v
theories/WidthProps.v
theories/StreamCbModel.v
theories/StreamCbSpec.v
theories/StreamCb.v
theories/StreamCbProps.v
theories/ErrnoModel.v
theories/Errno.v
theories/ErrnoProps.v
theories/TestAvlModel.v
theories/TestMoreModel.v
theories/TestSpec.v
theories/TestAvl.v
theories/TestAvlMain.v
theories/TestMore.v
theories/TestPerfModel.v
theories/TestPerfSpec.v
theories/TestPerf.v
theories/TestProps.v
theories/TestIdnaModel.v
theories/TestIdnaSpec.v
theories/TestIdna.v
theories/TestIdnaProps.v
theories/TestNormModel.v
theories/TestNormSpec.v
theories/TestNorm.v
theories/TestNormProps.v
theories/TestDateModel.v
theories/TestDateSpec.v
theories/TestDate.v
theories/TestDateProps.v
theories/RefThreadSpec.v
theories/RefThread.v
theories/RefThreadProps.v
theories/ConstSpec.v
theories/Const.v
theories/ConstProps.v
theories/KeyModel.v
theories/KeySpec.v
theories/KeyProofs.v
theories/KeyStrings.v
theories/KeyProps.v
theories/TreeKeyModel.v
theories/TreeKeySpec.v
theories/TreeKeyProofs.v
theories/TreeKeyStrings.v
theories/TreeKeyProps.v
theories/QueueKeyModel.v
theories/QueueKeySpec.v
theories/QueueKeyProofs.v
theories/QueueKeyProps.v
theories/IdnaParent.v
theories/IdnaParentProps.v
