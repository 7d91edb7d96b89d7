-Q theories Verif
theories/Base.v
theories/PyLongModel.v
theories/PyLongProofs.v
theories/MemModel.v
theories/MemSpec.v
theories/MemProofs.v
theories/SimdCopyModel.v
theories/SimdCopyProofs.v
theories/QReverseModel.v
theories/QReverseProofs.v
theories/PyListSpec.v
theories/PyHeapSpec.v
theories/ListLemmas.v
theories/ArrayListModel.v
theories/ArrayListSpec.v
theories/ArrayListProofs.v
theories/ArrayListFacts.v
theories/ArrayWorldModel.v
theories/ArrayWorldProofs.v
theories/ArrayListMoreModel.v
theories/ArrayListCmpProofs.v
theories/ArrayListMoreProofs.v
theories/ArrayListMulProofs.v
theories/StdListModel.v
theories/StdListProofs.v
theories/LinkedListSpec.v
theories/LinkedListModel.v
theories/LinkedListProofs.v
theories/LinkedListFacts.v
theories/LinkedListIterProofs.v
theories/CPythonSortModel.v
theories/SortSliceModel.v
theories/SortSliceProofs.v
theories/SortSpec.v
theories/SortOrderProofs.v
theories/SortMachineProofs.v
theories/SortMergeProofs.v
theories/SortRunProofs.v
theories/SortMainProofs.v
theories/SortMethodModel.v
theories/SortMethodProofs.v
theories/TimSortModel.v
theories/TimSortMergeProofs.v
theories/TimSortProofs.v
theories/SimdSortModel.v
theories/SimdSortSpec.v
theories/SimdSortProofs.v
theories/SimdSortBigProofs.v
theories/SortReverseProofs.v
theories/ObjModel.v
theories/ObjArrayModel.v
theories/ObjLinkedModel.v
theories/ObjWorldModel.v
theories/ObjSpec.v
theories/ObjLemmas.v
theories/ObjArrayProofs.v
theories/ObjWorldProofs.v
theories/ObjLinkedProofs.v
theories/RangeSpec.v
theories/RangeProofs.v
theories/LinkSliceSpec.v
theories/LinkSliceProofs.v
theories/ObjHistoryProofs.v
theories/ObjMoreModel.v
theories/ObjMoreSpec.v
theories/ObjMoreProofs.v
theories/ObjDefectProofs.v
theories/UnsafeModel.v
theories/UnsafeSpec.v
theories/UnsafeProofs.v
theories/RefCountModel.v
theories/RefCountSpec.v
theories/RefCountProofs.v
theories/AsmModel.v
theories/AsmSpec.v
theories/AsmProofs.v
theories/PoolModel.v
theories/PoolSpec.v
theories/PoolProofs.v
theories/PropsPyLong.v
theories/PropsMem.v
theories/PropsArrayList.v
theories/PropsArrayMore.v
theories/PropsLinkedList.v
theories/CmpErrors.v
theories/CmpAnySpec.v
theories/CmpAny.v
theories/PropsCmpErrors.v
theories/PropsSort.v
theories/PropsSimdSort.v
theories/PropsObject.v
theories/PropsUnsafe.v
theories/PropsThread.v
theories/PoolMakeModel.v
theories/PoolMakeProofs.v
theories/PropsPoolMake.v
theories/SimdBindModel.v
theories/SimdBindSpec.v
theories/SimdBindProofs.v
theories/PropsSimdBind.v
theories/Avx512Model.v
theories/Avx512Table.v
theories/Avx512Stub.v
theories/Avx512Spec.v
theories/Avx512Proofs.v
theories/PropsAvx512.v
theories/PreSortModel.v
theories/PreSortSpec.v
theories/PreSortProofs.v
theories/PropsPreSort.v
theories/CpuModel.v
theories/CpuSpec.v
theories/CpuProofs.v
theories/PropsCpu.v
theories/HashModel.v
theories/HashSpec.v
theories/HashRun.v
theories/HashCoreProofs.v
theories/HashInvProofs.v
theories/HashStepProofs.v
theories/HashProofs.v
theories/PropsHash.v
theories/StdioModel.v
theories/StdioSpec.v
theories/StdioProofs.v
theories/PropsStdio.v
theories/ReentrantModel.v
theories/ReentrantSpec.v
theories/ReentrantProofs.v
theories/PropsReentrant.v
theories/ViewSpec.v
theories/ViewModel.v
theories/ViewProofs.v
theories/PropsView.v
theories/LinkedReentrantModel.v
theories/LinkedReentrantSpec.v
theories/LinkedReentrantProofs.v
theories/LinkedReentrantMore.v
theories/PropsLinkedReentrant.v
theories/AllocModel.v
theories/AllocSpec.v
theories/AllocProofs.v
theories/AllocMore.v
theories/PropsAlloc.v
theories/FinalModel.v
theories/FinalSpec.v
theories/FinalProofs.v
theories/FinalMore.v
theories/PropsFinal.v
theories/MapModel.v
theories/MapSpec.v
theories/MapProofs.v
theories/PropsMap.v
theories/CompareModel.v
theories/CompareSpec.v
theories/CompareProofs.v
theories/CompareRepr.v
theories/PropsCompare.v
theories/GilModel.v
theories/GilSpec.v
theories/GilProofs.v
theories/GilCalls.v
theories/GilRaces.v
theories/PropsGil.v
theories/LifeModel.v
theories/LifeSpec.v
theories/LifeProofs.v
theories/LifeWorld.v
theories/LifeRun.v
theories/PropsLife.v
theories/LFinalModel.v
theories/LFinalSpec.v
theories/LFinalProofs.v
theories/LFinalMore.v
theories/LFinalSlice.v
theories/PropsLFinal.v
theories/IRefModel.v
theories/IRefSpec.v
theories/IRefProofs.v
theories/IRefCalls.v
theories/IRefMore.v
theories/IRefValueSpec.v
theories/ORefModel.v
theories/ORefSpec.v
theories/ORefProofs.v
theories/ORefMore.v
theories/IRefValueProofs.v
theories/PropsIRef.v
theories/PropsORef.v
theories/LGilModel.v
theories/LGilSpec.v
theories/LGilProofs.v
theories/LGilCalls.v
theories/LGilRaces.v
theories/LGilObjects.v
theories/PropsLGil.v
theories/ImportModel.v
theories/ImportSpec.v
theories/ImportProofs.v
theories/PropsImport.v
theories/LMemModel.v
theories/LMemSpec.v
theories/LMemProofs.v
theories/PropsLMem.v
theories/PageModel.v
theories/PageSpec.v
theories/PageProofs.v
theories/PropsPage.v
theories/NativeModel.v
theories/NativeSpec.v
theories/NativeProofs.v
theories/PropsNative.v
theories/GcModel.v
theories/GcSpec.v
theories/GcProofs.v
theories/PropsGc.v
theories/MapRefModel.v
theories/MapRefSpec.v
theories/MapRefProofs.v
theories/PropsMapRef.v
theories/HelperModel.v
theories/HelperSpec.v
theories/HelperProofs.v
theories/PropsHelper.v
theories/TypeTable.v
theories/TypeModel.v
theories/TypeSpec.v
theories/TypeProofs.v
theories/PropsType.v
theories/MixModel.v
theories/MixSpec.v
theories/MixProofs.v
theories/PropsMix.v
theories/MixObjModel.v
theories/MixObjSpec.v
theories/MixObjProofs.v
theories/PropsMixObj.v
theories/HashMemModel.v
theories/HashMemSpec.v
theories/HashMemProofs.v
theories/PropsHashMem.v
theories/BoxModel.v
theories/BoxSpec.v
theories/BoxProofs.v
theories/PropsBox.v
theories/UnboxModel.v
theories/UnboxProofs.v
theories/PropsUnbox.v
theories/AsmMapModel.v
theories/AsmMapSpec.v
theories/AsmMapProofs.v
theories/PropsAsmMap.v
theories/MapLifeModel.v
theories/MapLifeSpec.v
theories/MapLifeProofs.v
theories/PropsMapLife.v
