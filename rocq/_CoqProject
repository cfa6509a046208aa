-Q theories Verif
theories/ZSetModel.v
theories/ZSetSpec.v
theories/ZSetProofs.v
theories/ZSetProofs2.v
theories/TestDocs.v
theories/PropsZSet.v
theories/OpsModel.v
theories/ExecModel.v
theories/OpsSpec.v
theories/OpsProofs.v
theories/GatherSpec.v
theories/ExecSpec.v
theories/StreamProofs.v
theories/JoinProofs.v
theories/PropsOps.v
theories/ChainProofs.v
theories/ChainProofs2.v
theories/OptProofs.v
theories/IncrProofs.v
theories/IncrProofs2.v
theories/ExecMisc.v
theories/GatherProofs.v
theories/GatherDet.v
theories/FusedDet.v
theories/PropsExec.v
theories/JsonModel.v
theories/JsonSpec.v
theories/JsonProofs.v
theories/JsonIdent.v
theories/SortModel.v
theories/SortSpec.v
theories/SortProofs.v
theories/TestJson.v
theories/PropsJson.v
theories/ObjModel.v
theories/PipelineModel.v
theories/CleanSpec.v
theories/PipelineSpec.v
theories/CleanProofs.v
theories/ReconcileProofs.v
theories/ObjProofs.v
theories/ConvertProofs.v
theories/TargetProofs.v
theories/PipeProofs.v
theories/PipeProofs2.v
theories/PipeProofs3.v
theories/ReconcilerModel.v
theories/PipeProofs4.v
theories/RetryProofs.v
theories/SyncProofs.v
theories/TestPipe.v
theories/PropsPipeline.v
theories/AuthModel.v
theories/AuthSpec.v
theories/AuthProofs.v
theories/PropsAuth.v
theories/StatusModel.v
theories/StatusSpec.v
theories/StatusProofs.v
theories/PropsStatus.v
theories/PredicateModel.v
theories/PredicateSpec.v
theories/PredicateProofs.v
theories/PropsPredicate.v
theories/CrewSpec.v
theories/CrewProofs.v
theories/QueueProofs.v
theories/PropsReconciler.v
theories/ValueModel.v
theories/ValueSpec.v
theories/ValueProofs.v
theories/MergeProofs.v
theories/PropsValue.v
theories/GroupModel.v
theories/GroupSpec.v
theories/GroupProofs.v
theories/PropsGroup.v
theories/ViewModel.v
theories/ViewSpec.v
theories/ViewProofs.v
theories/ViewProofs2.v
theories/ViewProofs3.v
theories/PropsView.v
theories/WriterModel.v
theories/WriterSpec.v
theories/WriterProofs.v
theories/WriterProofs2.v
theories/WriterProofs3.v
theories/WriterProofs4.v
theories/WriterProofs5.v
theories/PropsWriter.v
theories/PropsRace.v
theories/RegistryModel.v
theories/RegistrySpec.v
theories/RegistryProofs.v
theories/RegistryProofs2.v
theories/RegistryProofs3.v
theories/PropsRegistry.v
theories/OperatorModel.v
theories/OperatorSpec.v
theories/OperatorProofs.v
theories/PropsOperator.v
theories/ExprModel.v
theories/ExprSpec.v
theories/ExprProofs.v
theories/ExprProofs2.v
theories/ExprProofs3.v
theories/ExprProofs4.v
theories/TestExpr.v
theories/PropsExpr.v
theories/PropsNumber.v
theories/RoundProofs.v
theories/PipeJsonModel.v
theories/PipeJsonSpec.v
theories/PropsRound.v
theories/StageModel.v
theories/StageSpec.v
theories/ListProofs.v
theories/StageProofs.v
theories/StageNames.v
theories/StageClean.v
theories/TestStage.v
theories/PropsStage.v
theories/SelectorSpec.v
theories/SelectorProofs.v
theories/PropsSelector.v
theories/StorageModel.v
theories/StorageSpec.v
theories/StorageProofs.v
theories/PropsStorage.v
theories/OverlapModel.v
theories/OverlapSpec.v
theories/OverlapProofs.v
theories/OverlapProofs2.v
theories/PropsOverlap.v
theories/HeapModel.v
theories/HeapSpec.v
theories/HeapProofs.v
theories/HeapProofs2.v
theories/HeapProofs3.v
theories/HeapProofs4.v
theories/HeapProofs5.v
theories/TestHeap.v
theories/PropsHeap.v
theories/TokenModel.v
theories/TokenSpec.v
theories/TokenProofs.v
theories/TestToken.v
theories/PropsToken.v
theories/GateModel.v
theories/GateSpec.v
theories/GateProofs.v
theories/PropsGate.v
theories/SharedModel.v
theories/SharedSpec.v
theories/SharedProofs.v
theories/PropsShared.v
theories/DiscoModel.v
theories/DiscoSpec.v
theories/DiscoProofs.v
theories/PropsDisco.v
theories/SourceModel.v
theories/SourceSpec.v
theories/SourceProofs.v
theories/PropsSource.v
theories/NetModel.v
theories/NetSpec.v
theories/NetProofs.v
theories/NetProofs2.v
theories/NetProofs3.v
theories/NetProofs4.v
theories/NetProofs5.v
theories/NetProofs6.v
theories/NetProofs7.v
theories/NetProofs8.v
theories/PropsNet.v
theories/LifeModel.v
theories/LifeSpec.v
theories/LifeProofs.v
theories/PropsLife.v
theories/DeclModel.v
theories/DeclSpec.v
theories/DeclProofs.v
theories/PropsDecl.v
theories/OpenModel.v
theories/OpenSpec.v
theories/OpenProofs.v
theories/PropsOpen.v
theories/VisModel.v
theories/VisSpec.v
theories/VisProofs.v
theories/PropsVis.v
theories/HealSpec.v
theories/HealProofs.v
theories/PropsHeal.v
theories/FlowModel.v
theories/FlowSpec.v
theories/FlowProofs.v
theories/PropsFlow.v
theories/AliasModel.v
theories/AliasSpec.v
theories/AliasProofs.v
theories/AliasProofs2.v
theories/AliasProofs3.v
theories/PropsAlias.v
theories/SliceModel.v
theories/SliceSpec.v
theories/SliceProofs.v
theories/PropsSlice.v
theories/ExampleModel.v
theories/ExampleSpec.v
theories/ExampleProofs.v
theories/ExampleProofs2.v
theories/ExampleProofs3.v
theories/ExampleProofs4.v
theories/TypedSpec.v
theories/TypedProofs.v
theories/StageRunSpec.v
theories/StageRunProofs.v
theories/PropsStageRun.v
theories/ExampleProofs5.v
theories/ExampleSpec2.v
theories/ExampleProofs6.v
theories/TestExample.v
theories/PropsExample.v
theories/PropsExample2.v
theories/EndpointModel.v
theories/EndpointSpec.v
theories/StageChain.v
theories/EndpointProofs.v
theories/EndpointProofs2.v
theories/TestEndpoint.v
theories/PropsEndpoint.v
theories/EndpointSpec2.v
theories/EndpointProofs3.v
theories/EndpointProofs4.v
theories/PropsEndpoint2.v
theories/AnnotatorModel.v
theories/AnnotatorSpec.v
theories/AnnotatorSpec2.v
theories/QuietProofs.v
theories/AnnotatorProofs.v
theories/PropsAnnotator.v
theories/PropsAnnotator2.v
theories/DecodeSpec.v
theories/PropsDecode.v
