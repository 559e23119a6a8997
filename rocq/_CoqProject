-Q theories Verif
theories/Model/Aggregator.v
theories/Model/Annotations.v
theories/Model/Attributes.v
theories/Model/BasicHandlers.v
theories/Model/CType.v
theories/Model/ClassNotes.v
theories/Model/CodeBlock.v
theories/Model/CodeSink.v
theories/Model/Compare.v
theories/Model/Containers.v
theories/Model/Custodians.v
theories/Model/Decls.v
theories/Model/Demo.v
theories/Model/DemoReverse.v
theories/Model/Dispatch.v
theories/Model/Docstring.v
theories/Model/EnumScan.v
theories/Model/Errors.v
theories/Model/ForwardWrapper.v
theories/Model/FunctionScan.v
theories/Model/Hierarchy.v
theories/Model/Import.v
theories/Model/IntHandlers.v
theories/Model/Mangle.v
theories/Model/MethodTable.v
theories/Model/MiniC.v
theories/Model/Module.v
theories/Model/NumberOps.v
theories/Model/OperatorScan.v
theories/Model/Overloading.v
theories/Model/Ownership.v
theories/Model/Params.v
theories/Model/Py.v
theories/Model/PyArgs.v
theories/Model/PyState.v
theories/Model/PygenArgs.v
theories/Model/PygenScript.v
theories/Model/ReverseWrapper.v
theories/Model/ScanMembers.v
theories/Model/ScanTypes.v
theories/Model/Sequence.v
theories/Model/SharedPtr.v
theories/Model/Tokenizer.v
theories/Model/TypeMap.v
theories/Model/TypeMatcher.v
theories/Model/Utf8.v
theories/Model/WrapperCall.v
theories/Proofs/AbstractProofs.v
theories/Proofs/AnnotationItems.v
theories/Proofs/AnnotationProofs.v
theories/Proofs/AnnotationRx.v
theories/Proofs/ArgProofs.v
theories/Proofs/AttributeProofs.v
theories/Proofs/AttributeRun.v
theories/Proofs/BasicFrame.v
theories/Proofs/BasicInts.v
theories/Proofs/BasicLocal.v
theories/Proofs/BasicNames.v
theories/Proofs/BasicText.v
theories/Proofs/BasicTop.v
theories/Proofs/BlockProofs.v
theories/Proofs/CallProofs.v
theories/Proofs/ClassNotesProofs.v
theories/Proofs/ClassNotesTop.v
theories/Proofs/CompareProofs.v
theories/Proofs/CompleteProofs.v
theories/Proofs/ContainerConv.v
theories/Proofs/ContainerHeap.v
theories/Proofs/ContainerRep.v
theories/Proofs/ContainerSteps.v
theories/Proofs/ContainerTop.v
theories/Proofs/CustodianProofs.v
theories/Proofs/DeclProofs.v
theories/Proofs/DeclaredProofs.v
theories/Proofs/DelegateProofs.v
theories/Proofs/DispatchHelper.v
theories/Proofs/DispatchProofs.v
theories/Proofs/DispatchTop.v
theories/Proofs/DocstringProofs.v
theories/Proofs/EnumScanProofs.v
theories/Proofs/EscapeProofs.v
theories/Proofs/EscapeTop.v
theories/Proofs/FunctionScanProofs.v
theories/Proofs/FunctionScanTop.v
theories/Proofs/FunctionTextProofs.v
theories/Proofs/GenProofs.v
theories/Proofs/GenSteps.v
theories/Proofs/HeaderProofs.v
theories/Proofs/HelperProofs.v
theories/Proofs/HierarchyMore.v
theories/Proofs/HierarchyProofs.v
theories/Proofs/HierarchyTop.v
theories/Proofs/ImportContents.v
theories/Proofs/ImportNames.v
theories/Proofs/ImportOrder.v
theories/Proofs/ImportProofs.v
theories/Proofs/IntBack.v
theories/Proofs/IntProofs.v
theories/Proofs/IntTop.v
theories/Proofs/LexProofs.v
theories/Proofs/LockProofs.v
theories/Proofs/MangleProofs.v
theories/Proofs/MatcherProofs.v
theories/Proofs/MeaningProofs.v
theories/Proofs/ModuleNames.v
theories/Proofs/ModulePaths.v
theories/Proofs/ModuleProofs.v
theories/Proofs/ModuleSteps.v
theories/Proofs/NameProofs.v
theories/Proofs/NumberProofs.v
theories/Proofs/OfferProofs.v
theories/Proofs/OnceProofs.v
theories/Proofs/OperatorScanProofs.v
theories/Proofs/OverloadProofs.v
theories/Proofs/OwnEvents.v
theories/Proofs/OwnFacts.v
theories/Proofs/OwnFinal.v
theories/Proofs/OwnHeap.v
theories/Proofs/OwnHist.v
theories/Proofs/OwnInv.v
theories/Proofs/OwnMoves.v
theories/Proofs/OwnPaths.v
theories/Proofs/OwnProps.v
theories/Proofs/OwnRun.v
theories/Proofs/OwnStep.v
theories/Proofs/OwnTick.v
theories/Proofs/OwnTop.v
theories/Proofs/OwnWard.v
theories/Proofs/ParamProofs.v
theories/Proofs/ParseProofs.v
theories/Proofs/PlaceProofs.v
theories/Proofs/PolicyProofs.v
theories/Proofs/PolicyTop.v
theories/Proofs/ProxyProofs.v
theories/Proofs/PruneProofs.v
theories/Proofs/PruneTop.v
theories/Proofs/PureProofs.v
theories/Proofs/PureScript.v
theories/Proofs/PygenArgsProofs.v
theories/Proofs/PygenProofs.v
theories/Proofs/ReorderProofs.v
theories/Proofs/ReverseProofs.v
theories/Proofs/ReverseTop.v
theories/Proofs/ScanComplete.v
theories/Proofs/ScanMembersProofs.v
theories/Proofs/ScanProofs.v
theories/Proofs/ScriptProofs.v
theories/Proofs/SectionTop.v
theories/Proofs/SequenceProofs.v
theories/Proofs/SetterProofs.v
theories/Proofs/SettingsProofs.v
theories/Proofs/SharedPtrInv.v
theories/Proofs/SharedPtrProofs.v
theories/Proofs/SharedPtrRefs.v
theories/Proofs/SharedPtrSteps.v
theories/Proofs/SharedPtrTop.v
theories/Proofs/SinkProofs.v
theories/Proofs/Steps.v
theories/Proofs/StrLemmas.v
theories/Proofs/TableDeclared.v
theories/Proofs/TableFold.v
theories/Proofs/TableGen.v
theories/Proofs/TableLookup.v
theories/Proofs/TableOrder.v
theories/Proofs/TableProofs.v
theories/Proofs/TableTop.v
theories/Proofs/TraitsProofs.v
theories/Proofs/TypeMapProofs.v
theories/Proofs/TypeProofs.v
theories/Proofs/Utf8Proofs.v
theories/Proofs/WrapperBody.v
theories/Proofs/WrapperProofs.v
theories/Properties/P01_Sinks.v
theories/Properties/P02_Declarations.v
theories/Properties/P04_Cleanups.v
theories/Properties/P05_Release.v
theories/Properties/P06_Arguments.v
theories/Properties/P08_Results.v
theories/Properties/P10_Lock.v
theories/Properties/P11_Reverse.v
theories/Properties/P12_Types.v
theories/Properties/P15_Matcher.v
theories/Properties/P17_Mangle.v
theories/Properties/P18_Policy.v
theories/Properties/P19_Dispatch.v
theories/Properties/P20_Overloading.v
theories/Properties/P21_Ownership.v
theories/Properties/P22_Counting.v
theories/Properties/P23_Registry.v
theories/Properties/P24_Custodians.v
theories/Properties/P25_Narrowing.v
theories/Properties/P26_Hierarchy.v
theories/Properties/P27_Abstract.v
theories/Properties/P28_Modules.v
theories/Properties/P29_Sections.v
theories/Properties/P30_Integers.v
theories/Properties/P32_Containers.v
theories/Properties/P33_Operators.v
theories/Properties/P36_Settings.v
theories/Properties/P37_Tables.v
theories/Properties/P38_Names.v
theories/Properties/P39_Comparisons.v
theories/Properties/P40_Sequences.v
theories/Properties/P41_Basic_Arguments.v
theories/Properties/P42_Basic_Results.v
theories/Properties/P43_Basic_References.v
theories/Properties/P44_Method_Tables.v
theories/Properties/P45_Virtual_Dispatch.v
theories/Properties/P46_Shared_Pointers.v
theories/Properties/P47_Import.v
theories/Properties/P48_Attributes.v
theories/Properties/P49_Docstring.v
theories/Properties/P50_Annotations.v
theories/Properties/P51_ScanTypes.v
theories/Properties/P52_ScanMembers.v
theories/Properties/P53_Pygen.v
theories/Properties/P54_PygenArgs.v
theories/Properties/P55_Functions.v
theories/Properties/P56_OperatorScan.v
theories/Properties/P57_ClassNotes.v
theories/Properties/P58_EnumScan.v
theories/Spec/AnnotationSpec.v
theories/Spec/ArgSpec.v
theories/Spec/AttributeSpec.v
theories/Spec/BasicSpec.v
theories/Spec/BlockSpec.v
theories/Spec/BodySpec.v
theories/Spec/ClassNotesSpec.v
theories/Spec/CompareSpec.v
theories/Spec/ContainerSpec.v
theories/Spec/CustodianSpec.v
theories/Spec/DeclSpec.v
theories/Spec/DispatchSpec.v
theories/Spec/DocstringSpec.v
theories/Spec/EnumScanSpec.v
theories/Spec/FunctionScanSpec.v
theories/Spec/HandlerSpec.v
theories/Spec/HierarchySpec.v
theories/Spec/ImportSpec.v
theories/Spec/IntSpec.v
theories/Spec/MangleSpec.v
theories/Spec/MatcherSpec.v
theories/Spec/MethodTableSpec.v
theories/Spec/ModuleSpec.v
theories/Spec/NameSpec.v
theories/Spec/NarrowSpec.v
theories/Spec/NumberSpec.v
theories/Spec/OperatorScanSpec.v
theories/Spec/OverloadSpec.v
theories/Spec/OwnSpec.v
theories/Spec/ParamSpec.v
theories/Spec/PolicySpec.v
theories/Spec/PygenArgsSpec.v
theories/Spec/PygenSpec.v
theories/Spec/ReverseSpec.v
theories/Spec/ScanMembersSpec.v
theories/Spec/ScanSpec.v
theories/Spec/SectionSpec.v
theories/Spec/SequenceSpec.v
theories/Spec/SetterSpec.v
theories/Spec/SettingsSpec.v
theories/Spec/SharedPtrSpec.v
theories/Spec/SinkSpec.v
theories/Spec/TableSpec.v
theories/Spec/TypeSpec.v
theories/Spec/VirtualSpec.v
theories/Spec/WrapperSpec.v
