-Q theories Verif

theories/Base.v
theories/BaseFacts.v
theories/Layout.v
theories/Labels.v
theories/Array.v
theories/Strided.v
theories/Block.v
theories/Tensor.v
theories/Npy.v
theories/Io.v
theories/PyIo.v
theories/Origin.v
theories/CApi.v
theories/Spec.v
theories/SpecTensor.v
theories/SpecIo.v
theories/SpecFormat.v
theories/SpecPy.v
theories/SpecApi.v
theories/LayoutFacts.v
theories/SwapLayoutFacts.v
theories/LabelsFacts.v
theories/ArrayFacts.v
theories/BlockFacts.v
theories/TensorFacts.v
theories/KeysFacts.v
theories/MergeFacts.v
theories/GroupFacts.v
theories/BlocksFacts.v
theories/MergePropertiesFacts.v
theories/MovedFacts.v
theories/ComponentsFacts.v
theories/StridedFacts.v
theories/DefinedFacts.v
theories/ReadableFacts.v
theories/CompleteFacts.v
theories/OrderFacts.v
theories/NpyFacts.v
theories/PathFacts.v
theories/IoFacts.v
theories/FormatFacts.v
theories/PyWriteFacts.v
theories/PyReadFacts.v
theories/PyFacts.v
theories/ExamplesPy.v
theories/PropPy.v
theories/LoadFacts.v
theories/ApiFacts.v
theories/QuietFacts.v
theories/ReportFacts.v
theories/OwnerFacts.v
theories/LabelsApiFacts.v
theories/ReachFacts.v
theories/HandleFacts.v
theories/SafeFacts.v
theories/FileApiFacts.v
theories/CallFacts.v
theories/Examples.v
theories/ExamplesMoved.v
theories/ExamplesComponents.v
theories/ExamplesRefuted.v
theories/ExamplesIo.v
theories/ExamplesFormat.v
theories/ExamplesLayout.v
theories/ExamplesApi.v
theories/PropLabels.v
theories/PropBlock.v
theories/PropTensor.v
theories/PropMoved.v
theories/PropComponents.v
theories/PropComplete.v
theories/PropOrder.v
theories/PropLimits.v
theories/PropIo.v
theories/PropFormat.v
theories/PropLayout.v
theories/PropApi.v
theories/PropCalls.v
theories/PyLabels.v
theories/SpecPyLabels.v
theories/PyLabelsFacts.v
theories/PySelectFacts.v
theories/ExamplesPyLabels.v
theories/PropPyLabels.v
theories/PyEntries.v
theories/SpecPyEntries.v
theories/PyEntriesFacts.v
theories/ExamplesPyEntries.v
theories/PropPyEntries.v
theories/CLib.v
theories/SpecCLib.v
theories/CLibFacts.v
theories/ExamplesCLib.v
theories/PropCLib.v
theories/PyObjects.v
theories/SpecPyObjects.v
theories/PyObjectsFacts.v
theories/PyCallFacts.v
theories/PyStatementFacts.v
theories/PyMoveFacts.v
theories/PyCollectFacts.v
theories/PyProgramFacts.v
theories/ExamplesPyObjects.v
theories/PropPyObjects.v
theories/Numpy.v
theories/SpecNumpy.v
theories/NumpyFacts.v
theories/MoveWith.v
theories/MoveWithFacts.v
theories/ExamplesNumpy.v
theories/PropNumpy.v
theories/Declarations.v
theories/SpecDeclarations.v
theories/DeclarationsFacts.v
theories/ExamplesDeclarations.v
theories/PropDeclarations.v
theories/Callbacks.v
theories/SpecCallbacks.v
theories/CallbacksStore.v
theories/CallbacksFacts.v
theories/CallbacksOwnFacts.v
theories/CallbacksFailFacts.v
theories/CallbacksStoreFacts.v
theories/ExamplesCallbacks.v
theories/PropCallbacks.v
theories/SpecCallApart.v
theories/SpecCallMoves.v
theories/CallMovesFacts.v
theories/ExamplesCallMoves.v
theories/PropCallMoves.v
theories/CallApartFacts.v
theories/PropCallApart.v
theories/PyErrors.v
theories/SpecPyErrors.v
theories/PyErrorsFacts.v
theories/ExamplesPyErrors.v
theories/PropPyErrors.v
theories/PyPrint.v
theories/SpecPyPrint.v
theories/PyPrintFacts.v
theories/ExamplesPyPrint.v
theories/PropPyPrint.v
theories/Saving.v
theories/SpecSaving.v
theories/SavingFacts.v
theories/ExamplesSaving.v
theories/PropSaving.v
theories/Torch.v
theories/TorchFacts.v
theories/ExamplesTorch.v
theories/PropTorch.v
theories/SpecComponents.v
theories/ComponentsExactFacts.v
theories/ExamplesComponentsExact.v
theories/PropComponentsExact.v
theories/SpecExact.v
theories/ExactFacts.v
theories/ExamplesExact.v
theories/PropExact.v
theories/Iterators.v
theories/SpecIterators.v
theories/IteratorsFacts.v
theories/ExamplesIterators.v
theories/PropIterators.v
theories/RepoTests.v
theories/RepoPyTests.v
theories/RepoData.v
theories/SwapAnyFacts.v
theories/SwapAnyFacts2.v
theories/ReadableAnyFacts.v
theories/ExamplesReadable.v
theories/PropReadable.v
theories/Library.v
theories/SpecLibrary.v
theories/LibraryFacts.v
theories/LibraryFacts2.v
theories/ExamplesLibrary.v
theories/PropLibrary.v
theories/Collector.v
theories/SpecCollector.v
theories/CollectorFacts.v
theories/ExamplesCollector.v
theories/PropCollector.v
theories/Versions.v
theories/SpecVersions.v
theories/VersionsFacts.v
theories/ExamplesVersions.v
theories/PropVersions.v
theories/Wrapper.v
theories/SpecWrapper.v
theories/WrapperFacts.v
theories/ExamplesWrapper.v
theories/PropWrapper.v
theories/SaveCalls.v
theories/SpecSaveCalls.v
theories/SaveCallsFacts.v
theories/CloneCallsFacts.v
theories/ExamplesSaveCalls.v
theories/PropSaveCalls.v
theories/TorchCalls.v
theories/TorchCallsFacts.v
theories/ExamplesTorchCalls.v
theories/PropTorchCalls.v
theories/PyOrigins.v
theories/SpecPyOrigins.v
theories/PyOriginsFacts.v
theories/ExamplesPyOrigins.v
theories/PropPyOrigins.v
theories/FailureFacts.v
theories/PropFailures.v
theories/StepsFacts.v
theories/CommuteFacts.v
theories/GradientStepsFacts.v
theories/ExamplesSteps.v
theories/PropSteps.v
theories/ComponentStepsFacts.v
theories/ExamplesComponentSteps.v
theories/PropComponentSteps.v
theories/ComponentPropertiesFacts.v
theories/ExamplesComponentProperties.v
theories/PropComponentProperties.v
theories/TwoComponentsFacts.v
theories/ExamplesTwoComponents.v
theories/PropTwoComponents.v
theories/SpecFlat.v
theories/FlatFacts.v
theories/PropFlat.v
theories/PartFacts.v
theories/ExamplesPart.v
theories/PropPart.v
theories/ArrayText.v
theories/SpecArrayText.v
theories/ArrayTextFacts.v
theories/ExamplesArrayText.v
theories/PropArrayText.v
