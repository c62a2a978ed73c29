-Q theories Verif
theories/PyStr.v
theories/Regex.v
theories/Value.v
theories/Types.v
theories/Rules.v
theories/Pydantic.v
theories/ClassTable.v
theories/Classes.v
theories/Canon.v
theories/Fix.v
theories/SpecParse.v
theories/Sample.v
theories/ProofRules.v
theories/ProofParse.v
theories/PropParse.v
theories/Linked.v
theories/State.v
theories/SpecState.v
theories/ProofState.v
theories/PropState.v
theories/Resolve.v
theories/SpecResolve.v
theories/ProofResolve.v
theories/PropResolve.v
theories/Unified.v
theories/SpecUnified.v
theories/ProofUnified.v
theories/ProofCheck.v
theories/ProofOrder.v
theories/ProofGraph.v
theories/PropUnified.v
theories/Dump.v
theories/SpecDump.v
theories/ProofDump.v
theories/PropDump.v
theories/SpecDeep.v
theories/PropDeep.v
theories/PropSame.v
theories/SpecSpelling.v
theories/PropSpelling.v
theories/Validators.v
theories/SpecValidators.v
theories/ProofValidators.v
theories/PropValidators.v
theories/Pipeline.v
theories/SpecPipeline.v
theories/PropPipeline.v
theories/SpecAssign.v
theories/PropAssign.v
theories/PropWithin.v
theories/SpecObjects.v
theories/PropObjects.v
theories/Heap.v
theories/SpecHeap.v
theories/ProofHeap.v
theories/ProofOwn.v
theories/ProofMut.v
theories/ProofRun.v
theories/PropHeap.v
theories/Edits.v
theories/SpecEdits.v
theories/ProofEdits.v
theories/PropEdits.v
theories/SpecPointer.v
theories/PropPointer.v
theories/PropReload.v
theories/SpecEntries.v
theories/PropEntries.v
theories/PropRelations.v
theories/Reentry.v
theories/SpecReentry.v
theories/PropReentry.v
theories/SpecRename.v
theories/PropRename.v
theories/SpecRevalidate.v
theories/PropRevalidate.v
theories/Messages.v
theories/SpecMessages.v
theories/PropMessages.v
theories/Texts.v
theories/SpecPlaces.v
theories/ProofPlaces.v
theories/PropPlaces.v
theories/Errors.v
theories/SpecErrors.v
theories/ProofErrors.v
theories/PropErrors.v
theories/Loading.v
theories/SpecLoading.v
theories/PropLoading.v
theories/Replay.v
theories/Assigning.v
theories/PropAssigning.v
theories/PropLayout.v
theories/PropParts.v
theories/PropDocAssign.v
theories/PropOrder.v
theories/SpecHistory.v
theories/PropHistory.v
theories/Equality.v
theories/SpecEquality.v
theories/ProofEquality.v
theories/PropEquality.v
theories/JsonText.v
theories/SpecJsonText.v
theories/ProofJsonText.v
theories/ProofJsonRead.v
theories/ProofJsonWrite.v
theories/PropJsonText.v
theories/JsonSchema.v
theories/SpecJsonSchema.v
theories/ProofJsonSchema.v
theories/PropJsonSchema.v
theories/SpecSchemaRules.v
theories/ProofSchemaRules.v
theories/PropSchemaRules.v
theories/SpecUnions.v
theories/ProofUnions.v
theories/PropUnions.v
theories/SpecInert.v
theories/PropInert.v
theories/SpecDeref.v
theories/ProofDeref.v
theories/PropDeref.v
theories/PropInline.v
theories/SpecPlacement.v
theories/PropPlacement.v
theories/SpecSession.v
theories/PropSession.v
theories/SpecDefaults.v
theories/ProofDefaults.v
theories/PropDefaults.v
theories/Dedup.v
theories/SpecDedup.v
theories/PropDedup.v
theories/SpecMerge.v
theories/PropMerge.v
theories/SpecPrune.v
theories/PropPrune.v
theories/SpecWritings.v
theories/ProofWritings.v
theories/PropWritings.v
theories/SpecMergeData.v
theories/PropMergeData.v
theories/SpecSwitches.v
theories/PropSwitches.v
theories/PropItems.v
theories/PropFactor.v
theories/ReplayModels.v
theories/ReplayComponents.v
theories/ReplayBindings.v
theories/ReplayValidators.v
theories/ReplaySpecs.v
