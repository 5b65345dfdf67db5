-Q theories Verif
theories/Machine.v
theories/Constants.v
theories/Operands.v
theories/OpcodeTrait.v
theories/Opcodes.v
theories/AllOpcodes.v
theories/Tables.v
theories/Decoding.v
theories/Abi.v
theories/VersionedHash.v
theories/PricingGen.v
theories/Display.v
theories/SpecIsa.v
theories/BitLemmas.v
theories/TableProofs.v
theories/SpecFamilies.v
theories/TableProofs2.v
theories/TableProofs3.v
theories/SpecCodec.v
theories/CodecProofs.v
theories/CodecProofs2.v
theories/ProofsCodec.v
theories/PropsCodec.v
theories/ProofsTables.v
theories/PropsTables.v
theories/ProofsFamilies.v
theories/PropsFamilies.v
theories/SpecAbi.v
theories/ProofsAbi.v
theories/PropsAbi.v
theories/SpecPricing.v
theories/ProofsPricing.v
theories/PropsPricing.v
theories/SpecDisplay.v
theories/ProofsDisplay.v
theories/PropsDisplay.v
theories/SpecLayout.v
theories/ProofsLayout.v
theories/PropsLayout.v
theories/Ordering.v
theories/SpecOrdering.v
theories/ProofsOrdering.v
theories/PropsOrdering.v
theories/SpecCompose.v
theories/ProofsCompose.v
theories/PropsCompose.v
theories/Target.v
theories/ProofsTarget.v
theories/PropsTarget.v
theories/SpecGenerator.v
theories/ProofsGenerator.v
theories/PropsGenerator.v
theories/SpecSets.v
theories/ProofsSets.v
theories/PropsSets.v
theories/ProofsMasks.v
theories/PropsMasks.v
theories/SpecAnyTable.v
theories/ProofsAnyTable.v
theories/PropsAnyTable.v
theories/ProofsEvolve.v
theories/PropsEvolve.v
theories/DebugText.v
theories/SpecDebug.v
theories/ProofsDebug.v
theories/PropsDebug.v
theories/HashFeed.v
theories/Allocation.v
theories/SpecHash.v
theories/ProofsHash.v
theories/PropsHash.v
theories/ProofsAllocation.v
theories/PropsAllocation.v
theories/Overflow.v
theories/SpecOverflow.v
theories/ProofsOverflow.v
theories/PropsOverflow.v
theories/Repricing.v
theories/SpecRepricing.v
theories/ProofsRepricing.v
theories/PropsRepricing.v
theories/Relayout.v
theories/SpecRelayout.v
theories/ProofsRelayout.v
theories/PropsRelayout.v
theories/ProofsUpgrade.v
theories/PropsUpgrade.v
theories/SpecReassemble.v
theories/ProofsReassemble.v
theories/PropsReassemble.v
theories/Sha256.v
theories/SpecSha.v
theories/SpecRounds.v
theories/ProofsSha.v
theories/PropsSha.v
theories/ProofsRounds.v
theories/PropsRounds.v
theories/HashTable.v
theories/SpecHashTable.v
theories/ProofsHashTable.v
theories/PropsHashTable.v
theories/LazyStatics.v
theories/SpecLazy.v
theories/ProofsLazy.v
theories/PropsLazy.v
theories/GeneratorIO.v
theories/SpecGeneratorIO.v
theories/ProofsGeneratorIO.v
theories/PropsGeneratorIO.v
theories/SpecNoPanic.v
theories/ProofsNoPanic.v
theories/PropsNoPanic.v
theories/SpecBudget.v
theories/ProofsBudget.v
theories/PropsBudget.v
theories/SpecCircuits.v
theories/ProofsCircuits.v
theories/PropsCircuits.v
theories/SpecGuard.v
theories/ProofsGuard.v
theories/PropsGuard.v
