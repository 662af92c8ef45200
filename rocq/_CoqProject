-Q theories Verif

theories/Base.v
theories/BaseFacts.v
theories/Types.v
theories/Proto.v
theories/ProtoFacts.v
theories/Block.v
theories/BlockFacts.v
theories/FloatFacts.v
theories/Spec.v
theories/SpecFacts.v
theories/FormatSpec.v
theories/BlockOverflow.v
theories/BlockRead.v
theories/PropBlock.v
theories/ExBlock.v
theories/FileFormat.v
theories/FileFacts.v
theories/WriterFacts.v
theories/FileSpec.v
theories/PropFile.v
theories/ExFile.v
theories/ModelSpec.v
theories/Model2.v
theories/ModelFacts.v
theories/PropModel.v
theories/ExModel.v
theories/Pool.v
theories/ParallelSpec.v
theories/PoolFacts.v
theories/ParallelRead.v
theories/ParallelReadFacts.v
theories/PropParallelRead.v
theories/ExParallelRead.v
theories/ParallelWriteSpec.v
theories/ParallelWrite.v
theories/OrderFacts.v
theories/EncodeFacts.v
theories/PropParallelWrite.v
theories/ExParallelWrite.v
theories/ApidbText.v
theories/ApidbSpec.v
theories/CalendarFacts.v
theories/ApidbTextFacts.v
theories/TileFacts.v
theories/ApidbWrite.v
theories/DumpSpec.v
theories/ApidbWriteFacts.v
theories/PropApidbWrite.v
theories/PropApidbText.v
theories/ApidbRead.v
theories/DumpReadSpec.v
theories/ApidbReadFacts.v
theories/TocFacts.v
theories/JoinFacts.v
theories/ReaderFacts.v
theories/PropApidbRead.v
theories/PropDump.v
theories/RoundSpec.v
theories/RoundFacts.v
theories/PropRound.v
theories/PropRoundTrip.v
theories/PropLimits.v
theories/ExTools.v
theories/TocData.v
theories/PropToc.v
theories/ExApidb.v
theories/WireSpec.v
theories/WireFacts.v
theories/WireMsg.v
theories/PropWire.v
theories/CallSpec.v
theories/Calls.v
theories/PropCalls.v
theories/ExCalls.v
theories/BoxSpec.v
theories/PropBox.v
theories/Crash.v
theories/PropCrash.v
theories/ExCrash.v
theories/Converters.v
theories/IsoSpec.v
theories/PropIso.v
theories/ExIso.v
theories/FileInfoModel.v
theories/InfoSpec.v
theories/PropInfo.v
theories/PropLegal.v
theories/Pipelines.v
theories/PropPipelines.v
theories/ExPipelines.v
theories/Pipelines2.v
theories/PropConvert.v
theories/PropConvert2.v
theories/ExConvert.v
theories/ReadSpec.v
theories/PropReadAny.v
theories/ExReadAny.v
theories/PropBlobs.v
theories/ExBlobs.v
theories/ParallelIo.v
theories/PropParallelIo.v
theories/ExParallelIo.v
theories/PropExact.v
theories/ExExact.v
theories/FieldSpec.v
theories/PropFields.v
theories/ExFields.v
theories/ResolveSpec.v
theories/PropResolve.v
theories/ExResolve.v
theories/RowOrderSpec.v
theories/PropRowOrder.v
theories/ExRowOrder.v
theories/DisorderSpec.v
theories/PropDisorder.v
theories/ExDisorder.v
theories/HeaderBoxSpec.v
theories/PropHeaderBox.v
theories/ExHeaderBox.v
theories/DumpStop.v
theories/StopSpec.v
theories/PropStop.v
theories/ExStop.v
theories/LowCalls.v
theories/LowSpec.v
theories/PropLow.v
theories/ExLow.v
theories/IoCalls.v
theories/IoSpec.v
theories/PropIo.v
theories/ExIo.v
theories/MissSpec.v
theories/PropMiss.v
theories/ExMiss.v
theories/NameSpec.v
theories/NameFacts.v
theories/PropNames.v
theories/ExNames.v
theories/WriteFails.v
theories/PropWriteFails.v
theories/ExWriteFails.v
theories/FailPool.v
theories/FailSpec.v
theories/PropFails.v
theories/ExFails.v
theories/TmpDir.v
theories/PropTmp.v
theories/ExTmp.v
theories/DumpCalls.v
theories/DumpCallsSpec.v
theories/PropDumpCalls.v
theories/ExDumpCalls.v
theories/DumpFails.v
theories/DumpFailsSpec.v
theories/PropDumpFails.v
theories/ExDumpFails.v
theories/ReadFails.v
theories/PropReadFails.v
theories/ExReadFails.v
theories/CountSpec.v
theories/PropCount.v
theories/ExCount.v
theories/DumpReadFails.v
theories/DumpReadFailsSpec.v
theories/PropDumpReadFails.v
theories/ExDumpReadFails.v
theories/NullSpec.v
theories/PropNull.v
theories/ExNull.v
theories/DamagedParallel.v
theories/DamagedSpec.v
theories/PropDamaged.v
theories/ExDamaged.v
theories/Stopped.v
theories/PropStopped.v
theories/ExStopped.v
theories/InfoProgram.v
theories/PropInfoProgram.v
theories/ExInfoProgram.v
theories/PropNullParts.v
theories/ExNullParts.v
theories/Stack.v
theories/StackSpec.v
theories/PropStack.v
theories/PropStackFiles.v
theories/ExStack.v
theories/GrowingSpec.v
theories/Growing.v
theories/PropGrowing.v
theories/ExGrowing.v
theories/PollSpec.v
theories/Poll.v
theories/PropPoll.v
theories/ExPoll.v
theories/SalvageSpec.v
theories/Salvage.v
theories/PropSalvage.v
theories/ExSalvage.v
theories/JoinSpec.v
theories/PropJoined.v
theories/ExJoined.v
theories/ManyClosesSpec.v
theories/PropManyCloses.v
theories/ExManyCloses.v
theories/PropManyNames.v
theories/ExManyNames.v
theories/PropSorted.v
theories/ExSorted.v
theories/RescueSpec.v
theories/PropRescue.v
theories/ExRescue.v
theories/DumpSalvage.v
theories/DumpSalvageSpec.v
theories/PropDumpSalvage.v
theories/ExDumpSalvage.v
theories/PropCopy.v
theories/ExCopy.v
