-Q theories Verif

theories/Base.v
theories/BaseFacts.v
theories/Checksum.v
theories/Buffers.v
theories/DualBuffer.v
theories/Parser.v
theories/SpecBuffer.v
theories/SpecFrame.v
theories/SpecParser.v
theories/ProofScan.v
theories/ProofDual.v
theories/ProofSim.v
theories/ProofChecksum.v
theories/ProofParser.v
theories/ProofFeed.v
theories/ProofBuffers.v
theories/ProofStream.v
theories/ProofTrace.v
theories/ProofSmall.v
theories/ProofTop.v
theories/ProofMore.v
theories/PackDesc.v
theories/GenRecv.v
theories/GenSend.v
theories/Dispatch.v
theories/Enums.v
theories/Floats.v
theories/Utf8.v
theories/Bits.v
theories/Iterators.v
theories/CfgVal.v
theories/TableTypes.v
theories/TablePackets.v
theories/TableCfg.v
theories/SpecPacket.v
theories/ProofSend.v
theories/ProofRecv.v
theories/ProofTable.v
theories/SpecTypes.v
theories/SpecCfg.v
theories/SpecReal.v
theories/ProofFloat.v
theories/ProofText.v
theories/SpecDispatch.v
theories/ProofDispatch.v
theories/PropParser.v
theories/PropFixed.v
theories/PropChecksum.v
theories/PropBuffer.v
theories/PropPackets.v
theories/PropDispatch.v
theories/PropTypes.v
theories/PropIter.v
theories/PropBits.v
theories/PropCfg.v
theories/PropFloat.v
theories/DateTime.v
theories/SpecFields.v
theories/ProofFields.v
theories/PropFields.v
theories/SpecDate.v
theories/PropDate.v
theories/Convert.v
theories/SpecConvert.v
theories/PropConvert.v
theories/Setters.v
theories/PropAid.v
theories/PropSetters.v
theories/Serialize.v
theories/SpecSerialize.v
theories/PropSerialize.v
theories/Cli.v
theories/SpecCli.v
theories/PropCli.v
theories/SpecInterface.v
theories/PropInterface.v
theories/Tokens.v
theories/Syntax.v
theories/Macro.v
theories/Meaning.v
theories/SourcePackets.v
theories/SourceCfg.v
theories/SpecMacro.v
theories/ProofMacro.v
theories/ProofMeaning.v
theories/PropMacro.v
theories/PropSource.v
theories/PropLibrary.v
theories/Session.v
theories/SpecSession.v
theories/PropSession.v
theories/ProofLex.v
theories/Quote.v
theories/Output.v
theories/SourceOutput.v
theories/SourceTests.v
theories/Rust.v
theories/Code.v
theories/ProofOutput.v
theories/ProofCode.v
theories/PropOutput.v
theories/SpecCode.v
theories/ProofEval.v
theories/ProofEvalSend.v
theories/ProofEvalRest.v
theories/SpecLib.v
theories/ProofLib.v
theories/PropCode.v
theories/PropCodeLib.v
theories/SpecShow.v
theories/ProofShow.v
theories/PropShow.v
theories/Default.v
theories/SpecDefault.v
theories/PropDefault.v
theories/Messages.v
theories/SpecMessages.v
theories/PropMessages.v
theories/Validation.v
theories/Data.v
theories/SpecData.v
theories/ProofData.v
theories/PropData.v
theories/SourceTypes.v
theories/Serde.v
theories/SpecSerde.v
theories/ProofSerde.v
theories/PropSerde.v
theories/Lang.v
theories/Exec.v
theories/SourceParser.v
theories/SourceUbx.v
theories/SpecExec.v
theories/ProofExec.v
theories/PropExec.v
theories/SpecExecPackets.v
theories/ProofExecPackets.v
theories/PropExecPackets.v
theories/MacroRules.v
theories/SpecExecCfg.v
theories/ProofExecCfgText.v
theories/ProofExecCfg.v
theories/PropExecCfg.v
theories/PropExecLibrary.v
theories/SpecExecTypes.v
theories/ProofExecTypes.v
theories/PropExecTypes.v
