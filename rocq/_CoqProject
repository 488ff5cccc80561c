-Q theories Verif
theories/Base.v
theories/Errors.v
theories/Types.v
theories/Env.v
theories/StateOps.v
theories/Wire.v
theories/Instance.v
theories/Commands.v
theories/X509.v
theories/X509Cert.v
theories/DefaultPlatform.v
theories/Simulator.v
theories/CertTool.v
theories/RustCrypto.v
theories/RespBuf.v
theories/Response.v
theories/Features.v
theories/Cfi.v
theories/Validation.v
theories/Lib.v
theories/Der.v
theories/DerProofs.v
theories/X509Run.v
theories/X509Spec.v
theories/X509Bytes.v
theories/X509Enc.v
theories/X509Tbs.v
theories/X509Cms.v
theories/Spec.v
theories/Exec.v
theories/Effects.v
theories/Forest.v
theories/DestroyProofs.v
theories/History.v
theories/WireSpec.v
theories/Steps.v
theories/Codec.v
theories/Reach.v
theories/Frame.v
theories/Toy.v
theories/Contract.v
theories/Denials.v
theories/CommandSpecs.v
theories/HandleProofs.v
theories/TreeProofs.v
theories/Responses.v
theories/Execute.v
theories/Walk.v
theories/Measure.v
theories/X509Out.v
theories/X509Proper.v
theories/X509Gen.v
theories/X509Read.v
theories/X509ReadOk.v
theories/X509Made.v
theories/X509Total.v
theories/X509Sane.v
theories/X509Cmd.v
theories/X509Odd.v
theories/X509Any.v
theories/X509Facts.v
theories/X509Size.v
theories/X509Fit.v
theories/X509Width.v
theories/X509Fail.v
theories/Buffers.v
theories/Fits.v
theories/KeyProofs.v
theories/ToyX509.v
theories/CryptoUse.v
theories/ExportProofs.v
theories/PlatformProofs.v
theories/RustProofs.v
theories/Reasons.v
theories/Explain.v
theories/Avail.v
theories/Ledger.v
theories/Validator.v
theories/Props_Handles.v
theories/Props_Tree.v
theories/Props_Commands.v
theories/Props_Codec.v
theories/Props_Measure.v
theories/Props_Avail.v
theories/Props_Ledger.v
theories/Props_Valid.v
theories/Props_X509.v
theories/Props_Keys.v
theories/Props_Reference.v
theories/Props_Size.v
theories/Props_Fail.v
theories/FeatureProofs.v
theories/Props_Features.v
theories/CfiProofs.v
theories/Props_Cfi.v
theories/SimulatorProofs.v
theories/Props_Simulator.v
theories/Trace.v
theories/TraceCmds.v
theories/TraceRust.v
theories/Props_Calls.v
theories/RefFaults.v
theories/Props_Harness.v
theories/GoClient.v
theories/ClientSpec.v
theories/ClientProofs.v
theories/ClientChain.v
theories/Props_Client.v
theories/ExactSize.v
theories/RefSize.v
theories/CertToolProofs.v
theories/Props_CertTool.v
theories/Viewer.v
theories/ViewerProofs.v
theories/ViewerCmd.v
theories/ViewerHeader.v
theories/Props_Viewer.v
theories/Samples.v
theories/SamplesProofs.v
theories/SamplesAvail.v
theories/Props_Samples.v
theories/PanicCheck.v
theories/PanicProofs.v
theories/Props_PanicCheck.v
theories/Suite.v
theories/SuiteProofs.v
theories/SuiteCases.v
theories/SuiteNegative.v
theories/SuiteInit.v
theories/SuiteRun.v
theories/Props_Suite.v
theories/SuiteDerive.v
theories/SuiteDeriveLive.v
theories/SuiteFollow.v
theories/SuiteDeriveState.v
theories/SuiteDeriveCases.v
theories/SuiteDeriveTests.v
theories/SuiteDeriveRun.v
theories/Props_SuiteDerive.v
theories/SuiteMax.v
theories/SuiteMaxProofs.v
theories/Props_SuiteMax.v
theories/SuiteSign.v
theories/SuiteSignProofs.v
theories/Props_SuiteSign.v
theories/SuiteChain.v
theories/SuiteChainProofs.v
theories/Props_SuiteChain.v
theories/SuiteExt.v
theories/SuiteExtProofs.v
theories/Props_SuiteExt.v
