-Q theories Verif
theories/Bytes.v
theories/GoFmt.v
theories/Go.v
theories/GoBase64.v
theories/MachInt.v
theories/Field.v
theories/SpecField.v
theories/FieldFacts.v
theories/FieldBytes.v
theories/NumTheory.v
theories/PrimeField.v
theories/SpecCurve.v
theories/FieldAlg.v
theories/SpecX25519.v
theories/EdCert.v
theories/Group.v
theories/SpecGroup.v
theories/B64Stream.v
theories/DataFile.v
theories/GoPath.v
theories/Crypto.v
theories/Keys.v
theories/SealOpen.v
theories/GoFlag.v
theories/Cmd.v
theories/SpecB64.v
theories/GoBase64Facts.v
theories/B64StreamFacts.v
theories/EncReuse.v
theories/PropsB64.v
theories/SpecFmt.v
theories/DataFileFacts.v
theories/PropsData.v
theories/ToyCrypto.v
theories/Decode.v
theories/EdGroup.v
theories/ZMul.v
theories/GroupFacts.v
theories/PointBytes.v
theories/SpecScalar.v
theories/OrderPrime.v
theories/Table.v
theories/TableCert.v
theories/TableFacts.v
theories/ScalarMult.v
theories/SlideFacts.v
theories/ScalarFacts.v
theories/Ladder.v
theories/DecodeFacts.v
theories/PropsField.v
theories/ScalarKeys.v
theories/PropsGroup.v
theories/PropsScalar.v
theories/ScalarRed.v
theories/ScalarRedFacts.v
theories/SpecEd25519.v
theories/KeysFacts.v
theories/KeyOpsFacts.v
theories/PropsKeys.v
theories/WorldFacts.v
theories/SignFacts.v
theories/SpecCrash.v
theories/GenFacts.v
theories/SignWitness.v
theories/PropsSign.v
theories/SpecSeal.v
theories/SealFacts.v
theories/OpenFacts.v
theories/RoundTrip.v
theories/BoxKeys.v
theories/PropsBox.v
theories/SealWitness.v
theories/PropsSeal.v
theories/SpecFlag.v
theories/FlagFacts.v
theories/PropsCmd.v
theories/EdLib.v
theories/EdSigFacts.v
theories/PropsRed.v
theories/PropsEd.v
theories/CryptoTables.v
theories/Sha512.v
theories/Salsa.v
theories/Bcrypt.v
theories/PrimFacts.v
theories/RealCrypto.v
theories/Vectors.v
theories/VectorFacts.v
theories/PropsReal.v
theories/SpecCmd.v
theories/CmdFacts.v
theories/PropsMain.v
theories/SpecTorn.v
theories/Torn.v
theories/TornWitness.v
theories/PropsTorn.v
theories/SpecLeak.v
theories/LeakFacts.v
theories/LeakWitness.v
theories/PropsLeak.v
theories/SealCrash.v
theories/SealCrashWitness.v
theories/PropsSealCrash.v
theories/SpecConc.v
theories/ConcFacts.v
theories/ConcGen.v
theories/ConcCalls.v
theories/ConcWitness.v
theories/PropsConc.v
theories/Footprint.v
theories/FootCalls.v
theories/FootWitness.v
theories/PropsFoot.v
theories/SpecMem.v
theories/SealMem.v
theories/MemWitness.v
theories/PropsMem.v
theories/SpecOpenBSD.v
theories/SpecInterop.v
theories/Interop.v
theories/InteropWitness.v
theories/PropsInterop.v
theories/Pointers.v
theories/SpecPointers.v
theories/PointerFacts.v
theories/PointerGroup.v
theories/PointerMult.v
theories/PointerWitness.v
theories/PointerTop.v
theories/PropsPointers.v
theories/SpecText.v
theories/TextFacts.v
theories/FaultFacts.v
theories/SpecTextCmd.v
theories/TextKeys.v
theories/TextExample.v
theories/PropsText.v
theories/SpecDecimal.v
theories/DecimalText.v
theories/SpecReport.v
theories/ReportFacts.v
theories/ReportOpen.v
theories/ReportSeal.v
theories/ReportExample.v
theories/PropsReport.v
theories/SpecPrint.v
theories/SpecHolders.v
theories/HoldersFacts.v
theories/PrintFacts.v
theories/PrintExample.v
theories/PropsPrint.v
theories/PropsFault.v
theories/PropsHolders.v
theories/Calls.v
theories/SpecCalls.v
theories/SealChain.v
theories/CallFacts.v
theories/CallSeal.v
theories/CallKeys.v
theories/CallOpen.v
theories/CallExample.v
theories/PropsCalls.v
theories/SpecPass.v
theories/PassFacts.v
theories/PropsPass.v
theories/Steps.v
theories/SpecSteps.v
theories/StepFacts.v
theories/PropsSteps.v
theories/CmdCalls.v
theories/SpecCmdCalls.v
theories/CmdCallFacts.v
theories/CmdCallEnds.v
theories/PropsCmdCalls.v
theories/WorldOs.v
theories/SimFacts.v
theories/WorldOsFacts.v
theories/SpecWorldOs.v
theories/WorldMain.v
theories/PropsWorld.v
theories/Prompts.v
theories/SpecPrompt.v
theories/PromptFacts.v
theories/PropsPrompt.v
theories/Ioutil.v
theories/SpecIoutil.v
theories/IoutilFacts.v
theories/IoutilExample.v
theories/PropsIoutil.v
theories/SpecTerminal.v
theories/TerminalFacts.v
theories/PropsTerminal.v
theories/SpecHistory.v
theories/HistoryFacts.v
theories/HistoryExample.v
theories/PropsHistory.v
theories/Code.v
theories/CodeListing.v
theories/CodeCalls.v
theories/SpecCode.v
theories/CodeFacts.v
theories/CodeBytes.v
theories/CodeLeaf.v
theories/CodeScalar.v
theories/PropsCode.v
theories/CodeWhole.v
theories/SpecWhole.v
theories/CodeWholeFacts.v
theories/CodeDecode.v
theories/PropsWhole.v
theories/CodeDouble.v
theories/CodeDoubleFacts.v
theories/PropsDouble.v
