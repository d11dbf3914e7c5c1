-Q theories Verif

theories/Base/Prelude.v
theories/Base/ZMap.v
theories/Spec/MapSpec.v
theories/Model/HashTable.v
theories/Base/Lemmas.v
theories/Proof/HashTable.v
theories/Proof/NumberTheory.v
theories/Proof/HashTableProbe.v
theories/Proof/HashTableTotal.v
theories/Props/HashTable.v
theories/Spec/PoolSpec.v
theories/Model/Pool.v
theories/Proof/Pool.v
theories/Model/OLabel.v
theories/Spec/GCSpec.v
theories/Proof/GC.v
theories/Proof/OLabel.v
theories/Proof/PoolCases.v
theories/Props/Pool.v
theories/Spec/TextSpec.v
theories/Model/Util.v
theories/Model/File.v
theories/Model/Configuration.v
theories/Model/SymbolTable.v
theories/Proof/Text.v
theories/Proof/Number.v
theories/Proof/Lines.v
theories/Proof/LinesExact.v
theories/Proof/NumberExact.v
theories/Proof/SymbolsExact.v
theories/Proof/ConfigExact.v
theories/Proof/Config.v
theories/Proof/Symbols.v
theories/Proof/TextCases.v
theories/Props/Text.v
theories/Props/Config.v
theories/Model/Binary.v
theories/Model/Vector.v
theories/Model/Pcm.v
theories/Spec/AudioSpec.v
theories/Spec/PcmSpec.v
theories/Proof/Binary.v
theories/Proof/Pcm.v
theories/Proof/PcmCases.v
theories/Proof/PcmHuge.v
theories/Model/Arith.v
theories/Model/Fbank.v
theories/Proof/Loop.v
theories/Proof/Fbank.v
theories/Proof/FbankStream.v
theories/Spec/FbankSpec.v
theories/Proof/ZOps.v
theories/Proof/FbankTotal.v
theories/Model/Nnet.v
theories/Model/Am.v
theories/Props/Audio.v
theories/Spec/AmSpec.v
theories/Proof/Windows.v
theories/Proof/Am.v
theories/Spec/NnetSpec.v
theories/Proof/Nnet.v
theories/Proof/AmCases.v
theories/Proof/FbankFrame.v
theories/Proof/Layers.v
theories/Props/Layers.v
theories/Props/Am.v
theories/Props/Fbank.v
theories/Model/Formats.v
theories/Spec/FormatSpec.v
theories/Proof/Formats.v
theories/Props/Formats.v
theories/Model/Fst.v
theories/Spec/FstSpec.v
theories/Proof/Fst.v
theories/Proof/Lm.v
theories/Props/Fst.v
theories/Model/Decoder.v
theories/Spec/DecoderSpec.v
theories/Spec/TotalSpec.v
theories/Proof/DecoderBase.v
theories/Proof/Decoder.v
theories/Proof/DecoderRun.v
theories/Proof/DecoderClosed.v
theories/Proof/DecoderGc.v
theories/Proof/DecoderCutoff.v
theories/Proof/DecoderBest.v
theories/Proof/DecoderTotal.v
theories/Proof/QOps.v
theories/Proof/DecoderLm.v
theories/Proof/DecoderMain.v
theories/Proof/DecoderCases.v
theories/Props/Decoder.v
theories/Model/Stt.v
theories/Spec/SttSpec.v
theories/Spec/SessionSpec.v
theories/Proof/Stt.v
theories/Proof/SttCut.v
theories/Proof/SttTotal.v
theories/Model/Main.v
theories/Spec/ProgramSpec.v
theories/Proof/SttCases.v
theories/Props/Stt.v
theories/Proof/Program.v
theories/Proof/ProgramCases.v
theories/Props/Program.v
theories/Model/Cmvn.v
theories/Model/Matrix.v
theories/Model/Quantize.v
theories/Model/FbankInit.v
theories/Model/Exact.v
theories/Spec/RealSpec.v
theories/Spec/MatrixSpec.v
theories/Spec/QuantizeSpec.v
theories/Proof/Softmax.v
theories/Proof/Cmvn.v
theories/Proof/Matrix.v
theories/Proof/MatrixResize.v
theories/Proof/MatrixCases.v
theories/Proof/Quantize.v
theories/Proof/QuantizeCases.v
theories/Props/Softmax.v
theories/Props/Cmvn.v
theories/Props/Matrix.v
theories/Props/Quantize.v
theories/Model/Srfft.v
theories/Spec/FftSpec.v
theories/Spec/MelSpec.v
theories/Proof/SrfftSteps.v
theories/Proof/SrfftTable.v
theories/Proof/SrfftCalls.v
theories/Proof/Fft.v
theories/Proof/FftCases.v
theories/Proof/FbankInit.v
theories/Proof/Mel.v
theories/Props/Fft.v
theories/Props/Mel.v
theories/Model/Loading.v
theories/Spec/LoadingSpec.v
theories/Proof/Loading.v
theories/Proof/LoadingCases.v
theories/Props/Loading.v
theories/Model/Ieee.v
theories/Proof/Rne.v
theories/Proof/Ieee.v
theories/Proof/IeeeLaws.v
theories/Proof/IeeeCases.v
theories/Proof/TotalCases.v
theories/Props/Ieee.v
theories/Props/Total.v
theories/Model/IeeeFbank.v
theories/Spec/LibmSpec.v
theories/Proof/Relate.v
theories/Proof/IeeeBound.v
theories/Proof/FbankBound.v
theories/Proof/FiniteCases.v
theories/Props/Finite.v
theories/Model/Python.v
theories/Model/Tools.v
theories/Model/ConvertAm.v
theories/Spec/ToolSpec.v
theories/Spec/AmTextSpec.v
theories/Proof/Python.v
theories/Proof/Tools.v
theories/Proof/ToolsMore.v
theories/Proof/ToolCases.v
theories/Proof/ConvertAm.v
theories/Proof/AmVerify.v
theories/Proof/ConvertCases.v
theories/Proof/ToolsWrap.v
theories/Proof/ToolsCut.v
theories/Props/Tools.v
theories/Props/ConvertAm.v
theories/Spec/EndSpec.v
theories/Proof/EndToEnd.v
theories/Proof/EndCases.v
theories/Props/EndToEnd.v
theories/Spec/ValueSpec.v
theories/Proof/IeeeReal.v
theories/Proof/IeeeClose.v
theories/Proof/MelClose.v
theories/Proof/MelCloseCases.v
theories/Proof/ExtractorUse.v
theories/Props/Extractor.v
theories/Model/ConvertFst.v
theories/Spec/ConvertFstSpec.v
theories/Proof/ConvertFst.v
theories/Props/ConvertFst.v
theories/Spec/ChainSpec.v
theories/Proof/Chain.v
theories/Proof/ChainText.v
theories/Proof/ChainCases.v
theories/Props/Chain.v
theories/Spec/ListSpec.v
theories/Proof/EndList.v
theories/Proof/ListCases.v
theories/Props/EndList.v
theories/Model/Gemm.v
theories/Spec/GemmSpec.v
theories/Proof/Gemm.v
theories/Proof/GemmReal.v
theories/Proof/GemmOver.v
theories/Proof/GemmCases.v
theories/Props/Gemm.v
theories/Model/Own.v
theories/Spec/OwnSpec.v
theories/Proof/Own.v
theories/Proof/OwnCases.v
theories/Props/Own.v
theories/Model/MatOwn.v
theories/Spec/MatOwnSpec.v
theories/Proof/MatOwn.v
theories/Proof/MatOwnCases.v
theories/Props/MatOwn.v
theories/Model/Api.v
theories/Spec/ApiSpec.v
theories/Proof/Api.v
theories/Proof/ApiError.v
theories/Proof/ApiSession.v
theories/Proof/ApiCases.v
theories/Props/Api.v
theories/Model/ConstFst.v
theories/Spec/ConstFstSpec.v
theories/Spec/GraphModelSpec.v
theories/Proof/ConstFst.v
theories/Proof/ConstFstRead.v
theories/Proof/ConstFstFile.v
theories/Proof/ConstFstGraph.v
theories/Proof/ConstFstCases.v
theories/Proof/ConstFstText.v
theories/Props/ConstFst.v
theories/Spec/LoadFaultSpec.v
theories/Proof/LoadFault.v
theories/Proof/LoadFaultLm.v
theories/Proof/LoadFaultInit.v
theories/Proof/LoadFaultCases.v
theories/Props/LoadFault.v
theories/Model/Handles.v
theories/Spec/HandleSpec.v
theories/Proof/Handles.v
theories/Proof/HandlesInit.v
theories/Proof/HandlesMain.v
theories/Proof/HandleCases.v
theories/Props/Handles.v
theories/Model/Views.v
theories/Spec/ViewSpec.v
theories/Proof/Views.v
theories/Proof/ViewsStep.v
theories/Proof/ViewCases.v
theories/Props/Views.v
theories/Model/Messages.v
theories/Proof/Messages.v
theories/Spec/MessageSpec.v
theories/Proof/MessagesText.v
theories/Proof/MessagesInit.v
theories/Proof/MessagesCut.v
theories/Proof/MessageCases.v
theories/Props/Messages.v
theories/Spec/CallTextSpec.v
theories/Proof/CallTexts.v
theories/Props/CallTexts.v
theories/Spec/CommandSpec.v
theories/Proof/Command.v
theories/Proof/CommandUse.v
theories/Props/Command.v
theories/Proof/EndDirect.v
theories/Proof/EndRefuted.v
theories/Props/EndRefuted.v
theories/Spec/PlainSpec.v
theories/Proof/PlainCosts.v
theories/Proof/PlainUse.v
theories/Proof/PlainCases.v
theories/Props/Plain.v
theories/Spec/ExpSpec.v
theories/Proof/ExpLimits.v
theories/Proof/ExpUse.v
theories/Proof/ExpProgram.v
theories/Proof/ExpCases.v
theories/Props/Exp.v
theories/Model/Build.v
theories/Spec/BuildSpec.v
theories/Proof/Build.v
theories/Proof/BuildCases.v
theories/Props/Build.v
theories/Spec/LmPlainSpec.v
theories/Proof/LmPlain.v
theories/Proof/LmCosts.v
theories/Proof/LmUse.v
theories/Proof/LmCases.v
theories/Props/LmPlain.v
theories/Spec/CheckedSpec.v
theories/Proof/Checked.v
theories/Proof/CheckedCases.v
theories/Props/Checked.v
theories/Spec/CloseSpec.v
theories/Proof/CloseCosts.v
theories/Proof/CloseUse.v
theories/Proof/CloseCases.v
theories/Proof/CloseChecked.v
theories/Proof/CloseCheckedCases.v
theories/Props/Close.v
theories/Proof/Whole.v
theories/Proof/WholeCases.v
theories/Proof/WholePrint.v
theories/Props/Whole.v
theories/Model/CharTok.v
theories/Spec/CharTokSpec.v
theories/Proof/CharTok.v
theories/Proof/CharTokList.v
theories/Proof/CharTokUtf8.v
theories/Props/CharTok.v
theories/Model/ConvertFstText.v
theories/Spec/ConvertTextSpec.v
theories/Proof/ConvertFstText.v
theories/Props/ConvertFstText.v
theories/Spec/CharactersSpec.v
theories/Proof/Characters.v
theories/Props/Characters.v
