-Q theories Verif
theories/Base.v
theories/Const.v
theories/QEnc.v
theories/QDec.v
theories/Crypto.v
theories/Util.v
theories/ShortCircuit.v
theories/Sign.v
theories/Params.v
theories/Verify.v
theories/RepoTests.v
theories/RepoTests2.v
theories/MakeMessage.v
theories/RepoTests3.v
theories/Spec.v
theories/BaseFacts.v
theories/DecSpec.v
theories/DecFacts.v
theories/DecSkip.v
theories/DecCtx.v
theories/ParamFacts.v
theories/DecSim.v
theories/VerifyDec.v
theories/SignSpec.v
theories/VerifySpec.v
theories/BucketFacts.v
theories/LabelFacts.v
theories/VerifySafe.v
theories/VerifyFacts.v
theories/EncFacts.v
theories/UtilFacts.v
theories/SignFacts.v
theories/SignProofs.v
theories/SignMore.v
theories/SignMore2.v
theories/PieceSpec.v
theories/Piece.v
theories/Toy.v
theories/SignMore3.v
theories/VerifyCheck.v
theories/Unique.v
theories/Parts.v
theories/VerifyTop.v
theories/RoundTrip.v
theories/VerifyMore.v
theories/VerifyMore2.v
theories/VerifyMore3.v
theories/VerifyMore4.v
theories/Sha256.v
theories/Sha256Spec.v
theories/Sha256Facts.v
theories/Algs.v
theories/TestCrypto.v
theories/OpenSSL.v
theories/Psa.v
theories/AdapterSpec.v
theories/OpenSSLFacts.v
theories/OpenSSLFacts2.v
theories/AdapterFacts.v
theories/PsaFacts.v
theories/SupportFacts.v
theories/SignSafe.v
theories/AdapterTop.v
theories/DemoLib.v
theories/Demo.v
theories/HashUse.v
theories/Prop_Sign.v
theories/Prop_Verify.v
theories/Prop_Adapter.v
theories/ApiSpec.v
theories/ApiFacts.v
theories/Prop_Api.v
theories/PassSpec.v
theories/PassFacts.v
theories/Prop_Pass.v
theories/BuildSpec.v
theories/BuildFacts.v
theories/BuildAdapter.v
theories/Prop_Build.v
theories/MessageSpec.v
theories/MessageFacts.v
theories/Prop_Message.v
theories/ErrorSpec.v
theories/ErrorFacts.v
theories/ErrorTop.v
theories/Prop_Error.v
theories/LibrarySpec.v
theories/LibraryFacts.v
theories/Prop_Library.v
theories/ForgerySpec.v
theories/ForgeryFacts.v
theories/Prop_Forgery.v
theories/SignErrorSpec.v
theories/SignErrorFacts.v
theories/PieceErrorFacts.v
theories/Prop_SignError.v
theories/LiveSpec.v
theories/LiveFacts.v
theories/LiveAdapter.v
theories/LiveDemo.v
theories/Prop_Live.v
theories/Examples.v
theories/ExampleSpec.v
theories/ExampleFacts.v
theories/ExampleFacts2.v
theories/Prop_Example.v
theories/WideSpec.v
theories/WideFacts.v
theories/ItemSpec.v
theories/FormedFacts.v
theories/OpensFacts.v
theories/ItemFacts.v
theories/TailFacts.v
theories/BrokenSpec.v
theories/BrokenFacts.v
theories/IndefSpec.v
theories/IndefFacts.v
theories/Prop_Item.v
theories/Prop_Broken.v
theories/Prop_Indef.v
theories/OptionSpec.v
theories/OptionFacts.v
theories/Prop_Option.v
theories/InterSpec.v
theories/InterFacts.v
theories/Prop_Inter.v
theories/FaultSpec.v
theories/FaultFacts.v
theories/Prop_Fault.v
theories/UnauthSpec.v
theories/UnauthFacts.v
theories/Prop_Unauth.v
theories/Prop_Cases2.v
theories/Prop_Cases3.v
theories/Prop_Cases4.v
theories/Prop_Cases.v
theories/ForgeryLib.v
theories/Prop_ForgeryLib.v
theories/VerdictSpec.v
theories/VerdictFacts.v
theories/Prop_Verdict.v
theories/SizeSpec.v
theories/SizeFacts.v
theories/Prop_Size.v
theories/ShortSpec.v
theories/ShortFacts.v
theories/Prop_Short.v
theories/HashSpec.v
theories/HashFacts.v
theories/Prop_Hash.v
theories/LeakSpec.v
theories/LeakFacts.v
theories/Prop_Leak.v
theories/ExactSpec.v
theories/ExactFacts.v
theories/Prop_Exact.v
theories/ProtocolSpec.v
theories/ProtocolFacts.v
theories/ProtocolVerify.v
theories/Prop_Protocol.v
theories/KeyErrorSpec.v
theories/KeyErrorFacts.v
theories/Prop_KeyError.v
theories/KidSpec.v
theories/KidFacts.v
theories/Prop_Kid.v
theories/RunTests.v
theories/RunSpec.v
theories/RunFacts.v
theories/Prop_Run.v
theories/HeaderSpec.v
theories/HeaderFacts.v
theories/Prop_Header.v
theories/WholeSpec.v
theories/WholeFacts.v
theories/Prop_Whole.v
theories/CanonSpec.v
theories/CanonFacts.v
theories/Prop_Canon.v
theories/ExampleRun.v
theories/ExampleRunSpec.v
theories/ExampleRunFacts.v
theories/Prop_ExampleRun.v
theories/ExampleMain.v
theories/ExampleMainSpec.v
theories/ExampleMainFacts.v
theories/Prop_ExampleMain.v
theories/SvTests.v
theories/SvSpec.v
theories/SvFacts.v
theories/SvFacts2.v
theories/SvFacts3.v
theories/Prop_Sv.v
theories/MakeMessageSpec.v
theories/MakeMessageFacts.v
theories/MakeMessageFacts2.v
theories/Prop_Make.v
theories/Prop_Entry.v
