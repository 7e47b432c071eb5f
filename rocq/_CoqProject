-Q theories Verif
theories/Model/GoStr.v
theories/Model/Errors.v
theories/Model/Version.v
theories/Model/Utf8.v
theories/Model/Validate.v
theories/Model/Args.v
theories/Model/Path.v
theories/Model/Find.v
theories/Model/Json.v
theories/Model/Num.v
theories/Model/GoJson.v
theories/Model/Base64.v
theories/Model/NetIP.v
theories/Model/Types.v
theories/Model/Heap.v
theories/Model/GetResult.v
theories/Model/Copies.v
theories/Model/Conf.v
theories/Model/Invoke.v
theories/Model/Prog.v
theories/Model/Api.v
theories/Model/Skel.v
theories/Model/Delegate.v
theories/Model/Cnitool.v
theories/Proofs/StrP.v
theories/Spec/VersionSpec.v
theories/Spec/NameSpec.v
theories/Spec/JsonSpec.v
theories/Spec/ConfSpec.v
theories/Spec/QuoteSpec.v
theories/Proofs/QuoteP.v
theories/Proofs/VersionP.v
theories/Proofs/Utf8P.v
theories/Proofs/ValidateP.v
theories/Proofs/SelectP.v
theories/Properties/P_Basic.v
theories/Proofs/JsonP.v
theories/Proofs/JsonRT.v
theories/Proofs/NumP.v
theories/Spec/TypesSpec.v
theories/Spec/PanicSpec.v
theories/Proofs/NetIPP.v
theories/Proofs/GoJsonP.v
theories/Properties/P_Json.v
theories/Spec/EnvSpec.v
theories/Proofs/EnvP.v
theories/Properties/P_Env.v
theories/Spec/PathSpec.v
theories/Proofs/PathP.v
theories/Properties/P_Find.v
theories/Proofs/ConfP.v
theories/Proofs/TypesP.v
theories/Proofs/DecodeP.v
theories/Proofs/ConvP.v
theories/Proofs/PanicP.v
theories/Proofs/ShapeP.v
theories/Proofs/TotalP.v
theories/Proofs/BuildP.v
theories/Proofs/LoadP.v
theories/Spec/FileSpec.v
theories/Proofs/FilesP.v
theories/Properties/P_Conf.v
theories/Spec/RunSpec.v
theories/Spec/CacheSpec.v
theories/Spec/LiveSpec.v
theories/Spec/HistSpec.v
theories/Spec/MapSpec.v
theories/Proofs/ProgP.v
theories/Proofs/ApiP.v
theories/Proofs/Base64P.v
theories/Proofs/CacheP.v
theories/Proofs/VerbP.v
theories/Proofs/SingleP.v
theories/Proofs/LiveP.v
theories/Proofs/ConfineP.v
theories/Proofs/EntryP.v
theories/Properties/P_Api.v
theories/Properties/P_Single.v
theories/Properties/P_Conc.v
theories/Spec/InvokeSpec.v
theories/Spec/ErrorSpec.v
theories/Proofs/InvokeP.v
theories/Properties/P_Invoke.v
theories/Spec/SkelSpec.v
theories/Proofs/SkelP.v
theories/Properties/P_Skel.v
theories/Properties/P_Types.v
theories/Properties/P_Panic.v
theories/Properties/P_GetResult.v
theories/Properties/P_Copy.v
theories/Properties/P_Prev.v
theories/Properties/P_Live.v
theories/Proofs/HistP.v
theories/Proofs/ListP.v
theories/Proofs/MapP.v
theories/Proofs/LegacyP.v
theories/Properties/P_Cache.v
theories/Properties/P_Old.v
theories/Proofs/CrashP.v
theories/Properties/P_Crash.v
theories/Spec/ToolSpec.v
theories/Proofs/ToolP.v
theories/Properties/P_Tool.v
theories/Properties/P_E2E.v
theories/Spec/AliasSpec.v
theories/Spec/CopySpec.v
theories/Proofs/HeapP.v
theories/Properties/P_Alias.v
theories/Spec/MarshalSpec.v
theories/Proofs/MarshalP.v
theories/Properties/P_Marshal.v
theories/Spec/TouchSpec.v
theories/Proofs/TouchP.v
theories/Properties/P_Touch.v
theories/Spec/SettledSpec.v
theories/Properties/P_Settled.v
theories/Spec/AddrSpec.v
theories/Spec/FormSpec.v
theories/Spec/DocSpec.v
theories/Proofs/AddrP.v
theories/Proofs/DocP.v
theories/Proofs/TidyP.v
theories/Properties/P_Addr.v
theories/Properties/P_Form.v
theories/Spec/RestartSpec.v
theories/Properties/P_Restart.v
theories/Properties/P_Chain.v
theories/Properties/P_Doc.v
theories/Spec/NumberSpec.v
theories/Proofs/FloatP.v
theories/Proofs/LitP.v
theories/Proofs/ShortP.v
theories/Proofs/LayoutP.v
theories/Proofs/CanonP.v
theories/Properties/P_Number.v
theories/Spec/RefuseSpec.v
theories/Properties/P_Refuse.v
theories/Model/Debug.v
theories/Spec/DebugSpec.v
theories/Properties/P_Debug.v
theories/Spec/BlameSpec.v
theories/Properties/P_Blame.v
theories/Properties/P_Inherit.v
theories/Spec/CollectSpec.v
theories/Proofs/CollectP.v
theories/Properties/P_Collect.v
theories/Spec/CrowdSpec.v
theories/Proofs/CrowdP.v
theories/Properties/P_Crowd.v
theories/Spec/OddSpec.v
theories/Properties/P_Odd.v
theories/Spec/AgainSpec.v
theories/Proofs/AgainP.v
theories/Properties/P_Again.v
theories/Spec/RecordSpec.v
theories/Proofs/RecordP.v
theories/Properties/P_Record.v
theories/Spec/StepsSpec.v
theories/Properties/P_Steps.v
theories/Spec/LookSpec.v
theories/Proofs/LookP.v
theories/Properties/P_Look.v
theories/Spec/RaceSpec.v
theories/Spec/RetrySpec.v
theories/Proofs/RaceP.v
theories/Properties/P_Race.v
theories/Properties/P_Anything.v
theories/Properties/P_Retry.v
theories/Model/Share.v
theories/Spec/ShareSpec.v
theories/Properties/P_Share.v
theories/Spec/UnaskedSpec.v
theories/Properties/P_Unasked.v
theories/Model/Noop.v
theories/Spec/NoopSpec.v
theories/Proofs/NoopP.v
theories/Properties/P_Noop.v
theories/Spec/GrammarSpec.v
theories/Proofs/GrammarP.v
theories/Properties/P_Grammar.v
theories/Spec/PairSpec.v
theories/Spec/UpSpec.v
theories/Spec/CleanSpec.v
theories/Properties/P_Pair.v
theories/Properties/P_Upconv.v
theories/Properties/P_Clean.v
theories/Properties/P_Declare.v
theories/Properties/P_Sweep.v
