-Q theories Verif
theories/Base.v
theories/BaseLemmas.v
theories/Buffer.v
theories/BufferSpec.v
theories/BufferProofs.v
theories/BufferProps.v
theories/NamedPipe.v
theories/NamedPipeSpec.v
theories/NamedPipeProofs.v
theories/NamedPipeProps.v
theories/Framing.v
theories/FramingSpec.v
theories/FramingProofs.v
theories/FramingProps.v
theories/Unicode.v
theories/UnicodeSpec.v
theories/UnicodeProofs.v
theories/UnicodeProps.v
theories/Strings.v
theories/StringsSpec.v
theories/StringsProofs.v
theories/StringsProps.v
theories/Text.v
theories/CmdLine.v
theories/CmdLineSpec.v
theories/CmdLineProofs.v
theories/CmdLineProps.v
theories/Adapter.v
theories/AdapterSpec.v
theories/AdapterProofs.v
theories/AdapterProps.v
theories/AdapterMain.v
theories/AdapterMainSpec.v
theories/AdapterMainProofs.v
theories/AdapterMainProps.v
theories/Spawn.v
theories/SpawnSpec.v
theories/SpawnProofs.v
theories/SpawnProps.v
theories/Rpc.v
theories/RpcSpec.v
theories/RpcProofs.v
theories/RpcProps.v
theories/ErrorObj.v
theories/ErrorObjSpec.v
theories/ErrorObjProofs.v
theories/ErrorObjProps.v
theories/Open.v
theories/OpenSpec.v
theories/OpenProofs.v
theories/OpenProps.v
theories/InputMap.v
theories/InputMapSpec.v
theories/InputMapProofs.v
theories/InputMapProps.v
theories/DefaultInputMap.v
theories/DefaultInputMapSpec.v
theories/DefaultInputMapProofs.v
theories/DefaultInputMapProps.v
theories/ConsoleInput.v
theories/ConsoleInputSpec.v
theories/ConsoleInputScan.v
theories/ConsoleInputToken.v
theories/ConsoleInputRun.v
theories/ConsoleInputProofs.v
theories/ConsoleInputDsr.v
theories/ConsoleInputProps.v
theories/ConsoleInputKeysSpec.v
theories/ConsoleInputKeys.v
theories/ConsoleInputKeysProps.v
theories/ConsoleInputMouseSpec.v
theories/ConsoleInputMouse.v
theories/ConsoleInputMore.v
theories/ConsoleInputMouseProps.v
theories/ConsoleInputMoreProps.v
theories/ConsoleLine.v
theories/ConsoleLineSpec.v
theories/ConsoleLineProofs.v
theories/ConsoleLineProps.v
theories/Terminal.v
theories/TerminalSpec.v
theories/TerminalFeed.v
theories/TerminalProofs.v
theories/TerminalInject.v
theories/TerminalTotal.v
theories/TerminalProps.v
theories/TerminalHideProofs.v
theories/TerminalHideProps.v
theories/SmallRect.v
theories/SmallRectSpec.v
theories/SmallRectProofs.v
theories/SmallRectProps.v
theories/Handles.v
theories/HandlesSpec.v
theories/HandlesProofs.v
theories/HandlesProps.v
theories/AgentLoop.v
theories/AgentLoopSpec.v
theories/AgentLoopProofs.v
theories/AgentTitleProofs.v
theories/AgentTotalProofs.v
theories/AgentStreamProofs.v
theories/AgentLoopProps.v
theories/DebugFlag.v
theories/DebugFlagSpec.v
theories/DebugFlagProofs.v
theories/DebugFlagProps.v
theories/ConsoleFont.v
theories/ConsoleFontSpec.v
theories/ConsoleFontProofs.v
theories/ConsoleFontProps.v
theories/Console.v
theories/LargeRead.v
theories/LargeReadSpec.v
theories/LargeReadProofs.v
theories/LargeReadProps.v
theories/Scraper.v
theories/AgentConsole.v
theories/ScraperSpec.v
theories/ScraperProofs.v
theories/ScraperExamples.v
theories/ScraperProps.v
theories/Freeze.v
theories/FreezeProofs.v
theories/FreezeProps.v
theories/ResizeSpec.v
theories/ResizeProofs.v
theories/ResizeProps.v
theories/DirectSpec.v
theories/DirectProofs.v
theories/DirectProps.v
theories/StreamSpec.v
theories/StreamProofs.v
theories/SetupProofs.v
theories/StreamProps.v
theories/EndToEndSpec.v
theories/EndToEndProofs.v
theories/EndToEndDirect.v
theories/EndToEndProps.v
theories/KeptSpec.v
theories/KeptProofs.v
theories/KeptProps.v
theories/Security.v
theories/SecuritySpec.v
theories/SecurityProofs.v
theories/SecurityProps.v
theories/Trace.v
theories/TraceSpec.v
theories/TraceProofs.v
theories/TraceProps.v
theories/Location.v
theories/LocationSpec.v
theories/LocationProofs.v
theories/LocationProps.v
theories/Helper.v
theories/HelperSpec.v
theories/HelperProofs.v
theories/HelperProps.v
theories/Pool.v
theories/PoolSpec.v
theories/PoolProofs.v
theories/PoolProps.v
theories/Loop.v
theories/LoopSpec.v
theories/LoopProofs.v
theories/LoopProps.v
theories/ShowInput.v
theories/ShowInputSpec.v
theories/ShowInputProofs.v
theories/ShowInputProps.v
theories/ShowKey.v
theories/ShowKeySpec.v
theories/ShowKeyProofs.v
theories/ShowKeyProps.v
theories/Messages.v
theories/MessagesSpec.v
theories/MessagesProofs.v
theories/MessagesProps.v
theories/WinVersion.v
theories/WinVersionSpec.v
theories/WinVersionProofs.v
theories/WinVersionProps.v
theories/FontApi.v
theories/FontApiSpec.v
theories/FontApiProofs.v
theories/FontApiProps.v
theories/Assertion.v
theories/AssertionSpec.v
theories/AssertionProofs.v
theories/AssertionProps.v
theories/SecLife.v
theories/SecLifeSpec.v
theories/SecLifeProofs.v
theories/SecLifeProps.v
