-Q theories Verif
theories/Base.v
theories/BaseLemmas.v
theories/Num.v
theories/NumSpec.v
theories/NumProofs.v
theories/NumProps.v
theories/Strs.v
theories/StrFuncs.v
theories/StrSpec.v
theories/StrProofs.v
theories/StrProps.v
theories/NumText.v
theories/NumTextSpec.v
theories/NumTextProofs.v
theories/NumPrintProofs.v
theories/NumConstProofs.v
theories/NumTextProps.v
theories/Hash.v
theories/HashProofs.v
theories/Vars.v
theories/VarsSpec.v
theories/VarsProofs.v
theories/VarsSim.v
theories/VarsRun.v
theories/VarsHist.v
theories/VarsProps.v
theories/Labels.v
theories/LabelsProofs.v
theories/LabelsProps.v
theories/Compress.v
theories/CompressSpec.v
theories/CompressProofs.v
theories/CompressProps.v
theories/Input.v
theories/InputSpec.v
theories/InputProofs.v
theories/InputProps.v
theories/Console.v
theories/ConsoleSpec.v
theories/ConsoleProofs.v
theories/ConsoleProps.v
theories/Background.v
theories/BackgroundProofs.v
theories/BackgroundProps.v
theories/Tokens.v
theories/ExprSpec.v
theories/ExprProofs.v
theories/EvalProofs.v
theories/Bytecode.v
theories/BytecodeSpec.v
theories/BytecodeProofs.v
theories/BytecodeProps.v
theories/Runner.v
theories/RunnerSpec.v
theories/RunnerProofs.v
theories/ExecProofs.v
theories/StmtSpec.v
theories/StmtProofs.v
theories/EvalDim.v
theories/EvalLine.v
theories/FlowSpec.v
theories/FlowProofs.v
theories/FlowLine.v
theories/FlowDemo.v
theories/FlowProps.v
theories/SysVars.v
theories/SysVarsSpec.v
theories/SysVarsProps.v
theories/Sort.v
theories/SortSpec.v
theories/SortProofs.v
theories/SortProps.v
theories/Memory.v
theories/MemorySpec.v
theories/MemoryProps.v
theories/Resources.v
theories/ResourcesSpec.v
theories/ResourcesProofs.v
theories/ResourcesProps.v
theories/ChrCol.v
theories/ChrColProps.v
theories/ForSpec.v
theories/ForProofs.v
theories/ForSkip.v
theories/ForProps.v
theories/Files.v
theories/FilesSpec.v
theories/FilesProofs.v
theories/FilesProps.v
theories/InitProps.v
theories/Data.v
theories/DataSpec.v
theories/DataProofs.v
theories/DataProps.v
theories/Graphics.v
theories/GraphicsSpec.v
theories/GraphicsProofs.v
theories/GraphicsProps.v
theories/GraphicsLine.v
theories/GraphicsCopy.v
theories/GraphicsPaint.v
theories/GraphicsState.v
theories/GraphicsChr.v
theories/Sprites.v
theories/SpritesSpec.v
theories/SpritesProofs.v
theories/SpritesMove.v
theories/SpritesArgs.v
theories/SpritesAnim.v
theories/SpritesHit.v
theories/LineInput.v
theories/LineInputSpec.v
theories/LineInputProofs.v
theories/LineInputProps.v
theories/LineInputFields.v
theories/TokTest.v
theories/TokTestSpec.v
theories/TokTestProofs.v
theories/TokTestTypes.v
theories/TokTestProps.v
theories/Pool.v
theories/PoolSpec.v
theories/PoolProofs.v
theories/PoolProps.v
theories/Lexer.v
theories/LexSpec.v
theories/LexProofs.v
theories/LexProps.v
theories/TypeSpec.v
theories/TypeSound.v
theories/TypeProps.v
theories/ProgSpec.v
theories/Link.v
theories/ProgProofs.v
theories/ProgSkip.v
theories/ProgSim.v
theories/ProgEnd.v
theories/ProgProps.v
theories/HostSim.v
theories/Codes.v
theories/Machine.v
theories/Ideal.v
theories/IdealOps.v
theories/IdealVal.v
theories/MachineSim.v
theories/MachineHost.v
theories/MachineProps.v
theories/HostData.v
theories/MachineData.v
theories/IdealData.v
theories/DataHost.v
theories/DataProgProps.v
theories/Ask.v
theories/IdealAsk.v
theories/AskProofs.v
theories/AskHost.v
theories/AskProps.v
theories/Panel.v
theories/PanelSpec.v
theories/PanelProofs.v
theories/PanelProps.v
theories/Display.v
theories/DisplaySpec.v
theories/DisplayProofs.v
theories/DisplayProps.v
theories/Acls.v
theories/AclsRun.v
theories/AclsProps.v
theories/AclsBlack.v
theories/Direct.v
theories/IdealDirect.v
theories/DirectProofs.v
theories/DirectProps.v
theories/DirectTypes.v
theories/Draw.v
theories/IdealDraw.v
theories/DrawProofs.v
theories/DrawHost.v
theories/DrawProps.v
theories/Tiles.v
theories/IdealTiles.v
theories/TilesProofs.v
theories/TilesHost.v
theories/TilesProps.v
theories/Colours.v
theories/IdealColours.v
theories/ColoursProofs.v
theories/ColoursProps.v
