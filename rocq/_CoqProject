-Q theories Verif
theories/PyNum.v
theories/Units.v
theories/BoxModel.v
theories/Engine.v
theories/Anonymize.v
theories/NumFacts.v
theories/UnitsSpec.v
theories/UnitsFacts.v
theories/UnitsProps.v
theories/BoxSpec.v
theories/BoxFacts.v
theories/BoxProps.v
theories/EnginePure.v
theories/EngineFacts.v
theories/EngineSpec.v
theories/EngineTree.v
theories/EngineWidth.v
theories/EngineExamples.v
theories/EngineWProps.v
theories/EngineHeight.v
theories/EngineHProps.v
theories/EngineInv.v
theories/EngineIProps.v
theories/EngineTotal.v
theories/EngineTProps.v
theories/EngineCong.v
theories/EngineCProps.v
theories/EngineReplaced.v
theories/EngineRel.v
theories/EngineRProps.v
theories/Float64.v
theories/PyStr.v
theories/Colors.v
theories/Values.v
theories/Parser.v
theories/Choices.v
theories/Shorthand.v
theories/Decl.v
theories/DeclSpec.v
theories/StrFacts.v
theories/DeclFacts.v
theories/DeclNorm.v
theories/DeclErrors.v
theories/DeclProps.v
theories/DeclProps2.v
theories/TextFacts.v
theories/Wrappers.v
theories/ParseSpec.v
theories/UnitsParseProps.v
theories/ColorSpec.v
theories/ColorFacts.v
theories/ColorText.v
theories/ColorProps.v
theories/ParserSpec.v
theories/ParserFacts.v
theories/ParserProps.v
theories/DeclProps3.v
theories/EngineSim.v
theories/Computed.v
theories/ComputedSpec.v
theories/ComputedFacts.v
theories/ComputedProps.v
theories/EngineFuel.v
theories/EngineHSpec.v
theories/EngineHidden.v
theories/EngineHdProps.v
theories/AcceptSpec.v
theories/AcceptProps.v
theories/EngineGrid.v
theories/EngineGSpec.v
theories/EngineGProps.v
theories/RefLayout.v
theories/RefFacts.v
theories/RefProps.v
theories/FloatFacts.v
theories/FloatUnits.v
theories/FloatUnitsFacts.v
theories/FloatSpec.v
theories/FloatProps.v
theories/FloatTextProps.v
theories/Text.v
theories/TextSpec.v
theories/TextProps.v
theories/Classes.v
theories/ClassSpec.v
theories/ClassProps.v
theories/HistSpec.v
theories/HistProps.v
theories/OkSpec.v
theories/OkFacts.v
theories/OkProps.v
theories/MoveSpec.v
theories/MoveProps.v
theories/EffectSpec.v
theories/EffectProps.v
theories/EdgeSpec.v
theories/EdgeProps.v
theories/SkipSpec.v
theories/SkipProps.v
theories/LocalSpec.v
theories/LocalProps.v
theories/DisplaySpec.v
theories/DisplayProps.v
theories/FaultSpec.v
theories/FaultFacts.v
theories/FaultProps.v
theories/EngineArith.v
theories/EngineArithFacts.v
theories/EngineFFacts.v
theories/EngineFSpec.v
theories/EngineFBound.v
theories/EngineFProps.v
theories/PixelSpec.v
theories/PixelFacts.v
theories/PixelProps.v
theories/PushSpec.v
theories/PushProps.v
theories/SymSpec.v
theories/SymProps.v
theories/OrderSpec.v
theories/OrderProps.v
theories/ReadSpec.v
theories/ReadProps.v
theories/Repr.v
theories/IntText.v
theories/ReprSpec.v
theories/ReprProps.v
theories/WrapSpec.v
theories/WrapProps.v
theories/WrittenSpec.v
theories/WrittenProps.v
theories/PercentProps.v
theories/AxisSpec.v
theories/AxisProps.v
theories/MonoSpec.v
theories/MonoProps.v
theories/QuoteSpec.v
theories/QuoteProps.v
theories/FlowSpec.v
theories/FlowProps.v
theories/NarrowSpec.v
theories/NarrowProps.v
theories/FuncSpec.v
theories/FuncProps.v
theories/RaiseSpec.v
theories/RaiseProps.v
theories/AnyColorSpec.v
theories/AnyColorProps.v
theories/GrammarSpec.v
theories/GrammarProps.v
theories/ShortSpec.v
theories/ShortProps.v
theories/TableSpec.v
theories/TableProps.v
theories/EditSpec.v
theories/EditProps.v
theories/Angle.v
theories/AngleSpec.v
theories/AngleProps.v
theories/Misc.v
theories/MiscSpec.v
theories/MiscProps.v
theories/HslFloat.v
theories/HslFloatSpec.v
theories/HslFloatProps.v
theories/ReorderSpec.v
theories/ReorderProps.v
theories/SpacerSpec.v
theories/SpacerProps.v
theories/TailSpec.v
theories/TailProps.v
theories/EditOkProps.v
theories/ScriptSpec.v
theories/ScriptProps.v
theories/ShareSpec.v
theories/ShareProps.v
theories/ModeSpec.v
theories/ModeProps.v
theories/SwapSpec.v
theories/SwapProps.v
theories/Rooted.v
theories/RootedSpec.v
theories/RootedProps.v
theories/PyPageSpec.v
theories/PyPageProps.v
theories/AnonSpec.v
theories/AnonProps.v
theories/SessionSpec.v
theories/SessionProps.v
theories/Cost.v
theories/CostSpec.v
theories/CostFacts.v
theories/CostProps.v
theories/AbsDocSpec.v
theories/AbsDocProps.v
theories/EscapeSpec.v
theories/EscapeFacts.v
theories/EscapeProps.v
theories/DepthSpec.v
theories/DepthFacts.v
theories/DepthProps.v
theories/JoinSpec.v
theories/JoinProps.v
theories/TradeSpec.v
theories/TradeProps.v
theories/ConvertSpec.v
theories/ConvertProps.v
theories/PinSpec.v
theories/PinProps.v
theories/WholeSpec.v
theories/WholeFacts.v
theories/WholeProps.v
theories/FreezeSpec.v
theories/FreezeProps.v
theories/FinerSpec.v
theories/FinerProps.v
theories/DrawSpec.v
theories/DrawProps.v
theories/NestSpec.v
theories/NestProps.v
theories/UndoSpec.v
theories/UndoProps.v
theories/AsideSpec.v
theories/AsideProps.v
theories/LimitSpec.v
theories/LimitProps.v
theories/EvenSpec.v
theories/EvenProps.v
theories/SoftSpec.v
theories/SoftProps.v
theories/FirmSpec.v
theories/FirmProps.v
theories/DrawnSpec.v
theories/DrawnProps.v
theories/WordSpec.v
theories/WordProps.v
theories/IntrSpec.v
theories/IntrProps.v
theories/RowSpec.v
theories/RowProps.v
theories/FirstSpec.v
theories/FirstProps.v
theories/SidesSpec.v
theories/SidesProps.v
theories/LoneSpec.v
theories/LoneProps.v
theories/RightSpec.v
theories/RightProps.v
theories/CornerProps.v
