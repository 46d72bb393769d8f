-Q theories Verif
theories/Model/Attr.v
theories/Model/Base.v
theories/Model/Calc.v
theories/Model/Double.v
theories/Model/Macro.v
theories/Model/MacroEval.v
theories/Model/Removers.v
theories/Model/Renumberer.v
theories/Model/Rotator.v
theories/Model/Splitter.v
theories/Model/Verifiers.v
theories/Spec/CalcSpec.v
theories/Spec/DoubleSpec.v
theories/Spec/MacroSpec.v
theories/Spec/RemoverSpec.v
theories/Spec/RenumberSpec.v
theories/Spec/RotationSpec.v
theories/Spec/RotationVerifierSpec.v
theories/Spec/SplitSpec.v
theories/Spec/Text.v
theories/Spec/VerifierSpec.v
theories/Proofs/DoubleFacts.v
theories/Proofs/MacroEvalProofs.v
theories/Proofs/MacroProofs.v
theories/Proofs/RemoverProofs.v
theories/Proofs/RenumberProofs.v
theories/Proofs/RotationProofs.v
theories/Proofs/RotationVerifierProofs.v
theories/Proofs/SplitProofs.v
theories/Proofs/StringFacts.v
theories/Proofs/Tactics.v
theories/Proofs/TextProofs.v
theories/Proofs/VerifierProofs.v
theories/Props/C01.v
theories/Props/C02.v
theories/Props/C03.v
theories/Props/C04.v
theories/Props/C05.v
theories/Props/C06.v
theories/Props/C07.v
theories/Props/C08.v
theories/Props/C09.v
theories/Props/C10.v
theories/Props/C11.v
theories/Props/C12.v
theories/Props/C13.v
theories/Props/C14.v
theories/Props/C15.v
theories/Props/C16.v
theories/Props/C17.v
theories/Props/C18.v
theories/Proofs/CalcProofs.v
theories/Model/MacroAssign.v
theories/Spec/AssignSpec.v
theories/Spec/RoundSpec.v
theories/Proofs/MacroAssignProofs.v
theories/Props/C22.v
theories/Props/C23.v
theories/Props/C24.v
theories/Props/C41.v
theories/Props/C42.v
theories/Props/C43.v
theories/Model/UnitConv.v
theories/Spec/UnitSpec.v
theories/Proofs/FloatReal.v
theories/Proofs/UnitProofs.v
theories/Proofs/UnitNumberProofs.v
theories/Props/C25.v
theories/Props/C26.v
theories/Model/Enums.v
theories/Spec/EnumSpec.v
theories/Proofs/EnumProofs.v
theories/Props/C30.v
theories/Model/NCText.v
theories/Spec/NCTextSpec.v
theories/Proofs/NCTextProofs.v
theories/Proofs/TimeProofs.v
theories/Proofs/DiagProofs.v
theories/Props/C34.v
theories/Props/C35.v
theories/Props/C40.v
theories/Model/Framing.v
theories/Spec/FramingSpec.v
theories/Proofs/FramingProofs.v
theories/Props/C32.v
theories/Spec/SelectSpec.v
theories/Proofs/SelectProofs.v
theories/Props/C44.v
theories/Props/C45.v
theories/Model/MacrosDesc.v
theories/Model/Server.v
theories/Spec/DescSpec.v
theories/Proofs/DescProofs.v
theories/Props/C38.v
theories/Spec/ServerSpec.v
theories/Spec/HoverSpec.v
theories/Proofs/ServerProofs.v
theories/Proofs/HoverProofs.v
theories/Spec/DiagnosticSpec.v
theories/Props/C31.v
theories/Props/C33.v
theories/Proofs/HoverReplyProofs.v
theories/Spec/LensSpec.v
theories/Proofs/LensProofs.v
theories/Props/C46.v
theories/Props/C47.v
theories/Props/C48.v
theories/Proofs/SplitAmountProofs.v
theories/Props/C49.v
theories/Props/C50.v
theories/Model/Grammar.v
theories/Model/Shipped.v
theories/Model/ShippedCodes.v
theories/Spec/GrammarSpec.v
theories/Proofs/GrammarLex.v
theories/Proofs/GrammarTail.v
theories/Proofs/GrammarProofs.v
theories/Proofs/PrintProofs.v
theories/Proofs/ShippedProofs.v
theories/Proofs/StatusProofs.v
theories/Props/C19.v
theories/Props/C20.v
theories/Props/C21.v
theories/Model/PathGeom.v
theories/Model/PathCalc.v
theories/Spec/PathSpec.v
theories/Proofs/PathFrame.v
theories/Proofs/PathTotals.v
theories/Proofs/PathVisit.v
theories/Proofs/PathTime.v
theories/Proofs/PathCases.v
theories/Proofs/PathReset.v
theories/Proofs/FloatOrder.v
theories/Proofs/PathRange.v
theories/Props/C27.v
theories/Props/C28.v
theories/Props/C29.v
theories/Model/Parser.v
theories/Model/Messages.v
theories/Spec/ParserSpec.v
theories/Proofs/ParserGrammar.v
theories/Proofs/ParserProofs.v
theories/Proofs/ParserPoints.v
theories/Proofs/ParserUnits.v
theories/Proofs/ParserPath.v
theories/Proofs/ParserEdits.v
theories/Proofs/ParserCases.v
theories/Props/C36.v
theories/Props/C37.v
theories/Props/C51.v
theories/Props/C52.v
theories/Props/C53.v
theories/Props/C54.v
theories/Model/Wrapper.v
theories/Model/Net.v
theories/Model/Layout.v
theories/Model/Client.v
theories/Model/Blocks.v
theories/Model/Highlight.v
theories/Model/Settings.v
theories/Model/Editor.v
theories/Model/Document.v
theories/Model/Session.v
theories/Model/Heidenhain.v
theories/Spec/WrapperSpec.v
theories/Spec/SettingsSpec.v
theories/Spec/DocumentSpec.v
theories/Spec/EscapeSpec.v
theories/Spec/EditorSpec.v
theories/Spec/NetSpec.v
theories/Spec/LayoutSpec.v
theories/Spec/ClientSpec.v
theories/Spec/BlocksSpec.v
theories/Spec/CompletionSpec.v
theories/Spec/HighlightSpec.v
theories/Spec/EditSpec.v
theories/Spec/MotionSpec.v
theories/Spec/DrillSpec.v
theories/Spec/ArcSpec.v
theories/Spec/TravelSpec.v
theories/Spec/ModalSpec.v
theories/Spec/SpiralSpec.v
theories/Spec/RadiusSpec.v
theories/Spec/HeidenhainSpec.v
theories/Model/OrderAttr.v
theories/Spec/OrderSpec.v
theories/Proofs/WrapperProofs.v
theories/Proofs/WrapperTables.v
theories/Proofs/SettingsProofs.v
theories/Proofs/SettingsTables.v
theories/Proofs/DocumentProofs.v
theories/Proofs/DocumentStart.v
theories/Proofs/MessageProofs.v
theories/Proofs/PlacedProofs.v
theories/Proofs/HeidenhainProofs.v
theories/Proofs/HeidenhainWrite.v
theories/Proofs/HeidenhainLines.v
theories/Proofs/OrderProofs.v
theories/Proofs/SessionProofs.v
theories/Proofs/EscapeWords.v
theories/Proofs/EscapePath.v
theories/Proofs/EscapeProofs.v
theories/Proofs/EscapeCases.v
theories/Proofs/EditorNumbers.v
theories/Proofs/EditorFloats.v
theories/Proofs/EditorExport.v
theories/Proofs/EditorRoundTrip.v
theories/Proofs/EditorCases.v
theories/Proofs/NetProofs.v
theories/Proofs/NetMacros.v
theories/Proofs/NetCases.v
theories/Proofs/LayoutProofs.v
theories/Proofs/LayoutSettings.v
theories/Proofs/ClientProofs.v
theories/Proofs/ClientStatus.v
theories/Proofs/BlocksProofs.v
theories/Proofs/BlocksFiles.v
theories/Proofs/CompletionProofs.v
theories/Proofs/HighlightProofs.v
theories/Proofs/EditProofs.v
theories/Proofs/EditCases.v
theories/Proofs/MotionFloats.v
theories/Proofs/MotionVisit.v
theories/Proofs/MotionProofs.v
theories/Proofs/MotionBlocks.v
theories/Proofs/MotionTimes.v
theories/Proofs/DrillFloats.v
theories/Proofs/DrillProofs.v
theories/Proofs/FineProofs.v
theories/Proofs/PeckProofs.v
theories/Proofs/PeckByProofs.v
theories/Proofs/ArcFloats.v
theories/Proofs/ArcProofs.v
theories/Proofs/TravelProofs.v
theories/Proofs/ModalProofs.v
theories/Proofs/RelFloats.v
theories/Proofs/SpiralFloats.v
theories/Proofs/SpiralProofs.v
theories/Proofs/RadiusFloats.v
theories/Proofs/ArcEnds.v
theories/Proofs/ArcOpposite.v
theories/Proofs/ArcCentre.v
theories/Proofs/RadiusProofs.v
theories/Proofs/SplitCall.v
theories/Proofs/WrapperCalls.v
theories/Props/C39.v
theories/Props/C55.v
theories/Props/C56.v
theories/Props/C57.v
theories/Props/C58.v
theories/Props/C59.v
theories/Props/C60.v
theories/Props/C61.v
theories/Props/C62.v
theories/Props/C63.v
theories/Props/C64.v
theories/Props/C65.v
theories/Props/C66.v
theories/Props/C67.v
theories/Props/C68.v
theories/Props/C69.v
theories/Props/C70.v
theories/Props/C71.v
theories/Props/C72.v
theories/Props/C73.v
theories/Props/C74.v
theories/Props/C75.v
theories/Props/C76.v
theories/Props/C77.v
theories/Props/C78.v
theories/Props/C79.v
theories/Props/C80.v
theories/Props/C81.v
theories/Props/C82.v
theories/Props/C83.v
theories/Props/C84.v
theories/Props/C85.v
theories/Checks/Approx.v
theories/Checks/AllAttributesParserTest.v
theories/Checks/AttributesPathCalculatorTest.v
theories/Checks/PathCalculatorTest.v
theories/Checks/VerifiersTest.v
theories/Checks/ToolsTest.v
theories/Checks/MacrosTest.v
theories/Checks/HeidenhainTest.v
theories/Checks/NetTest.v
