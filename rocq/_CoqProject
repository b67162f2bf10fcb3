-Q theories Verif
theories/PyStr.v
theories/Regex.v
theories/RegexParse.v
theories/RegexFacts.v
theories/RegexLang.v
theories/PyNum.v
theories/PyNumFacts.v
theories/Types.v
theories/TypesSpec.v
theories/TypesFacts.v
theories/TypesFacts2.v
theories/TypesFacts3.v
theories/TypesFacts4.v
theories/TypesFacts5.v
theories/Prop_Types.v
theories/SubFacts.v
theories/CardText.v
theories/CardTextSpec.v
theories/CardTextFacts.v
theories/CardTextFacts2.v
theories/CardTextFacts3.v
theories/CardTextFacts4.v
theories/CardTextFacts5.v
theories/CardTextFacts6.v
theories/Prop_CardText.v
theories/Cards.v
theories/Tables.v
theories/CardsSpec.v
theories/CardsFacts.v
theories/CardsFacts2.v
theories/CardsFacts3.v
theories/CardsFacts4.v
theories/CardsFacts5.v
theories/CardsFacts6.v
theories/CardsFacts7.v
theories/CardsFacts8.v
theories/Prop_Cards.v
theories/ConstraintsSpec.v
theories/ConstraintsFacts.v
theories/Prop_Constraints.v
theories/Geometry.v
theories/GeometrySpec.v
theories/GeometryFacts.v
theories/GeometryFacts2.v
theories/GeometryFacts3.v
theories/GeometryFacts4.v
theories/GeometryFacts5.v
theories/GeometryFacts6.v
theories/Prop_Geometry.v
theories/Lattice.v
theories/LatticeSpec.v
theories/LatticeFacts.v
theories/LatticeFacts2.v
theories/LatticeFacts3.v
theories/Prop_Lattice.v
theories/Numbered.v
theories/NumberedSpec.v
theories/NumberedFacts.v
theories/Prop_Numbered.v
theories/Problem.v
theories/ProblemSpec.v
theories/ProblemFacts.v
theories/Prop_Problem.v
theories/Cli.v
theories/CliSpec.v
theories/CliFacts.v
theories/Prop_Cli.v
theories/Equality.v
theories/EqualitySpec.v
theories/EqualityFacts.v
theories/Prop_Equality.v
theories/Ptrac.v
theories/Processors.v
theories/ProcessorsSpec.v
theories/ProcessorsFacts.v
theories/Prop_Processors.v
theories/PtracSpec.v
theories/PtracFacts.v
theories/PtracFacts2.v
theories/PtracFacts3.v
theories/PtracFacts4.v
theories/PtracFacts5.v
theories/PtracFacts6.v
theories/Prop_Ptrac.v
theories/Meshtal.v
theories/MeshtalSpec.v
theories/MeshtalFacts.v
theories/MeshtalFacts2.v
theories/MeshtalFacts3.v
theories/Prop_Meshtal.v
theories/Shapes.v
theories/ShapesSpec.v
theories/ShapesFacts.v
theories/Visualize.v
theories/VisualizeSpec.v
theories/VisualizeFacts.v
theories/Prop_Shapes.v
theories/Elements.v
theories/Formula.v
theories/FormulaSpec.v
theories/FormulaFacts.v
theories/Prop_Formula.v
theories/OutpTables.v
theories/Outp.v
theories/OutpSamples.v
theories/OutpSpec.v
theories/OutpFacts.v
theories/OutpFacts2.v
theories/OutpFacts3.v
theories/OutpFacts4.v
theories/OutpFacts5.v
theories/Prop_Outp.v
theories/InpFile.v
theories/InpSpec.v
theories/InpSpec2.v
theories/InpFacts.v
theories/InpFacts2.v
theories/InpFacts3.v
theories/InpFacts4.v
theories/InpFacts5.v
theories/RegexDer.v
theories/InpFacts6.v
theories/InpFacts7.v
theories/InpFacts8.v
theories/InpFacts9.v
theories/InpFacts10.v
theories/OptSpec.v
theories/OptFacts.v
theories/OptFacts2.v
theories/OptFacts3.v
theories/OptFacts4.v
theories/OptFacts5.v
theories/OptFacts6.v
theories/Prop_Opt.v
theories/CellSpec.v
theories/CellFacts.v
theories/CellFacts2.v
theories/CellFacts3.v
theories/LikeFacts.v
theories/Prop_Inp.v
theories/LineFacts.v
theories/Prop_Lines.v
theories/Generator.v
theories/GeneratorSpec.v
theories/GeneratorFacts.v
theories/Prop_Generator.v
theories/Calm.v
theories/CalmSpec.v
theories/CalmFacts.v
theories/CalmFacts2.v
theories/CalmFacts3.v
theories/CalmFacts4.v
theories/Prop_Calm.v
theories/Commands.v
theories/CommandsSpec.v
theories/CommandsFacts.v
theories/Prop_Commands.v
theories/WrittenFacts.v
theories/Prop_Written.v
theories/PiecesSpec.v
theories/PiecesFacts.v
theories/Prop_Pieces.v
theories/Views.v
theories/ViewsSpec.v
theories/ViewsFacts.v
theories/Prop_Views.v
theories/CaseSpec.v
theories/CaseFacts.v
theories/CaseFacts2.v
theories/CaseFacts3.v
theories/CaseFacts4.v
theories/CaseFacts5.v
theories/CaseFacts6.v
theories/CaseFacts7.v
theories/CaseFacts8.v
theories/CaseInpSpec.v
theories/CaseFacts9.v
theories/CaseFacts10.v
theories/Prop_Case.v
theories/Prop_CaseInp.v
theories/TwiceFacts.v
theories/Prop_Twice.v
