-Q theories Verif
theories/Base.v
theories/Hash.v
theories/Enums.v
theories/Term.v
theories/TermSpec.v
theories/TermFacts.v
theories/Terms.v
theories/TermsFacts.v
theories/Compound.v
theories/CompoundFacts.v
theories/CompoundSpec.v
theories/CompoundFacts2.v
theories/CompoundFacts3.v
theories/IndexVar.v
theories/IndexVarFacts.v
theories/Object.v
theories/ObjectSpec.v
theories/ObjectFacts.v
theories/ObjectFacts2.v
theories/ObjectFacts3.v
theories/ObjectFacts4.v
theories/ObjectFacts5.v
theories/Maps.v
theories/MapsFacts.v
theories/Interning.v
theories/InterningSpec.v
theories/InterningFacts.v
theories/InterningFacts2.v
theories/InterningCases.v
theories/Evidence.v
theories/EvidenceSpec.v
theories/EvidenceFacts.v
theories/EvidenceFacts2.v
theories/EvidenceFacts3.v
theories/EvidenceCases.v
theories/TermCases.v
theories/CompoundCases.v
theories/ObjectCases.v
theories/Float.v
theories/Truth.v
theories/TruthSpec.v
theories/FloatFacts.v
theories/TruthFacts.v
theories/TruthFacts2.v
theories/TruthFacts3.v
theories/TruthFacts4.v
theories/TruthFacts5.v
theories/TruthCases.v
theories/Tables.v
theories/Parser.v
theories/ParserSpec.v
theories/Grammar.v
theories/GrammarSpec.v
theories/LexFacts.v
theories/LexFacts2.v
theories/ParserCert.v
theories/ParserAhead.v
theories/ParserFacts.v
theories/ParserFacts2.v
theories/ParserFacts3.v
theories/ParserRuns.v
theories/ParserFacts4.v
theories/ParserFacts5.v
theories/ParserFacts6.v
theories/ParserFacts7.v
theories/ParserFacts8.v
theories/ParserCases.v
theories/ParserFacts9.v
theories/ParserFacts10.v
theories/ParserFacts11.v
theories/ParserFacts12.v
theories/ParserFacts13.v
theories/ParserFacts14.v
theories/ParserCases2.v
theories/NumeralSpec.v
theories/Numeral.v
theories/NumeralFacts.v
theories/Actions.v
theories/ActionsSpec.v
theories/AstFacts.v
theories/ActionsFacts.v
theories/ActionsFacts2.v
theories/ActionsFacts3.v
theories/ActionsFacts4.v
theories/ActionsFacts5.v
theories/ActionsCases.v
theories/ActionsFacts6.v
theories/Printer.v
theories/PrinterSpec.v
theories/PrinterFacts.v
theories/PrinterFacts2.v
theories/PrinterFacts3.v
theories/PrinterFacts4.v
theories/PrinterCases.v
theories/Props_Term.v
theories/Props_Compound.v
theories/Props_Object.v
theories/Props_Interning.v
theories/Props_Evidence.v
theories/Props_Truth.v
theories/Props_Parser.v
theories/Props_Actions.v
theories/Props_Printer.v
theories/Forms.v
theories/FormFacts.v
theories/FormFacts2.v
theories/FormFacts3.v
theories/FormFacts4.v
theories/FormFacts5.v
theories/FormFacts6.v
theories/FormFacts7.v
theories/FormFacts8.v
theories/FormFacts9.v
theories/FormCases.v
theories/Props_Forms.v
theories/Roundtrip.v
theories/RoundtripFacts.v
theories/RoundtripFacts2.v
theories/RoundtripFacts3.v
theories/RoundtripCases.v
theories/Props_Roundtrip.v
theories/Buffer.v
theories/BufferSpec.v
theories/BufferFacts.v
theories/BufferFacts2.v
theories/BufferFacts3.v
theories/BufferCases.v
theories/Props_Buffer.v
theories/Storage.v
theories/StorageSpec.v
theories/StorageFacts.v
theories/StorageFacts2.v
theories/StorageFacts3.v
theories/StorageFacts4.v
theories/StorageFacts5.v
theories/StorageFacts6.v
theories/StorageCases.v
theories/Props_Storage.v
theories/Nodes.v
theories/NodesSpec.v
theories/NodesFacts.v
theories/NodesFacts2.v
theories/NodesFacts3.v
theories/NodesCases.v
theories/Props_Nodes.v
theories/Iterators.v
theories/IteratorsSpec.v
theories/IteratorsFacts.v
theories/IteratorsFacts2.v
theories/IteratorsFacts3.v
theories/IteratorsCases.v
theories/Props_Iterators.v
theories/InterningFacts3.v
theories/Sessions.v
theories/SessionsSpec.v
theories/SessionsFacts.v
theories/SessionsFacts2.v
theories/SessionsFacts3.v
theories/SessionsFacts4.v
theories/SessionsFacts5.v
theories/SessionsCases.v
theories/Props_Sessions.v
theories/Api.v
theories/ApiSpec.v
theories/ApiFacts.v
theories/ApiFacts2.v
theories/ApiFacts3.v
theories/ApiFacts4.v
theories/ApiCases.v
theories/Props_Api.v
theories/Index.v
theories/IndexSpec.v
theories/IndexFacts.v
theories/IndexFacts2.v
theories/IndexFacts3.v
theories/IndexFacts4.v
theories/IndexFacts5.v
theories/IndexFacts6.v
theories/IndexFacts7.v
theories/IndexFacts8.v
theories/IndexFacts9.v
theories/IndexFacts10.v
theories/IndexCases.v
theories/Props_Index.v
theories/Lifetimes.v
theories/LifetimesSpec.v
theories/LifetimesFacts.v
theories/LifetimesFacts2.v
theories/LifetimesFacts3.v
theories/LifetimesFacts4.v
theories/LifetimesFacts5.v
theories/LifetimesFacts6.v
theories/LifetimesFacts7.v
theories/LifetimesFacts8.v
theories/LifetimesCases.v
theories/Props_Lifetimes.v
theories/LifetimesFacts9.v
theories/LifetimesFacts10.v
theories/LifetimesFacts11.v
theories/LifetimesFacts12.v
theories/LifetimesFacts13.v
theories/LifetimesFacts14.v
theories/TermOrderSpec.v
theories/TermOrderFacts.v
theories/TermEqFacts.v
theories/OrderCases.v
theories/InterningSpec2.v
theories/InterningFacts4.v
theories/InterningCases2.v
theories/CopulaSpec.v
theories/CopulaFacts.v
theories/CopulaCases.v
theories/Dispatch.v
theories/DispatchSpec.v
theories/DispatchFacts.v
theories/Generate.v
theories/GenerateSpec.v
theories/GenerateFacts.v
theories/Props_Dispatch.v
theories/Reader.v
theories/ReaderSpec.v
theories/ReaderFacts.v
theories/ReaderFacts2.v
theories/ReaderFacts3.v
theories/ReaderCases.v
theories/Props_Reader.v
theories/Ending.v
theories/EndingSpec.v
theories/EndingFacts.v
theories/EndingFacts2.v
theories/EndingFacts3.v
theories/EndingCases.v
theories/Props_Ending.v
theories/Units.v
theories/UnitsSpec.v
theories/UnitsFacts.v
theories/UnitsCases.v
theories/Props_Units.v
theories/Depth.v
theories/DepthSpec.v
theories/DepthCert.v
theories/DepthFacts.v
theories/DepthRuns.v
theories/DepthFacts2.v
theories/DepthFacts3.v
theories/DepthCases.v
theories/Props_Depth.v
theories/Console.v
theories/ConsoleSpec.v
theories/ConsoleFacts.v
theories/ConsoleFacts2.v
theories/ConsoleFacts3.v
theories/ConsoleCases.v
theories/Props_Console.v
theories/ConsoleSpec2.v
theories/ConsoleFacts4.v
theories/ConsoleFacts5.v
theories/CompoundSpec2.v
theories/CompoundFacts4.v
theories/CompoundFacts5.v
theories/CompoundFacts6.v
theories/SignsSpec.v
theories/SignsFacts.v
theories/Props_Signs.v
theories/DefaultsSpec.v
theories/DefaultsFacts.v
theories/Props_Defaults.v
theories/TruthFacts6.v
theories/Fresh.v
theories/FreshSpec.v
theories/FreshFacts.v
theories/FreshFacts2.v
theories/FreshCases.v
theories/Props_Fresh.v
theories/TableSpec.v
theories/TableFacts.v
theories/Props_Table.v
theories/ColourSpec.v
theories/ColourFacts.v
theories/Props_Colour.v
theories/EndingFacts4.v
theories/Kinds.v
theories/KindsSpec.v
theories/KindsFacts.v
theories/KindsFacts2.v
theories/KindsCases.v
theories/Props_Kinds.v
theories/EvidenceFacts4.v
theories/Shown.v
theories/ShownSpec.v
theories/ShownFacts.v
theories/ShownCases.v
theories/Props_Shown.v
theories/ConsoleSpec3.v
theories/ConsoleSpec4.v
theories/ConsoleFacts6.v
theories/ConsoleFacts7.v
theories/FreshSpec2.v
theories/FreshFacts3.v
theories/FreshSpec3.v
theories/FreshFacts4.v
theories/FreshFacts5.v
theories/FreshFacts6.v
theories/FreshFacts7.v
theories/FreshFacts8.v
