-Q theories Verif
theories/Model/Py.v
theories/Model/PyFloat.v
theories/Model/Utilities.v
theories/Model/Sql.v
theories/Model/Manager.v
theories/Spec/Text.v
theories/Spec/Query.v
theories/Proofs/StrLemmas.v
theories/Proofs/UtilLemmas.v
theories/Proofs/NumLemmas.v
theories/Proofs/FloatLemmas.v
theories/Properties/P01_Utilities.v
theories/Proofs/ManagerLemmas.v
theories/Properties/P02_Manager.v
theories/Model/Storage.v
theories/Spec/Files.v
theories/Proofs/StorageLemmas.v
theories/Properties/P03_Storage.v
theories/Model/Dicts.v
theories/Model/Particle.v
theories/Model/Reaction.v
theories/Model/Pyparsing.v
theories/Model/Grammars.v
theories/Model/Shipped.v
theories/Spec/Nuclear.v
theories/Proofs/IntLemmas.v
theories/Proofs/DictLemmas.v
theories/Proofs/ReactionLemmas.v
theories/Properties/P04_Dicts.v
theories/Properties/P05_Reactions.v
theories/Model/Field.v
theories/Model/Section.v
theories/Model/Entry.v
theories/Model/Columns.v
theories/Model/Dataset.v
theories/Model/Heap.v
theories/Model/Csv.v
theories/Model/Abundance.v
theories/Spec/CsvText.v
theories/Spec/Isotopes.v
theories/Spec/Document.v
theories/Spec/Exfor.v
theories/Spec/Tables.v
theories/Spec/DataSets.v
theories/Spec/Merging.v
theories/Spec/Sharing.v
theories/Spec/Codes.v
theories/Spec/General.v
theories/Spec/Balance.v
theories/Spec/Names.v
theories/Spec/Peg.v
theories/Spec/Grammar.v
theories/Spec/References.v
theories/Proofs/FieldLemmas.v
theories/Proofs/BibLemmas.v
theories/Proofs/MonitorLemmas.v
theories/Proofs/DataLemmas.v
theories/Proofs/EntryLemmas.v
theories/Proofs/ProgLemmas.v
theories/Proofs/ColumnLemmas.v
theories/Proofs/SimplifyLemmas.v
theories/Proofs/UnitLemmas.v
theories/Proofs/ValueLemmas.v
theories/Proofs/TableLemmas.v
theories/Proofs/SimpleLemmas.v
theories/Proofs/ErrorLemmas.v
theories/Proofs/HistoryLemmas.v
theories/Proofs/MergeLemmas.v
theories/Proofs/DatasetLemmas.v
theories/Proofs/EntryDataLemmas.v
theories/Proofs/ParseLemmas.v
theories/Proofs/GrammarLemmas.v
theories/Proofs/GrammarCodes.v
theories/Proofs/GrammarReactions.v
theories/Proofs/GrammarGeneral.v
theories/Proofs/GrammarFields.v
theories/Proofs/ShippedLemmas.v
theories/Proofs/BalanceLemmas.v
theories/Proofs/RoundtripLemmas.v
theories/Proofs/NestedLemmas.v
theories/Proofs/CommaLemmas.v
theories/Proofs/AuthorLemmas.v
theories/Proofs/InstituteLemmas.v
theories/Proofs/ReferenceLemmas.v
theories/Proofs/NamesExamples.v
theories/Proofs/RefCheck.v
theories/Proofs/SuffixLemmas.v
theories/Proofs/PegLemmas.v
theories/Proofs/GrammarRules.v
theories/Properties/P06_Fields.v
theories/Properties/P07_Data.v
theories/Properties/P08_Entry.v
theories/Properties/P09_Columns.v
theories/Properties/P10_Datasets.v
theories/Properties/P11_Grammars.v
theories/Properties/P12_Names.v
theories/Proofs/HeapLemmas.v
theories/Properties/P13_Objects.v
theories/Proofs/CsvLemmas.v
theories/Proofs/AbundanceLemmas.v
theories/Properties/P14_Files.v
theories/Proofs/CrossLemmas.v
theories/Proofs/TextTableLemmas.v
theories/Proofs/DocumentLemmas.v
theories/Proofs/DocumentCheck.v
theories/Properties/P15_Document.v
theories/Spec/Readings.v
theories/Proofs/ReadingLemmas.v
theories/Properties/P16_Readings.v
theories/Spec/Doubles.v
theories/Spec/Printing.v
theories/Spec/Accuracy.v
theories/Spec/Frames.v
theories/Proofs/RoundLemmas.v
theories/Model/Repr.v
theories/Model/Print.v
theories/Model/Show.v
theories/Proofs/ReprLemmas.v
theories/Proofs/NearestLemmas.v
theories/Proofs/DigitLemmas.v
theories/Proofs/PrintLemmas.v
theories/Proofs/PrintCheck.v
theories/Proofs/ArithLemmas.v
theories/Proofs/AccuracyLemmas.v
theories/Proofs/AccurateDoc.v
theories/Proofs/FrameLemmas.v
theories/Properties/P17_Numbers.v
theories/Properties/P18_Printing.v
theories/Properties/P19_Accuracy.v
theories/Properties/P20_Frames.v
theories/Spec/ReadBack.v
theories/Proofs/ReadBackLemmas.v
theories/Proofs/SectionsBackLemmas.v
theories/Proofs/TableBackLemmas.v
theories/Properties/P21_ReadBack.v
theories/Spec/Known.v
theories/Spec/GeneralKnown.v
theories/Spec/IsomerMath.v
theories/Proofs/KnownLemmas.v
theories/Proofs/GeneralLemmas.v
theories/Proofs/IsomerLemmas.v
theories/Proofs/KnownCheck.v
theories/Proofs/GeneralCheck.v
theories/Proofs/IsomerCheck.v
theories/Spec/Stored.v
theories/Proofs/RetrieveLemmas.v
theories/Proofs/FoundLemmas.v
theories/Proofs/StoredCheck.v
theories/Properties/P22_Known.v
theories/Spec/WellWritten.v
theories/Spec/Pointed.v
theories/Spec/Found.v
theories/Spec/Printable.v
theories/Spec/Shown.v
theories/Spec/Headers.v
theories/Proofs/WellLemmas.v
theories/Proofs/CosineLemmas.v
theories/Proofs/WellSimple.v
theories/Proofs/PointedLemmas.v
theories/Proofs/PointedCheck.v
theories/Proofs/FoundCheck.v
theories/Proofs/WellCheck.v
theories/Proofs/Guess.v
theories/Proofs/Decide.v
theories/Proofs/ShapeLemmas.v
theories/Proofs/UnitsGiven.v
theories/Proofs/PrintableLemmas.v
theories/Proofs/PrintableWell.v
theories/Proofs/ShowLemmas.v
theories/Proofs/HeaderLemmas.v
theories/Properties/P23_WellWritten.v
theories/Properties/P24_Printable.v
theories/Model/ShippedDicts.v
theories/Model/Library.v
theories/Proofs/LibraryLemmas.v
theories/Properties/P25_Library.v
theories/Properties/P26_General.v
theories/Properties/P27_Isomers.v
theories/Properties/P28_Retrieved.v
theories/Properties/P29_Parsing.v
theories/Properties/P30_Pointed.v
theories/Properties/P31_Found.v
theories/Properties/P32_Shown.v
theories/Properties/P33_Headers.v
theories/Model/Client.v
theories/Spec/Script.v
theories/Proofs/ClientLemmas.v
theories/Properties/P34_Client.v
theories/Spec/Damage.v
theories/Proofs/GroupLemmas.v
theories/Proofs/DamageLemmas.v
theories/Proofs/SetErrorLemmas.v
theories/Properties/P35_Damage.v
theories/Properties/P36_SetErrors.v
theories/Spec/Wildcards.v
theories/Proofs/WildcardLemmas.v
theories/Properties/P37_Wildcards.v
theories/Conformance/Setup.v
theories/Conformance/RealEntries.v
theories/Conformance/RealEntriesWell.v
theories/Conformance/RealEntriesFound.v
theories/Conformance/TestFields.v
theories/Conformance/TestReactions.v
theories/Conformance/TestEntry.v
theories/Conformance/TestDataset.v
theories/Conformance/TestDatabase.v
