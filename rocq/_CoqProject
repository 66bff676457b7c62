-Q theories Verif

theories/Py.v
theories/Util.v
theories/PyFacts.v
theories/Spec_Util.v
theories/UtilFacts.v
theories/Props_Util.v
theories/Catalog.v
theories/Spec_Catalog.v
theories/CatalogFacts.v
theories/StrideFacts.v
theories/Props_Catalog.v
theories/Builder.v
theories/Spec_Builder.v
theories/BuilderFacts.v
theories/Props_Builder.v
theories/PyFloat.v
theories/IbmFloat.v
theories/Spec_Ibm.v
theories/FloatFacts.v
theories/RoundFacts.v
theories/IbmFacts.v
theories/IbmArith.v
theories/Props_Ibm.v
theories/Packing.v
theories/Formats.v
theories/Spec_Packing.v
theories/Spec_Standard.v
theories/PackFacts.v
theories/CompileFacts.v
theories/HeaderFacts.v
theories/PackingFacts.v
theories/FormatFacts.v
theories/Props_Packing.v
theories/FileIO.v
theories/Text.v
theories/TextIO.v
theories/Spec_Text.v
theories/TextFacts.v
theories/TextIOFacts.v
theories/ExtReadFacts.v
theories/StdHeaderFacts.v
theories/ExtFormatFacts.v
theories/Props_Text.v
theories/Float32.v
theories/Toolkit.v
theories/Spec_Segy.v
theories/Float32Facts.v
theories/ToolkitFacts.v
theories/Reader.v
theories/Spec_Reader.v
theories/ReaderFacts.v
theories/OpenFacts.v
theories/Props_Reader.v
theories/Spec_Writer.v
theories/WriterFacts.v
theories/Props_Writer.v
theories/Cache.v
theories/Spec_Cache.v
theories/CacheFacts.v
theories/Props_Cache.v
theories/NumpyExt.v
theories/Spec_Numpy.v
theories/NumpyFacts.v
theories/NumpyShort.v
theories/Props_Numpy.v
theories/Spec_Order.v
theories/OrderFacts.v
theories/NumpyMore.v
theories/NumpyOrder.v
theories/Props_Order.v
theories/DtypeFacts.v
theories/DtypeExactFacts.v
theories/Props_Dtype.v
theories/Spec_Values.v
theories/StandardFacts.v
theories/GuessFacts.v
theories/Props_Standard.v
theories/EndianFacts.v
theories/Props_Endian.v
theories/Spec_Location.v
theories/LocationFacts.v
theories/Props_Location.v
theories/Spec_Cut.v
theories/CutFacts.v
theories/Props_Cut.v
theories/IbmNumber.v
theories/Spec_IbmNumber.v
theories/IbmNumberFacts.v
theories/IbmNumberProps.v
theories/IbmNumberExact.v
theories/Props_IbmNumber.v
theories/Spec_Copy.v
theories/CopyFacts.v
theories/Props_Copy.v
theories/FieldTypes.v
theories/Spec_Fields.v
theories/FieldTypesFacts.v
theories/Props_Fields.v
theories/Objects.v
theories/Spec_Objects.v
theories/ObjectsFacts.v
theories/Props_Objects.v
theories/RoundUnique.v
theories/Transform.v
theories/Spec_Transform.v
theories/TransformFacts.v
theories/Props_Transform.v
theories/Spec_Scale.v
theories/RoundAll.v
theories/ScaleFacts.v
theories/CoordFacts.v
theories/Spec_Digits.v
theories/Digits.v
theories/DigitsFacts.v
theories/Props_Digits.v
theories/Spec_Arith.v
theories/ArithAll.v
theories/ArithFacts.v
theories/Props_Arith.v
theories/Props_Scale.v
theories/Examples.v
theories/Spec_Examples.v
theories/ExamplesFacts.v
theories/Props_Examples.v
theories/Checks.v
theories/Spec_Check.v
theories/CheckFacts.v
theories/CompareFacts.v
theories/Props_Check.v
theories/Threads.v
theories/Spec_Threads.v
theories/ThreadFacts.v
theories/Props_Threads.v
theories/Race.v
theories/Spec_Race.v
theories/RaceFacts.v
theories/Props_Race.v
theories/Spec_Position.v
theories/PositionFacts.v
theories/Props_Position.v
theories/FormatString.v
theories/Spec_Format.v
theories/FormatStringFacts.v
theories/Props_Format.v
theories/InPlace.v
theories/Spec_InPlace.v
theories/InPlaceFacts.v
theories/Props_InPlace.v
theories/Commands.v
theories/Spec_Commands.v
theories/CommandsFacts.v
theories/Props_Commands.v
theories/Indicator.v
theories/IndicatorFacts.v
theories/Props_Indicator.v
theories/ReadCommands.v
theories/Spec_ReadCommands.v
theories/ReadCommandsFacts.v
theories/Props_ReadCommands.v
theories/AlmostEqual.v
theories/Spec_AlmostEqual.v
theories/AlmostEqualFacts.v
theories/Props_AlmostEqual.v
theories/Views.v
theories/ViewsFacts.v
theories/Props_Views.v
theories/Repr.v
theories/Spec_Repr.v
theories/ReprFacts.v
theories/Props_Repr.v
theories/Spec_Early.v
theories/EarlyFacts.v
theories/Props_Early.v
theories/Spec_Ranges.v
theories/RangesFacts.v
theories/Props_Ranges.v
theories/Spec_Custom.v
theories/CustomFacts.v
theories/SeenFacts.v
theories/Props_Custom.v
theories/Props_Back.v
theories/Classes.v
theories/Spec_Classes.v
theories/ClassesFacts.v
theories/ClassesMade.v
theories/Props_Classes.v
theories/Power.v
theories/Spec_Power.v
theories/PowerFacts.v
theories/Props_Power.v
theories/Spec_Local.v
theories/LocalFacts.v
theories/Props_Local.v
theories/Spec_Written.v
theories/WrittenFacts.v
theories/Props_Written.v
theories/Mixed.v
theories/Spec_Mixed.v
theories/MixedFacts.v
theories/Props_Mixed.v
theories/ExactFacts.v
theories/ConvertFacts.v
theories/ConvertOnly.v
theories/ExitFacts.v
theories/FewerFacts.v
theories/Props_Exact.v
theories/Stops.v
theories/Spec_Stops.v
theories/StopsFacts.v
theories/StopsRead.v
theories/Props_Stops.v
theories/Spec_Place.v
theories/PlaceFacts.v
theories/Props_Place.v
theories/Plans.v
theories/Spec_Plans.v
theories/PlansFacts.v
theories/Props_Plans.v
theories/NowFacts.v
theories/Props_Now.v
theories/Growing.v
theories/Spec_Growing.v
theories/GrowingFacts.v
theories/Props_Growing.v
theories/Pieces.v
theories/Spec_Pieces.v
theories/PiecesFacts.v
theories/Props_Pieces.v
theories/Hashing.v
theories/HashingFacts.v
theories/Props_Hashing.v
theories/CachedSteps.v
theories/CachedStepsFacts.v
theories/Props_CachedSteps.v
theories/Names.v
theories/Spec_Names.v
theories/NamesFacts.v
theories/Props_Names.v
theories/Regular.v
theories/RegularFacts.v
theories/Props_Regular.v
theories/Spec_BothWays.v
theories/BothWaysFacts.v
theories/Props_BothWays.v
theories/Spec_TypesBack.v
theories/TypesBackFacts.v
theories/Props_TypesBack.v
theories/SetItems.v
theories/Spec_SetItems.v
theories/SetItemsFacts.v
theories/Props_SetItems.v
theories/Spec_ScaleBack.v
theories/ScaleBackFacts.v
theories/Props_ScaleBack.v
theories/Spec_CoordsBack.v
theories/CoordsBackFacts.v
theories/Props_CoordsBack.v
theories/Extremes.v
theories/Spec_Extremes.v
theories/ExtremesFacts.v
theories/Props_Extremes.v
