-Q theories Verif
theories/Conformance/Sample.v
theories/Conformance/TypeSample.v
theories/Model/Alias.v
theories/Model/Api.v
theories/Model/AppData.v
theories/Model/Append.v
theories/Model/AppendCalc.v
theories/Model/Atoms.v
theories/Model/Build.v
theories/Model/ByName.v
theories/Model/CalcAttr.v
theories/Model/Calendar.v
theories/Model/Compound.v
theories/Model/Context.v
theories/Model/Core.v
theories/Model/Cyclic.v
theories/Model/DataObj.v
theories/Model/DateTime.v
theories/Model/Enum.v
theories/Model/Equality.v
theories/Model/Errors.v
theories/Model/Export.v
theories/Model/FieldCopy.v
theories/Model/Functional.v
theories/Model/HelpText.v
theories/Model/InstanceCopy.v
theories/Model/KeyCache.v
theories/Model/LeafMock.v
theories/Model/Machine.v
theories/Model/Messages.v
theories/Model/Meta.v
theories/Model/Mock.v
theories/Model/MockObject.v
theories/Model/Mongo.v
theories/Model/Names.v
theories/Model/Net.v
theories/Model/NetMock.v
theories/Model/Num.v
theories/Model/OldNames.v
theories/Model/Py.v
theories/Model/Regex.v
theories/Model/Role.v
theories/Model/SetterObj.v
theories/Model/Shadow.v
theories/Model/Text.v
theories/Model/Threads.v
theories/Model/Translate.v
theories/Model/TypeClass.v
theories/Model/Types.v
theories/Model/Undefined.v
theories/Model/Url.v
theories/Model/UrlCheck.v
theories/Model/Warnings.v
theories/Proofs/AcceptFacts.v
theories/Proofs/AcceptWitness.v
theories/Proofs/AliasFacts.v
theories/Proofs/ApiLemmas.v
theories/Proofs/ApiMore.v
theories/Proofs/ApiWitness.v
theories/Proofs/AppDataFacts.v
theories/Proofs/AppDataWitness.v
theories/Proofs/AppendCalcFacts.v
theories/Proofs/AppendExport.v
theories/Proofs/AppendFacts.v
theories/Proofs/AppendWitness.v
theories/Proofs/AtomsFacts.v
theories/Proofs/BuildFacts.v
theories/Proofs/BuildUse.v
theories/Proofs/BuildWitness.v
theories/Proofs/ByNameFacts.v
theories/Proofs/ByNameMain.v
theories/Proofs/ByNameWitness.v
theories/Proofs/CalcAttrFacts.v
theories/Proofs/CalendarLemmas.v
theories/Proofs/CandidateWitness.v
theories/Proofs/Candidates.v
theories/Proofs/ComposeFacts.v
theories/Proofs/ComposeWitness.v
theories/Proofs/CompoundLemmas.v
theories/Proofs/CompoundWitness.v
theories/Proofs/ContextFacts.v
theories/Proofs/CyclicFacts.v
theories/Proofs/DataObjFacts.v
theories/Proofs/DateAccepts.v
theories/Proofs/DateErrors.v
theories/Proofs/DateMore.v
theories/Proofs/DateText.v
theories/Proofs/DateTimeLemmas.v
theories/Proofs/Decide.v
theories/Proofs/DictLemmas.v
theories/Proofs/EnumLemmas.v
theories/Proofs/EqLemmas.v
theories/Proofs/EqParts.v
theories/Proofs/EqWitness.v
theories/Proofs/ErrorFacts.v
theories/Proofs/ErrorHash.v
theories/Proofs/ErrorParts.v
theories/Proofs/ErrorWitness.v
theories/Proofs/EvolveFacts.v
theories/Proofs/EvolveWitness.v
theories/Proofs/ExchangeFacts.v
theories/Proofs/ExchangeWitness.v
theories/Proofs/ExportDeep.v
theories/Proofs/ExportLemmas.v
theories/Proofs/ExportWitness.v
theories/Proofs/FieldCopyFacts.v
theories/Proofs/FloatDecimal.v
theories/Proofs/FloatLemmas.v
theories/Proofs/FloatNearest.v
theories/Proofs/FloatTime.v
theories/Proofs/ForwardFacts.v
theories/Proofs/ForwardWitness.v
theories/Proofs/Fuel.v
theories/Proofs/FuelBound.v
theories/Proofs/FuelWitness.v
theories/Proofs/FunctionalExport.v
theories/Proofs/FunctionalFacts.v
theories/Proofs/FunctionalInstance.v
theories/Proofs/FunctionalWitness.v
theories/Proofs/HelpTextFacts.v
theories/Proofs/Idem.v
theories/Proofs/ImportApi.v
theories/Proofs/ImportLemmas.v
theories/Proofs/ImportName.v
theories/Proofs/Independ.v
theories/Proofs/IndependWitness.v
theories/Proofs/InstanceCopyFacts.v
theories/Proofs/IntText.v
theories/Proofs/IsoText.v
theories/Proofs/KeyCacheFacts.v
theories/Proofs/LeafMockFacts.v
theories/Proofs/MacEmail.v
theories/Proofs/MachineFacts.v
theories/Proofs/MapFacts.v
theories/Proofs/MapWitness.v
theories/Proofs/MessagesFacts.v
theories/Proofs/MetaClass.v
theories/Proofs/MetaFacts.v
theories/Proofs/MetaHeap.v
theories/Proofs/MetaOrder.v
theories/Proofs/MetaOthers.v
theories/Proofs/MetaWitness.v
theories/Proofs/MicroFacts.v
theories/Proofs/MockLemmas.v
theories/Proofs/MockObjectFacts.v
theories/Proofs/MockWitness.v
theories/Proofs/MongoFacts.v
theories/Proofs/NamesFacts.v
theories/Proofs/Nested.v
theories/Proofs/NestedWitness.v
theories/Proofs/NetLemmas.v
theories/Proofs/NetMockLemmas.v
theories/Proofs/NetWitness.v
theories/Proofs/NumText.v
theories/Proofs/NumberText.v
theories/Proofs/NumberTypes.v
theories/Proofs/OldNamesFacts.v
theories/Proofs/OptionFacts.v
theories/Proofs/OptionWitness.v
theories/Proofs/OrderExport.v
theories/Proofs/OrderFacts.v
theories/Proofs/OrderMain.v
theories/Proofs/OrderTypes.v
theories/Proofs/OrderWitness.v
theories/Proofs/OriginFacts.v
theories/Proofs/OriginWitness.v
theories/Proofs/PartFacts.v
theories/Proofs/PartWitness.v
theories/Proofs/PolyLemmas.v
theories/Proofs/PrimitiveFacts.v
theories/Proofs/PrimitiveTypes.v
theories/Proofs/PrimitiveWitness.v
theories/Proofs/RegexLemmas.v
theories/Proofs/RenameFacts.v
theories/Proofs/RenameWitness.v
theories/Proofs/ReorderExport.v
theories/Proofs/ReorderFacts.v
theories/Proofs/ReorderFit.v
theories/Proofs/ReorderMain.v
theories/Proofs/ReorderWitness.v
theories/Proofs/ReportFacts.v
theories/Proofs/ReportTypes.v
theories/Proofs/ReportWitness.v
theories/Proofs/RoleFacts.v
theories/Proofs/RoundTrip.v
theories/Proofs/SetterFacts.v
theories/Proofs/SetterObjFacts.v
theories/Proofs/SettledFacts.v
theories/Proofs/SettledWitness.v
theories/Proofs/ShadowFacts.v
theories/Proofs/ShadowWitness.v
theories/Proofs/SizeFacts.v
theories/Proofs/Sound.v
theories/Proofs/StepsFacts.v
theories/Proofs/StepsWitness.v
theories/Proofs/TextLemmas.v
theories/Proofs/ThreadFacts.v
theories/Proofs/Tight.v
theories/Proofs/TightenFacts.v
theories/Proofs/TightenWitness.v
theories/Proofs/TranslateFacts.v
theories/Proofs/TruthFacts.v
theories/Proofs/TypeClassFacts.v
theories/Proofs/TypeClassWitness.v
theories/Proofs/TypeLemmas.v
theories/Proofs/TypeWitness.v
theories/Proofs/UndefinedFacts.v
theories/Proofs/UrlCheckFacts.v
theories/Proofs/UrlLemmas.v
theories/Proofs/UrlMock.v
theories/Proofs/UrlValid.v
theories/Proofs/Utf8.v
theories/Proofs/UuidFacts.v
theories/Proofs/ValidateDeep.v
theories/Proofs/ValidateLemmas.v
theories/Proofs/ValidateMore.v
theories/Proofs/ValidateWitness.v
theories/Proofs/WarningsFacts.v
theories/Properties/P01_Import.v
theories/Properties/P02_Validate.v
theories/Properties/P03_Compound.v
theories/Properties/P04_Export.v
theories/Properties/P05_Model.v
theories/Properties/P06_Stack.v
theories/Properties/P07_Equality.v
theories/Properties/P08_Types.v
theories/Properties/P09_Mock.v
theories/Properties/P10_DateTime.v
theories/Properties/P11_Net.v
theories/Properties/P12_Nested.v
theories/Properties/P13_Errors.v
theories/Properties/P14_Context.v
theories/Properties/P15_Meta.v
theories/Properties/P16_TypeClass.v
theories/Properties/P17_MockObject.v
theories/Properties/P18_Functional.v
theories/Properties/P19_Machine.v
theories/Properties/P20_Build.v
theories/Properties/P21_Candidates.v
theories/Properties/P22_ByName.v
theories/Properties/P23_Primitive.v
theories/Properties/P24_Atoms.v
theories/Properties/P25_AppData.v
theories/Properties/P26_Translate.v
theories/Properties/P27_Mongo.v
theories/Properties/P28_Alias.v
theories/Properties/P29_Setters.v
theories/Properties/P30_Numbers.v
theories/Properties/P31_HelpText.v
theories/Properties/P32_Messages.v
theories/Properties/P33_Cyclic.v
theories/Properties/P34_Append.v
theories/Properties/P35_Order.v
theories/Properties/P36_Options.v
theories/Properties/P37_Convert.v
theories/Properties/P38_DataObject.v
theories/Properties/P39_Evolve.v
theories/Properties/P40_Forward.v
theories/Properties/P41_Report.v
theories/Properties/P42_Exchange.v
theories/Properties/P43_Tighten.v
theories/Properties/P44_Steps.v
theories/Properties/P45_Rename.v
theories/Properties/P46_Part.v
theories/Properties/P47_Origin.v
theories/Properties/P48_Undefined.v
theories/Properties/P49_Reorder.v
theories/Properties/P50_Independ.v
theories/Properties/P51_Compose.v
theories/Properties/P52_Accept.v
theories/Properties/P53_Map.v
theories/Properties/P54_Names.v
theories/Properties/P55_Shadow.v
theories/Properties/P56_FieldCopy.v
theories/Properties/P57_KeyCache.v
theories/Properties/P58_SetterObj.v
theories/Properties/P59_AppendCalc.v
theories/Properties/P60_InstanceCopy.v
theories/Properties/P61_UrlCheck.v
theories/Properties/P62_CalcAttr.v
theories/Properties/P63_OldNames.v
theories/Properties/P64_Warnings.v
theories/Spec/AcceptSpec.v
theories/Spec/AliasSpec.v
theories/Spec/ApiSpec.v
theories/Spec/AppDataSpec.v
theories/Spec/AppendCalcSpec.v
theories/Spec/AppendSpec.v
theories/Spec/AtomsSpec.v
theories/Spec/BuildSpec.v
theories/Spec/ByNameSpec.v
theories/Spec/CalcAttrSpec.v
theories/Spec/CallSpec.v
theories/Spec/CandidateSpec.v
theories/Spec/ComposeSpec.v
theories/Spec/CompoundSpec.v
theories/Spec/ContextSpec.v
theories/Spec/CyclicSpec.v
theories/Spec/DataObjSpec.v
theories/Spec/DateSpec.v
theories/Spec/DeepSpec.v
theories/Spec/EnumSpec.v
theories/Spec/EqSpec.v
theories/Spec/ErrorSpec.v
theories/Spec/EvolveSpec.v
theories/Spec/ExchangeSpec.v
theories/Spec/ExportSpec.v
theories/Spec/FieldCopySpec.v
theories/Spec/FloatSpec.v
theories/Spec/ForwardSpec.v
theories/Spec/FuelSpec.v
theories/Spec/FunctionalSpec.v
theories/Spec/HelpTextSpec.v
theories/Spec/IdemSpec.v
theories/Spec/ImportSpec.v
theories/Spec/IndependSpec.v
theories/Spec/InstanceCopySpec.v
theories/Spec/KeyCacheSpec.v
theories/Spec/MachineSpec.v
theories/Spec/MapSpec.v
theories/Spec/MessagesSpec.v
theories/Spec/MetaSpec.v
theories/Spec/MockSpec.v
theories/Spec/MongoSpec.v
theories/Spec/NamesSpec.v
theories/Spec/NestedSpec.v
theories/Spec/NetSpec.v
theories/Spec/NumberSpec.v
theories/Spec/OptionSpec.v
theories/Spec/OrderSpec.v
theories/Spec/OriginSpec.v
theories/Spec/PartSpec.v
theories/Spec/PrimitiveSpec.v
theories/Spec/RenameSpec.v
theories/Spec/ReorderSpec.v
theories/Spec/ReportSpec.v
theories/Spec/RoleSpec.v
theories/Spec/SetterObjSpec.v
theories/Spec/SetterSpec.v
theories/Spec/SettledSpec.v
theories/Spec/SizeSpec.v
theories/Spec/StepsSpec.v
theories/Spec/TextSpec.v
theories/Spec/ThreadSpec.v
theories/Spec/TightenSpec.v
theories/Spec/TranslateSpec.v
theories/Spec/TruthSpec.v
theories/Spec/TypeClassSpec.v
theories/Spec/TypeSpec.v
theories/Spec/UndefinedSpec.v
theories/Spec/UrlCheckSpec.v
theories/Spec/UrlSpec.v
theories/Spec/UuidSpec.v
theories/Spec/ValidateSpec.v
