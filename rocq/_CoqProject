-Q theories Verif
theories/Base.v
theories/Flt.v
theories/FltProofs.v
theories/RoundSpec.v
theories/RoundProofs.v
theories/SeqFile.v
theories/H5.v
theories/Schema.v
theories/Parsers.v
theories/SeqSpec.v
theories/ListFacts.v
theories/SeqProofs.v
theories/NumeralSpec.v
theories/NumeralProofs.v
theories/NumeralMore.v
theories/Props_Num.v
theories/SeqTerm.v
theories/NumProofs.v
theories/ParserTerm.v
theories/StoreSpec.v
theories/StoreProofs.v
theories/ParserSpec.v
theories/ParserRun.v
theories/LayoutSpec.v
theories/LayoutProofs.v
theories/LayoutBodies.v
theories/FileSpec.v
theories/FileProofs.v
theories/DataSpec.v
theories/DataProofs.v
theories/ReadFile.v
theories/RecordSpec.v
theories/RecordProofs.v
theories/RecordMore.v
theories/OnlySpec.v
theories/OnlyProofs.v
theories/Sample.v
theories/Sample2.v
theories/ParseMore.v
theories/Props_Parse.v
theories/FieldSpec.v
theories/FieldProofs.v
theories/Props_Field.v
theories/SeqMore.v
theories/Props_Seq.v
theories/Write.v
theories/WriteSpec.v
theories/WriteNum.v
theories/WriteProofs.v
theories/Props_Write.v
theories/Data.v
theories/Struc.v
theories/StrucSpec.v
theories/DataFacts.v
theories/StrucProofs.v
theories/StrucGet.v
theories/StrucRes.v
theories/Files.v
theories/FilesProofs.v
theories/Trans.v
theories/TransSpec.v
theories/TransProofs.v
theories/StrucSample.v
theories/StrucExist.v
theories/StrucMore.v
theories/TransSample.v
theories/Props_Struc.v
theories/Nd.v
theories/Hydro.v
theories/NdProofs.v
theories/HydroSpec.v
theories/FltOrder.v
theories/HydroUnique.v
theories/HydroProofs.v
theories/HydroMore.v
theories/HydroGrid.v
theories/HydroSample.v
theories/Props_Hydro.v
theories/Handles.v
theories/HandlesSpec.v
theories/HandlesProofs.v
theories/Props_Handles.v
theories/Vtu.v
theories/VtuSpec.v
theories/DecFacts.v
theories/VtuText.v
theories/VtuProofs.v
theories/VtuMore.v
theories/VtuReorder.v
theories/Props_Vtu.v
theories/Elem.v
theories/ElemSpec.v
theories/ElemProofs.v
theories/ElemResSpec.v
theories/ElemRes.v
theories/ElemMore.v
theories/Props_Elem.v
theories/Calc.v
theories/CalcSpec.v
theories/CalcProofs.v
theories/CalcEigen.v
theories/Props_Calc.v
theories/ThickSpec.v
theories/ThickProofs.v
theories/Props_Thick.v
theories/IeeeSpec.v
theories/IeeeFacts.v
theories/IeeeExists.v
theories/CalcFloat.v
theories/CalcFloatProofs.v
theories/Props_Ieee.v
theories/SifName.v
theories/SifNameSpec.v
theories/SifNameProofs.v
theories/Convert.v
theories/Halt.v
theories/Session.v
theories/ConvertFrame.v
theories/ConvertSpec.v
theories/ConvertProofs.v
theories/AssemblySpec.v
theories/AssemblyProofs.v
theories/AssemblyOpen.v
theories/HaltSpec.v
theories/HaltProofs.v
theories/HaltKeeps.v
theories/HaltConv.v
theories/HaltReads.v
theories/HaltCut.v
theories/SessionSpec.v
theories/SessionProofs.v
theories/SessionMore.v
theories/SessionPath.v
theories/AssemblyData.v
theories/ConvertSample.v
theories/SaysSpec.v
theories/SaysProofs.v
theories/SaysOpen.v
theories/FileSample.v
theories/Props_Convert.v
theories/Props_Session.v
theories/Props_Halt.v
theories/Props_File.v
theories/HydroSays.v
theories/HydroFound.v
theories/HydroStart.v
theories/HydroDefSpec.v
theories/HydroDefProofs.v
theories/HydroFileSample.v
theories/Props_HydroFile.v
theories/Props_HydroDef.v
theories/SaysGives.v
theories/AssemblySample.v
theories/Props_Assembly.v
theories/Describe.v
theories/DescribeProofs.v
theories/DescribeTypes.v
theories/DescribeFile.v
theories/Survey.v
theories/SurveyProofs.v
theories/RealFiles.v
theories/Listing.v
theories/CoordsProofs.v
theories/SetArg.v
theories/SetArgProofs.v
theories/Props_SetArg.v
theories/HierFile.v
theories/Props_Hier.v
theories/Props_Coords.v
theories/CoordsFloat.v
theories/Props_CoordsFloat.v
theories/HierNum.v
theories/Props_HierFloat.v
theories/HydroFloat.v
theories/FltValue.v
theories/FloatOps.v
theories/FloatReal.v
theories/FloatArith.v
theories/PiBound.v
theories/HydroNum.v
theories/Props_HydroFloat.v
theories/ListSpec.v
theories/ListProofs.v
theories/ListFile.v
theories/Props_List.v
theories/Props_Survey.v
theories/JobsSpec.v
theories/JobsProofs.v
theories/Props_Jobs.v
theories/ElemValuesSpec.v
theories/ElemValuesProofs.v
theories/Props_ElemValues.v
theories/Export.v
theories/ExportSpec.v
theories/ExportItems.v
theories/ExportRun.v
theories/ExportNumbers.v
theories/ExportProofs.v
theories/Props_Export.v
theories/ElemExport.v
theories/ElemExportSpec.v
theories/ElemExportProofs.v
theories/Props_ElemExport.v
theories/DotSpec.v
theories/DotProofs.v
theories/ElemFloat.v
theories/ElemFloatSpec.v
theories/ElemFloatNum.v
theories/ElemFloatProofs.v
theories/Props_ElemFloat.v
theories/Props_ElemFile.v
theories/StressProofs.v
theories/StressBound.v
theories/Props_Stress.v
theories/ShellSample.v
theories/Props_StressFile.v
theories/IeeeIdem.v
theories/ElemComplex.v
theories/ComplexSample.v
theories/Props_ElemComplex.v
theories/Props_Converted.v
theories/Props_HydroConverted.v
theories/Props_ConvertedMore.v
theories/Props_NodeRes.v
theories/Vtf.v
theories/VtfSpec.v
theories/VtfText.v
theories/VtfNodes.v
theories/VtfElems.v
theories/VtfRest.v
theories/VtfWhole.v
theories/VtfAddSpec.v
theories/VtfAdd.v
theories/VtfSample.v
theories/Props_Vtf.v
theories/VtfTerm.v
theories/Props_VtfTerm.v
theories/Props_ResRef.v
theories/Props_History.v
