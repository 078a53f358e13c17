-Q theories Verif
theories/Py.v
theories/Num.v
theories/Model_Validate.v
theories/Spec_Validate.v
theories/Proofs_Validate.v
theories/Props_Validate.v
theories/Model_Diagnostic.v
theories/Proofs_Diagnostic.v
theories/Props_Diagnostic.v
theories/Model_Raw.v
theories/Proofs_Steps.v
theories/Props_Steps.v
theories/Model_Interp.v
theories/Spec_Interp.v
theories/Proofs_Interp.v
theories/Model_Structure.v
theories/Spec_Structure.v
theories/Proofs_Structure.v
theories/Props_Interp.v
theories/Props_Structure.v
theories/Model_Summary.v
theories/Spec_Summary.v
theories/Proofs_Summary.v
theories/Spec_Life.v
theories/Proofs_Life.v
theories/Props_Summary.v
theories/Props_Life.v
theories/Model_Datapath.v
theories/Spec_Datapath.v
theories/Proofs_Datapath.v
theories/Props_Datapath.v
theories/Proofs_Strings.v
theories/Model_Maccor.v
theories/Spec_Maccor.v
theories/Proofs_Maccor.v
theories/Props_Maccor.v
theories/Model_Biologic.v
theories/Spec_Biologic.v
theories/Proofs_Biologic.v
theories/Props_Biologic.v
theories/Model_Readers.v
theories/Spec_Readers.v
theories/Proofs_Readers.v
theories/Props_Readers.v
theories/Model_Load.v
theories/Spec_Load.v
theories/Proofs_Load.v
theories/Props_Load.v
theories/Model_Text.v
theories/Proofs_Text.v
theories/Model_Units.v
theories/Spec_Units.v
theories/Proofs_Units.v
theories/Spec_Numeral.v
theories/Proofs_Numeral.v
theories/Props_Units.v
theories/Model_M2B.v
theories/Spec_M2B.v
theories/Proofs_M2B.v
theories/Proofs_M2B_Techniques.v
theories/Proofs_M2B_Filters.v
theories/Proofs_M2B_Total.v
theories/Props_M2B.v
theories/Model_B2M.v
theories/Spec_B2M.v
theories/Proofs_B2M.v
theories/Proofs_B2M_Steps.v
theories/Proofs_B2M_Values.v
theories/Props_B2M.v
theories/Model_Arbin.v
theories/Spec_Arbin.v
theories/Proofs_Arbin.v
theories/Proofs_Arbin_Set.v
theories/Props_Arbin.v
theories/Model_M2A.v
theories/Spec_M2A.v
theories/Proofs_M2A.v
theories/Proofs_M2A_Sdu.v
theories/Proofs_M2A_Ends.v
theories/Props_M2A.v
theories/Model_Procedure.v
theories/Template_V2.v
theories/Template_V3.v
theories/Template_V4.v
theories/Template_V5.v
theories/Template_Driving.v
theories/Template_EXP.v
theories/Spec_Procedure.v
theories/Proofs_Procedure.v
theories/Proofs_Procedure_Docs.v
theories/Proofs_Procedure_Gen.v
theories/Proofs_Procedure_Whole.v
theories/Proofs_Procedure_Templates.v
theories/Proofs_Procedure_Skip.v
theories/Props_Procedure.v
theories/Model_Waveform.v
theories/Spec_Waveform.v
theories/Proofs_Waveform.v
theories/Proofs_Charging.v
theories/Props_Waveform.v
theories/Model_Generate.v
theories/Spec_Generate.v
theories/Proofs_Generate.v
theories/Props_Generate.v
theories/Model_Cmd.v
theories/Spec_Cmd.v
theories/Proofs_Cmd.v
theories/Proofs_Featurize.v
theories/Props_Cmd.v
theories/Model_Features.v
theories/Spec_Features.v
theories/Proofs_Frames.v
theories/Proofs_Features.v
theories/Props_Features.v
theories/Model_Splitter.v
theories/Spec_Splitter.v
theories/Proofs_Tab.v
theories/Proofs_Splitter.v
theories/Proofs_Kfold.v
theories/Props_Splitter.v
theories/Model_Linear.v
theories/Spec_Linear.v
theories/Proofs_Linear.v
theories/Props_Linear.v
theories/Model_Stats.v
theories/Spec_Stats.v
theories/Proofs_Stats.v
theories/Props_Stats.v
theories/Model_Degrade.v
theories/Spec_Degrade.v
theories/Proofs_Degrade.v
theories/Props_Degrade.v
theories/Model_DiagData.v
theories/Spec_DiagData.v
theories/Proofs_DiagData.v
theories/Props_DiagData.v
theories/Model_Lookup.v
theories/Spec_Lookup.v
theories/Proofs_Lookup.v
theories/Props_Lookup.v
theories/Model_Hppc.v
theories/Spec_Hppc.v
theories/Proofs_Hppc.v
theories/Props_Hppc.v
theories/Model_Image.v
theories/Spec_Image.v
theories/Proofs_Image.v
theories/Props_Image.v
theories/Model_Intracell.v
theories/Spec_Intracell.v
theories/Proofs_Intracell.v
theories/Props_Intracell.v
theories/Model_Intracell_First.v
theories/Spec_Intracell_First.v
theories/Proofs_Intracell_First.v
theories/Props_Intracell_First.v
theories/Model_Mps.v
theories/Spec_Mps.v
theories/Template_Formation.v
theories/Proofs_Mps.v
theories/Proofs_Mps_Formation.v
theories/Props_Mps.v
theories/Model_MaccorFile.v
theories/Spec_MaccorFile.v
theories/Spec_MaccorGen.v
theories/File_V2.v
theories/File_V3.v
theories/File_V4.v
theories/File_V5.v
theories/File_Driving.v
theories/File_EXP.v
theories/Proofs_MaccorFile.v
theories/Proofs_MaccorFile_Text.v
theories/Proofs_MaccorFile_Read.v
theories/Proofs_MaccorFile_Main.v
theories/Proofs_MaccorFile_File.v
theories/Proofs_MaccorFile_Lines.v
theories/Proofs_MaccorFile_Plain.v
theories/Proofs_MaccorFile_Gen.v
theories/Proofs_MaccorFile_Check.v
theories/Props_MaccorFile.v
theories/Model_Stamp.v
theories/Spec_Stamp.v
theories/Proofs_Stamp.v
theories/Props_Stamp.v
theories/Model_RawFile.v
theories/Spec_RawFile.v
theories/Proofs_RawFile.v
theories/Props_RawFile.v
theories/Model_CyclerFile.v
theories/Spec_CyclerFile.v
theories/Proofs_CyclerFile.v
theories/Proofs_CyclerText.v
theories/Props_CyclerFile.v
theories/Model_Transfer.v
theories/Spec_Transfer.v
theories/Proofs_Transfer.v
theories/Props_Transfer.v
theories/Model_RapidCharge.v
theories/Spec_RapidCharge.v
theories/Proofs_RapidCharge.v
theories/Props_RapidCharge.v
theories/Model_Components.v
theories/Spec_Components.v
theories/Proofs_Components.v
theories/Props_Components.v
theories/Model_SpliceFile.v
theories/Spec_SpliceFile.v
theories/Proofs_SpliceFile.v
theories/Props_SpliceFile.v
theories/Model_Identity.v
theories/Spec_Identity.v
theories/Proofs_Identity.v
theories/Props_Identity.v
theories/Model_B2MFile.v
theories/Spec_B2MFile.v
theories/Proofs_B2MFile.v
theories/Props_B2MFile.v
theories/Model_Dtypes.v
theories/Spec_Dtypes.v
theories/Proofs_Dtypes.v
theories/Props_Dtypes.v
theories/Model_Inspect.v
theories/Spec_Inspect.v
theories/Proofs_Inspect.v
theories/Props_Inspect.v
theories/Model_Options.v
theories/Spec_Options.v
theories/Proofs_Options.v
theories/Props_Options.v
theories/Model_B2MConvert.v
theories/Spec_B2MConvert.v
theories/Props_B2MConvert.v
