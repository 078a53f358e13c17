(** The steps of beep/protocol/procedure_templates/EXP.000:18-846 as xmltodict.parse
    gives them (texts stripped, empty elements None); written by a script from the file. *)
From Verif Require Import Py Model_Procedure.
Local Open Scope string_scope.

Definition exp_s0 : val := VDict [("StepType", VText "Rest"); ("StepMode", VNone); ("StepValue", VNone); ("Limits", VNone); ("Ends", VDict [("EndEntry", VList [VDict [("EndType", VText "StepTime"); ("SpecialType", VNone); ("Oper", VText "="); ("Step", VText "002"); ("Value", VText "00:00:05")]; VDict [("EndType", VText "Voltage"); ("SpecialType", VNone); ("Oper", VText ">="); ("Step", VText "023"); ("Value", VText "4.25"); ("ChanSafetyEnd", VText "True")]; VDict [("EndType", VText "Voltage"); ("SpecialType", VNone); ("Oper", VText "<="); ("Step", VText "023"); ("Value", VText "2.9"); ("ChanSafetyEnd", VText "True")]])]); ("Reports", VDict [("ReportEntry", VDict [("ReportType", VText "StepTime"); ("Value", VText "00:00:30")])]); ("Range", VText "4"); ("Option1", VText "N"); ("Option2", VText "N"); ("Option3", VText "N"); ("StepNote", VNone)].
Definition exp_s1 : val := VDict [("StepType", VText "Dischrge"); ("StepMode", VText "Current"); ("StepValue", VText "2.0C"); ("Limits", VNone); ("Ends", VDict [("EndEntry", VList [VDict [("EndType", VText "Voltage"); ("SpecialType", VNone); ("Oper", VText "<="); ("Step", VText "003"); ("Value", VText "3.0")]; VDict [("EndType", VText "Voltage"); ("SpecialType", VNone); ("Oper", VText ">="); ("Step", VText "023"); ("Value", VText "4.25")]; VDict [("EndType", VText "Voltage"); ("SpecialType", VNone); ("Oper", VText "<="); ("Step", VText "023"); ("Value", VText "2.9")]])]); ("Reports", VDict [("ReportEntry", VDict [("ReportType", VText "Voltage"); ("Value", VText "0.005")])]); ("Range", VText "4"); ("Option1", VText "N"); ("Option2", VText "N"); ("Option3", VText "N"); ("StepNote", VNone)].
Definition exp_s2 : val := VDict [("StepType", VText "Rest"); ("StepMode", VNone); ("StepValue", VNone); ("Limits", VNone); ("Ends", VDict [("EndEntry", VList [VDict [("EndType", VText "StepTime"); ("SpecialType", VNone); ("Oper", VText "="); ("Step", VText "004"); ("Value", VText "00:15:00")]; VDict [("EndType", VText "Voltage"); ("SpecialType", VNone); ("Oper", VText ">="); ("Step", VText "023"); ("Value", VText "4.25")]; VDict [("EndType", VText "Voltage"); ("SpecialType", VNone); ("Oper", VText "<="); ("Step", VText "023"); ("Value", VText "2.9")]])]); ("Reports", VDict [("ReportEntry", VDict [("ReportType", VText "StepTime"); ("Value", VText "00:00:30")])]); ("Range", VText "4"); ("Option1", VText "N"); ("Option2", VText "N"); ("Option3", VText "N"); ("StepNote", VNone)].
Definition exp_s3 : val := VDict [("StepType", VText "Do 2"); ("StepMode", VNone); ("StepValue", VNone); ("Limits", VNone); ("Ends", VNone); ("Reports", VNone); ("Range", VNone); ("Option1", VNone); ("Option2", VNone); ("Option3", VNone); ("StepNote", VNone)].
Definition exp_s4 : val := VDict [("StepType", VText "Do 1"); ("StepMode", VNone); ("StepValue", VNone); ("Limits", VNone); ("Ends", VNone); ("Reports", VNone); ("Range", VNone); ("Option1", VNone); ("Option2", VNone); ("Option3", VNone); ("StepNote", VNone)].
Definition exp_s5 : val := VDict [("StepType", VText "Charge"); ("StepMode", VText "Current"); ("StepValue", VText "2.0C"); ("Limits", VDict [("Voltage", VText "4.2")]); ("Ends", VDict [("EndEntry", VList [VDict [("EndType", VText "Current"); ("SpecialType", VNone); ("Oper", VText "<="); ("Step", VText "007"); ("Value", VText "0.5C")]; VDict [("EndType", VText "Voltage"); ("SpecialType", VNone); ("Oper", VText ">="); ("Step", VText "023"); ("Value", VText "4.25")]; VDict [("EndType", VText "Voltage"); ("SpecialType", VNone); ("Oper", VText "<="); ("Step", VText "023"); ("Value", VText "2.9")]])]); ("Reports", VDict [("ReportEntry", VList [VDict [("ReportType", VText "Voltage"); ("Value", VText "0.005")]; VDict [("ReportType", VText "StepTime"); ("Value", VText "00:00:30")]])]); ("Range", VText "4"); ("Option1", VText "N"); ("Option2", VText "N"); ("Option3", VText "N"); ("StepNote", VNone)].
Definition exp_s6 : val := VDict [("StepType", VText "Dischrge"); ("StepMode", VText "Current"); ("StepValue", VText "2.0C"); ("Limits", VNone); ("Ends", VDict [("EndEntry", VList [VDict [("EndType", VText "Voltage"); ("SpecialType", VNone); ("Oper", VText "<="); ("Step", VText "008"); ("Value", VText "3.0")]; VDict [("EndType", VText "Voltage"); ("SpecialType", VNone); ("Oper", VText ">="); ("Step", VText "023"); ("Value", VText "4.25")]; VDict [("EndType", VText "Voltage"); ("SpecialType", VNone); ("Oper", VText "<="); ("Step", VText "023"); ("Value", VText "2.9")]])]); ("Reports", VDict [("ReportEntry", VDict [("ReportType", VText "Voltage"); ("Value", VText "0.005")])]); ("Range", VText "4"); ("Option1", VText "N"); ("Option2", VText "N"); ("Option3", VText "N"); ("StepNote", VNone)].
Definition exp_s7 : val := VDict [("StepType", VText "Rest"); ("StepMode", VNone); ("StepValue", VNone); ("Limits", VNone); ("Ends", VDict [("EndEntry", VList [VDict [("EndType", VText "StepTime"); ("SpecialType", VNone); ("Oper", VText "="); ("Step", VText "009"); ("Value", VText "00:15:00")]; VDict [("EndType", VText "Voltage"); ("SpecialType", VNone); ("Oper", VText ">="); ("Step", VText "023"); ("Value", VText "4.25")]; VDict [("EndType", VText "Voltage"); ("SpecialType", VNone); ("Oper", VText "<="); ("Step", VText "023"); ("Value", VText "2.9")]])]); ("Reports", VDict [("ReportEntry", VDict [("ReportType", VText "StepTime"); ("Value", VText "00:00:30")])]); ("Range", VText "4"); ("Option1", VText "N"); ("Option2", VText "N"); ("Option3", VText "N"); ("StepNote", VNone)].
Definition exp_s8 : val := VDict [("StepType", VText "Loop 1"); ("StepMode", VNone); ("StepValue", VNone); ("Limits", VNone); ("Ends", VDict [("EndEntry", VDict [("EndType", VText "Loop Cnt"); ("SpecialType", VNone); ("Oper", VText "="); ("Step", VText "010"); ("Value", VText "30")])]); ("Reports", VNone); ("Range", VNone); ("Option1", VNone); ("Option2", VNone); ("Option3", VNone); ("StepNote", VNone)].
Definition exp_s9 : val := VDict [("StepType", VText "Dischrge"); ("StepMode", VText "Current"); ("StepValue", VText "0.2C"); ("Limits", VDict [("Voltage", VText "3.0")]); ("Ends", VDict [("EndEntry", VList [VDict [("EndType", VText "Current"); ("SpecialType", VNone); ("Oper", VText "<="); ("Step", VText "011"); ("Value", VText "0.05C")]; VDict [("EndType", VText "Voltage"); ("SpecialType", VNone); ("Oper", VText ">="); ("Step", VText "023"); ("Value", VText "4.25")]; VDict [("EndType", VText "Voltage"); ("SpecialType", VNone); ("Oper", VText "<="); ("Step", VText "023"); ("Value", VText "2.9")]])]); ("Reports", VDict [("ReportEntry", VDict [("ReportType", VText "StepTime"); ("Value", VText "00:00:30")])]); ("Range", VText "4"); ("Option1", VText "N"); ("Option2", VText "N"); ("Option3", VText "N"); ("StepNote", VNone)].
Definition exp_s10 : val := VDict [("StepType", VText "Rest"); ("StepMode", VNone); ("StepValue", VNone); ("Limits", VNone); ("Ends", VDict [("EndEntry", VList [VDict [("EndType", VText "StepTime"); ("SpecialType", VNone); ("Oper", VText "="); ("Step", VText "012"); ("Value", VText "00:15:00")]; VDict [("EndType", VText "Voltage"); ("SpecialType", VNone); ("Oper", VText ">="); ("Step", VText "023"); ("Value", VText "4.25")]; VDict [("EndType", VText "Voltage"); ("SpecialType", VNone); ("Oper", VText "<="); ("Step", VText "023"); ("Value", VText "2.9")]])]); ("Reports", VDict [("ReportEntry", VDict [("ReportType", VText "StepTime"); ("Value", VText "00:00:30")])]); ("Range", VText "4"); ("Option1", VText "N"); ("Option2", VText "N"); ("Option3", VText "N"); ("StepNote", VNone)].
Definition exp_s11 : val := VDict [("StepType", VText "Chg Func"); ("StepMode", VText "Current"); ("StepValue", VText "0|4*CRATE*(STIME/3600)"); ("Limits", VNone); ("Ends", VDict [("EndEntry", VList [VDict [("EndType", VText "Voltage"); ("SpecialType", VNone); ("Oper", VText ">="); ("Step", VText "013"); ("Value", VText "3.6")]; VDict [("EndType", VText "Voltage"); ("SpecialType", VNone); ("Oper", VText ">="); ("Step", VText "023"); ("Value", VText "4.25")]; VDict [("EndType", VText "Voltage"); ("SpecialType", VNone); ("Oper", VText "<="); ("Step", VText "023"); ("Value", VText "2.9")]])]); ("Reports", VDict [("ReportEntry", VDict [("ReportType", VText "Voltage"); ("Value", VText "0.001")])]); ("Range", VText "4"); ("Option1", VText "N"); ("Option2", VText "N"); ("Option3", VText "N"); ("StepNote", VNone)].
Definition exp_s12 : val := VDict [("StepType", VText "Charge"); ("StepMode", VText "Voltage"); ("StepValue", VText "3.6"); ("Limits", VNone); ("Ends", VDict [("EndEntry", VList [VDict [("EndType", VText "Current"); ("SpecialType", VNone); ("Oper", VText "<="); ("Step", VText "014"); ("Value", VText "0.05C")]; VDict [("EndType", VText "Voltage"); ("SpecialType", VNone); ("Oper", VText ">="); ("Step", VText "023"); ("Value", VText "4.25")]; VDict [("EndType", VText "Voltage"); ("SpecialType", VNone); ("Oper", VText "<="); ("Step", VText "023"); ("Value", VText "2.9")]])]); ("Reports", VDict [("ReportEntry", VList [VDict [("ReportType", VText "StepTime"); ("Value", VText "00:00:10")]; VDict [("ReportType", VText "Current"); ("Value", VText "0.001C")]])]); ("Range", VText "4"); ("Option1", VText "N"); ("Option2", VText "N"); ("Option3", VText "N"); ("StepNote", VNone)].
Definition exp_s13 : val := VDict [("StepType", VText "Chg Func"); ("StepMode", VText "Current"); ("StepValue", VText "0|4*CRATE*(STIME/3600)"); ("Limits", VNone); ("Ends", VDict [("EndEntry", VList [VDict [("EndType", VText "Voltage"); ("SpecialType", VNone); ("Oper", VText ">="); ("Step", VText "015"); ("Value", VText "3.8")]; VDict [("EndType", VText "Voltage"); ("SpecialType", VNone); ("Oper", VText ">="); ("Step", VText "023"); ("Value", VText "4.25")]; VDict [("EndType", VText "Voltage"); ("SpecialType", VNone); ("Oper", VText "<="); ("Step", VText "023"); ("Value", VText "2.9")]])]); ("Reports", VDict [("ReportEntry", VDict [("ReportType", VText "Voltage"); ("Value", VText "0.001")])]); ("Range", VText "4"); ("Option1", VText "N"); ("Option2", VText "N"); ("Option3", VText "N"); ("StepNote", VNone)].
Definition exp_s14 : val := VDict [("StepType", VText "Charge"); ("StepMode", VText "Voltage"); ("StepValue", VText "3.8"); ("Limits", VNone); ("Ends", VDict [("EndEntry", VList [VDict [("EndType", VText "Current"); ("SpecialType", VNone); ("Oper", VText "<="); ("Step", VText "016"); ("Value", VText "0.05C")]; VDict [("EndType", VText "Voltage"); ("SpecialType", VNone); ("Oper", VText ">="); ("Step", VText "023"); ("Value", VText "4.25")]; VDict [("EndType", VText "Voltage"); ("SpecialType", VNone); ("Oper", VText "<="); ("Step", VText "023"); ("Value", VText "2.9")]])]); ("Reports", VDict [("ReportEntry", VList [VDict [("ReportType", VText "StepTime"); ("Value", VText "00:00:30")]; VDict [("ReportType", VText "Current"); ("Value", VText "0.001C")]])]); ("Range", VText "4"); ("Option1", VText "N"); ("Option2", VText "N"); ("Option3", VText "N"); ("StepNote", VNone)].
Definition exp_s15 : val := VDict [("StepType", VText "Chg Func"); ("StepMode", VText "Current"); ("StepValue", VText "0|4*CRATE*(STIME/3600)"); ("Limits", VNone); ("Ends", VDict [("EndEntry", VList [VDict [("EndType", VText "Voltage"); ("SpecialType", VNone); ("Oper", VText ">="); ("Step", VText "017"); ("Value", VText "4.0")]; VDict [("EndType", VText "Voltage"); ("SpecialType", VNone); ("Oper", VText ">="); ("Step", VText "023"); ("Value", VText "4.25")]; VDict [("EndType", VText "Voltage"); ("SpecialType", VNone); ("Oper", VText "<="); ("Step", VText "023"); ("Value", VText "2.9")]])]); ("Reports", VDict [("ReportEntry", VDict [("ReportType", VText "Voltage"); ("Value", VText "0.001")])]); ("Range", VText "4"); ("Option1", VText "N"); ("Option2", VText "N"); ("Option3", VText "N"); ("StepNote", VNone)].
Definition exp_s16 : val := VDict [("StepType", VText "Charge"); ("StepMode", VText "Voltage"); ("StepValue", VText "4.0"); ("Limits", VNone); ("Ends", VDict [("EndEntry", VList [VDict [("EndType", VText "Current"); ("SpecialType", VNone); ("Oper", VText "<="); ("Step", VText "018"); ("Value", VText "0.05C")]; VDict [("EndType", VText "Voltage"); ("SpecialType", VNone); ("Oper", VText ">="); ("Step", VText "023"); ("Value", VText "4.25")]; VDict [("EndType", VText "Voltage"); ("SpecialType", VNone); ("Oper", VText "<="); ("Step", VText "023"); ("Value", VText "2.9")]])]); ("Reports", VDict [("ReportEntry", VList [VDict [("ReportType", VText "StepTime"); ("Value", VText "00:00:30")]; VDict [("ReportType", VText "Current"); ("Value", VText "0.001C")]])]); ("Range", VText "4"); ("Option1", VText "N"); ("Option2", VText "N"); ("Option3", VText "N"); ("StepNote", VNone)].
Definition exp_s17 : val := VDict [("StepType", VText "Chg Func"); ("StepMode", VText "Current"); ("StepValue", VText "0|4*CRATE*(STIME/3600)"); ("Limits", VNone); ("Ends", VDict [("EndEntry", VList [VDict [("EndType", VText "Voltage"); ("SpecialType", VNone); ("Oper", VText ">="); ("Step", VText "019"); ("Value", VText "4.1")]; VDict [("EndType", VText "Voltage"); ("SpecialType", VNone); ("Oper", VText ">="); ("Step", VText "023"); ("Value", VText "4.25")]; VDict [("EndType", VText "Voltage"); ("SpecialType", VNone); ("Oper", VText "<="); ("Step", VText "023"); ("Value", VText "2.9")]])]); ("Reports", VDict [("ReportEntry", VDict [("ReportType", VText "Voltage"); ("Value", VText "0.001")])]); ("Range", VText "4"); ("Option1", VText "N"); ("Option2", VText "N"); ("Option3", VText "N"); ("StepNote", VNone)].
Definition exp_s18 : val := VDict [("StepType", VText "Charge"); ("StepMode", VText "Voltage"); ("StepValue", VText "4.1"); ("Limits", VNone); ("Ends", VDict [("EndEntry", VList [VDict [("EndType", VText "Current"); ("SpecialType", VNone); ("Oper", VText "<="); ("Step", VText "020"); ("Value", VText "0.05C")]; VDict [("EndType", VText "Voltage"); ("SpecialType", VNone); ("Oper", VText ">="); ("Step", VText "023"); ("Value", VText "4.25")]; VDict [("EndType", VText "Voltage"); ("SpecialType", VNone); ("Oper", VText "<="); ("Step", VText "023"); ("Value", VText "2.9")]])]); ("Reports", VDict [("ReportEntry", VList [VDict [("ReportType", VText "StepTime"); ("Value", VText "00:00:30")]; VDict [("ReportType", VText "Current"); ("Value", VText "0.001C")]])]); ("Range", VText "4"); ("Option1", VText "N"); ("Option2", VText "N"); ("Option3", VText "N"); ("StepNote", VNone)].
Definition exp_s19 : val := VDict [("StepType", VText "Dischrge"); ("StepMode", VText "Current"); ("StepValue", VText "0.2C"); ("Limits", VNone); ("Ends", VDict [("EndEntry", VList [VDict [("EndType", VText "Voltage"); ("SpecialType", VNone); ("Oper", VText "<="); ("Step", VText "021"); ("Value", VText "3.0")]; VDict [("EndType", VText "Voltage"); ("SpecialType", VNone); ("Oper", VText ">="); ("Step", VText "023"); ("Value", VText "4.25")]; VDict [("EndType", VText "Voltage"); ("SpecialType", VNone); ("Oper", VText "<="); ("Step", VText "023"); ("Value", VText "2.9")]])]); ("Reports", VDict [("ReportEntry", VDict [("ReportType", VText "Voltage"); ("Value", VText "0.001")])]); ("Range", VText "4"); ("Option1", VText "N"); ("Option2", VText "N"); ("Option3", VText "N"); ("StepNote", VNone)].
Definition exp_s20 : val := VDict [("StepType", VText "Rest"); ("StepMode", VNone); ("StepValue", VNone); ("Limits", VNone); ("Ends", VDict [("EndEntry", VList [VDict [("EndType", VText "StepTime"); ("SpecialType", VNone); ("Oper", VText "="); ("Step", VText "022"); ("Value", VText "00:15:00")]; VDict [("EndType", VText "Voltage"); ("SpecialType", VNone); ("Oper", VText ">="); ("Step", VText "023"); ("Value", VText "4.25")]; VDict [("EndType", VText "Voltage"); ("SpecialType", VNone); ("Oper", VText "<="); ("Step", VText "023"); ("Value", VText "2.9")]])]); ("Reports", VDict [("ReportEntry", VDict [("ReportType", VText "StepTime"); ("Value", VText "00:00:30")])]); ("Range", VText "4"); ("Option1", VText "N"); ("Option2", VText "N"); ("Option3", VText "N"); ("StepNote", VNone)].
Definition exp_s21 : val := VDict [("StepType", VText "Loop 2"); ("StepMode", VNone); ("StepValue", VNone); ("Limits", VNone); ("Ends", VDict [("EndEntry", VDict [("EndType", VText "Loop Cnt"); ("SpecialType", VNone); ("Oper", VText "="); ("Step", VText "023"); ("Value", VText "20")])]); ("Reports", VNone); ("Range", VNone); ("Option1", VNone); ("Option2", VNone); ("Option3", VNone); ("StepNote", VNone)].
Definition exp_s22 : val := VDict [("StepType", VText "End"); ("StepMode", VNone); ("StepValue", VNone); ("Limits", VNone); ("Ends", VNone); ("Reports", VNone); ("Range", VNone); ("Option1", VNone); ("Option2", VNone); ("Option3", VNone); ("StepNote", VNone)].
Definition template_exp : steps :=
  [exp_s0; exp_s1; exp_s2; exp_s3; exp_s4; exp_s5; exp_s6; exp_s7; exp_s8; exp_s9; exp_s10; exp_s11; exp_s12; exp_s13; exp_s14; exp_s15; exp_s16; exp_s17; exp_s18; exp_s19; exp_s20; exp_s21; exp_s22].
