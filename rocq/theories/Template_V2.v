(** The steps of beep/protocol/procedure_templates/diagnosticV2.000:18-2460 as xmltodict.parse
    gives them (texts stripped, empty elements None); written by a script from the file. *)
From Verif Require Import Py Model_Procedure.
Local Open Scope string_scope.

Definition v2_s0 : val := VDict [("StepType", VText "Rest"); ("StepMode", VNone); ("StepValue", VNone); ("Limits", VNone); ("Ends", VDict [("EndEntry", VList [VDict [("EndType", VText "StepTime"); ("SpecialType", VNone); ("Oper", VText "="); ("Step", VText "002"); ("Value", VText "03:00:00")]; VDict [("EndType", VText "Voltage"); ("SpecialType", VNone); ("Oper", VText ">="); ("Step", VText "070"); ("Value", VText "4.4"); ("ChanSafetyEnd", VText "True")]; VDict [("EndType", VText "Voltage"); ("SpecialType", VNone); ("Oper", VText "<="); ("Step", VText "070"); ("Value", VText "2.5"); ("ChanSafetyEnd", VText "True")]])]); ("Reports", VDict [("ReportEntry", VDict [("ReportType", VText "StepTime"); ("Value", VText "00:00:30")])]); ("Range", VText "4"); ("Option1", VText "N"); ("Option2", VText "N"); ("Option3", VText "N"); ("StepNote", VNone)].
Definition v2_s1 : val := VDict [("StepType", VText "Charge"); ("StepMode", VText "Current"); ("StepValue", VText "1.0"); ("Limits", VNone); ("Ends", VDict [("EndEntry", VList [VDict [("EndType", VText "StepTime"); ("SpecialType", VNone); ("Oper", VText "="); ("Step", VText "003"); ("Value", VText "00:00:01")]; VDict [("EndType", VText "Voltage"); ("SpecialType", VNone); ("Oper", VText ">="); ("Step", VText "070"); ("Value", VText "4.4")]; VDict [("EndType", VText "Voltage"); ("SpecialType", VNone); ("Oper", VText "<="); ("Step", VText "070"); ("Value", VText "2.5")]])]); ("Reports", VDict [("ReportEntry", VDict [("ReportType", VText "StepTime"); ("Value", VText "::.01")])]); ("Range", VText "A"); ("Option1", VText "N"); ("Option2", VText "N"); ("Option3", VText "N"); ("StepNote", VNone)].
Definition v2_s2 : val := VDict [("StepType", VText "Rest"); ("StepMode", VNone); ("StepValue", VNone); ("Limits", VNone); ("Ends", VDict [("EndEntry", VList [VDict [("EndType", VText "StepTime"); ("SpecialType", VNone); ("Oper", VText "="); ("Step", VText "004"); ("Value", VText "00:01:00")]; VDict [("EndType", VText "Voltage"); ("SpecialType", VNone); ("Oper", VText ">="); ("Step", VText "070"); ("Value", VText "4.4")]; VDict [("EndType", VText "Voltage"); ("SpecialType", VNone); ("Oper", VText "<="); ("Step", VText "070"); ("Value", VText "2.5")]])]); ("Reports", VDict [("ReportEntry", VList [VDict [("ReportType", VText "StepTime"); ("Value", VText "00:00:01")]; VDict [("ReportType", VText "Voltage"); ("Value", VText "0.001")]])]); ("Range", VText "A"); ("Option1", VText "N"); ("Option2", VText "N"); ("Option3", VText "N"); ("StepNote", VNone)].
Definition v2_s3 : val := VDict [("StepType", VText "Do 1"); ("StepMode", VNone); ("StepValue", VNone); ("Limits", VNone); ("Ends", VNone); ("Reports", VNone); ("Range", VNone); ("Option1", VNone); ("Option2", VNone); ("Option3", VNone); ("StepNote", VNone)].
Definition v2_s4 : val := VDict [("StepType", VText "Charge"); ("StepMode", VText "Current"); ("StepValue", VText "0.1429"); ("Limits", VDict [("Voltage", VText "4.2")]); ("Ends", VDict [("EndEntry", VList [VDict [("EndType", VText "Current"); ("SpecialType", VNone); ("Oper", VText "<="); ("Step", VText "006"); ("Value", VText "0.0286")]; VDict [("EndType", VText "Voltage"); ("SpecialType", VNone); ("Oper", VText ">="); ("Step", VText "070"); ("Value", VText "4.4")]; VDict [("EndType", VText "Voltage"); ("SpecialType", VNone); ("Oper", VText "<="); ("Step", VText "070"); ("Value", VText "2.5")]])]); ("Reports", VDict [("ReportEntry", VList [VDict [("ReportType", VText "Voltage"); ("Value", VText "0.001")]; VDict [("ReportType", VText "StepTime"); ("Value", VText "00:02:00")]])]); ("Range", VText "A"); ("Option1", VText "N"); ("Option2", VText "N"); ("Option3", VText "N"); ("StepNote", VNone)].
Definition v2_s5 : val := VDict [("StepType", VText "Dischrge"); ("StepMode", VText "Current"); ("StepValue", VText "0.1429"); ("Limits", VNone); ("Ends", VDict [("EndEntry", VList [VDict [("EndType", VText "Voltage"); ("SpecialType", VNone); ("Oper", VText "<="); ("Step", VText "007"); ("Value", VText "2.7")]; VDict [("EndType", VText "Voltage"); ("SpecialType", VNone); ("Oper", VText ">="); ("Step", VText "070"); ("Value", VText "4.4")]; VDict [("EndType", VText "Voltage"); ("SpecialType", VNone); ("Oper", VText "<="); ("Step", VText "070"); ("Value", VText "2.5")]])]); ("Reports", VDict [("ReportEntry", VList [VDict [("ReportType", VText "Voltage"); ("Value", VText "0.001")]; VDict [("ReportType", VText "StepTime"); ("Value", VText "00:02:00")]])]); ("Range", VText "A"); ("Option1", VText "N"); ("Option2", VText "N"); ("Option3", VText "N"); ("StepNote", VNone)].
Definition v2_s6 : val := VDict [("StepType", VText "AdvCycle"); ("StepMode", VNone); ("StepValue", VNone); ("Limits", VNone); ("Ends", VNone); ("Reports", VNone); ("Range", VNone); ("Option1", VNone); ("Option2", VNone); ("Option3", VNone); ("StepNote", VNone)].
Definition v2_s7 : val := VDict [("StepType", VText "Loop 1"); ("StepMode", VNone); ("StepValue", VNone); ("Limits", VNone); ("Ends", VDict [("EndEntry", VDict [("EndType", VText "Loop Cnt"); ("SpecialType", VNone); ("Oper", VText "="); ("Step", VText "009"); ("Value", VText "2")])]); ("Reports", VNone); ("Range", VNone); ("Option1", VNone); ("Option2", VNone); ("Option3", VNone); ("StepNote", VNone)].
Definition v2_s8 : val := VDict [("StepType", VText "Charge"); ("StepMode", VText "Current"); ("StepValue", VText "0.333"); ("Limits", VDict [("Voltage", VText "4.2")]); ("Ends", VDict [("EndEntry", VList [VDict [("EndType", VText "Current"); ("SpecialType", VNone); ("Oper", VText "<="); ("Step", VText "010"); ("Value", VText "0.05")]; VDict [("EndType", VText "Voltage"); ("SpecialType", VNone); ("Oper", VText ">="); ("Step", VText "070"); ("Value", VText "4.4")]; VDict [("EndType", VText "Voltage"); ("SpecialType", VNone); ("Oper", VText "<="); ("Step", VText "070"); ("Value", VText "2.5")]])]); ("Reports", VDict [("ReportEntry", VList [VDict [("ReportType", VText "Voltage"); ("Value", VText "0.001")]; VDict [("ReportType", VText "StepTime"); ("Value", VText "00:00:30")]])]); ("Range", VText "A"); ("Option1", VText "N"); ("Option2", VText "N"); ("Option3", VText "N"); ("StepNote", VNone)].
Definition v2_s9 : val := VDict [("StepType", VText "Rest"); ("StepMode", VNone); ("StepValue", VNone); ("Limits", VNone); ("Ends", VDict [("EndEntry", VList [VDict [("EndType", VText "StepTime"); ("SpecialType", VNone); ("Oper", VText "="); ("Step", VText "012"); ("Value", VText "01:00:00")]; VDict [("EndType", VText "Voltage"); ("SpecialType", VNone); ("Oper", VText ">="); ("Step", VText "070"); ("Value", VText "4.4")]; VDict [("EndType", VText "Voltage"); ("SpecialType", VNone); ("Oper", VText "<="); ("Step", VText "070"); ("Value", VText "2.5")]])]); ("Reports", VDict [("ReportEntry", VList [VDict [("ReportType", VText "StepTime"); ("Value", VText "00:00:01")]; VDict [("ReportType", VText "Voltage"); ("Value", VText "1.0E-4")]])]); ("Range", VText "A"); ("Option1", VText "N"); ("Option2", VText "N"); ("Option3", VText "N"); ("StepNote", VNone)].
Definition v2_s10 : val := VDict [("StepType", VText "Dischrge"); ("StepMode", VText "Current"); ("StepValue", VText "1.0"); ("Limits", VNone); ("Ends", VDict [("EndEntry", VList [VDict [("EndType", VText "StepTime"); ("SpecialType", VNone); ("Oper", VText "="); ("Step", VText "013"); ("Value", VText "00:00:30")]; VDict [("EndType", VText "Voltage"); ("SpecialType", VNone); ("Oper", VText "<="); ("Step", VText "017"); ("Value", VText "2.7")]; VDict [("EndType", VText "Voltage"); ("SpecialType", VNone); ("Oper", VText ">="); ("Step", VText "070"); ("Value", VText "4.4")]; VDict [("EndType", VText "Voltage"); ("SpecialType", VNone); ("Oper", VText "<="); ("Step", VText "070"); ("Value", VText "2.5")]])]); ("Reports", VDict [("ReportEntry", VDict [("ReportType", VText "StepTime"); ("Value", VText "::.01")])]); ("Range", VText "A"); ("Option1", VText "N"); ("Option2", VText "N"); ("Option3", VText "N"); ("StepNote", VNone)].
Definition v2_s11 : val := VDict [("StepType", VText "Rest"); ("StepMode", VNone); ("StepValue", VNone); ("Limits", VNone); ("Ends", VDict [("EndEntry", VList [VDict [("EndType", VText "StepTime"); ("SpecialType", VNone); ("Oper", VText "="); ("Step", VText "014"); ("Value", VText "00:00:40")]; VDict [("EndType", VText "Voltage"); ("SpecialType", VNone); ("Oper", VText ">="); ("Step", VText "070"); ("Value", VText "4.4")]; VDict [("EndType", VText "Voltage"); ("SpecialType", VNone); ("Oper", VText "<="); ("Step", VText "070"); ("Value", VText "2.5")]])]); ("Reports", VDict [("ReportEntry", VDict [("ReportType", VText "StepTime"); ("Value", VText "::.01")])]); ("Range", VText "A"); ("Option1", VText "N"); ("Option2", VText "N"); ("Option3", VText "N"); ("StepNote", VNone)].
Definition v2_s12 : val := VDict [("StepType", VText "Charge"); ("StepMode", VText "Current"); ("StepValue", VText "0.75"); ("Limits", VNone); ("Ends", VDict [("EndEntry", VList [VDict [("EndType", VText "StepTime"); ("SpecialType", VNone); ("Oper", VText "="); ("Step", VText "015"); ("Value", VText "00:00:10")]; VDict [("EndType", VText "Voltage"); ("SpecialType", VNone); ("Oper", VText ">="); ("Step", VText "015"); ("Value", VText "4.39")]; VDict [("EndType", VText "Voltage"); ("SpecialType", VNone); ("Oper", VText ">="); ("Step", VText "070"); ("Value", VText "4.4")]; VDict [("EndType", VText "Voltage"); ("SpecialType", VNone); ("Oper", VText "<="); ("Step", VText "070"); ("Value", VText "2.5")]])]); ("Reports", VDict [("ReportEntry", VDict [("ReportType", VText "StepTime"); ("Value", VText "::.01")])]); ("Range", VText "A"); ("Option1", VText "N"); ("Option2", VText "N"); ("Option3", VText "N"); ("StepNote", VNone)].
Definition v2_s13 : val := VDict [("StepType", VText "Dischrge"); ("StepMode", VText "Current"); ("StepValue", VText "0.333"); ("Limits", VNone); ("Ends", VDict [("EndEntry", VList [VDict [("EndType", VText "StepTime"); ("SpecialType", VNone); ("Oper", VText "="); ("Step", VText "016"); ("Value", VText "00:18:00")]; VDict [("EndType", VText "Voltage"); ("SpecialType", VNone); ("Oper", VText "<="); ("Step", VText "017"); ("Value", VText "2.7")]; VDict [("EndType", VText "Voltage"); ("SpecialType", VNone); ("Oper", VText ">="); ("Step", VText "070"); ("Value", VText "4.4")]; VDict [("EndType", VText "Voltage"); ("SpecialType", VNone); ("Oper", VText "<="); ("Step", VText "070"); ("Value", VText "2.5")]])]); ("Reports", VDict [("ReportEntry", VList [VDict [("ReportType", VText "StepTime"); ("Value", VText "00:00:30")]; VDict [("ReportType", VText "Voltage"); ("Value", VText "0.001")]])]); ("Range", VText "A"); ("Option1", VText "N"); ("Option2", VText "N"); ("Option3", VText "N"); ("StepNote", VNone)].
Definition v2_s14 : val := VDict [("StepType", VText "Loop 1"); ("StepMode", VNone); ("StepValue", VNone); ("Limits", VNone); ("Ends", VDict [("EndEntry", VDict [("EndType", VText "Loop Cnt"); ("SpecialType", VNone); ("Oper", VText "="); ("Step", VText "017"); ("Value", VText "20")])]); ("Reports", VNone); ("Range", VNone); ("Option1", VNone); ("Option2", VNone); ("Option3", VNone); ("StepNote", VNone)].
Definition v2_s15 : val := VDict [("StepType", VText "Dischrge"); ("StepMode", VText "Voltage"); ("StepValue", VText "2.7"); ("Limits", VDict [("Current", VText "0.333")]); ("Ends", VDict [("EndEntry", VList [VDict [("EndType", VText "Current"); ("SpecialType", VNone); ("Oper", VText "<="); ("Step", VText "018"); ("Value", VText "0.05")]; VDict [("EndType", VText "Voltage"); ("SpecialType", VNone); ("Oper", VText ">="); ("Step", VText "070"); ("Value", VText "4.4")]; VDict [("EndType", VText "Voltage"); ("SpecialType", VNone); ("Oper", VText "<="); ("Step", VText "070"); ("Value", VText "2.5")]])]); ("Reports", VDict [("ReportEntry", VList [VDict [("ReportType", VText "StepTime"); ("Value", VText "00:00:30")]; VDict [("ReportType", VText "Voltage"); ("Value", VText "0.001")]])]); ("Range", VText "A"); ("Option1", VText "N"); ("Option2", VText "N"); ("Option3", VText "N"); ("StepNote", VNone)].
Definition v2_s16 : val := VDict [("StepType", VText "Charge"); ("StepMode", VText "Current"); ("StepValue", VText "0.2"); ("Limits", VDict [("Voltage", VText "4.2")]); ("Ends", VDict [("EndEntry", VList [VDict [("EndType", VText "Current"); ("SpecialType", VNone); ("Oper", VText "<="); ("Step", VText "020"); ("Value", VText "0.05")]; VDict [("EndType", VText "Voltage"); ("SpecialType", VNone); ("Oper", VText ">="); ("Step", VText "070"); ("Value", VText "4.4")]; VDict [("EndType", VText "Voltage"); ("SpecialType", VNone); ("Oper", VText "<="); ("Step", VText "070"); ("Value", VText "2.5")]])]); ("Reports", VDict [("ReportEntry", VList [VDict [("ReportType", VText "Voltage"); ("Value", VText "0.001")]; VDict [("ReportType", VText "StepTime"); ("Value", VText "00:00:30")]])]); ("Range", VText "4"); ("Option1", VText "N"); ("Option2", VText "N"); ("Option3", VText "N"); ("StepNote", VNone)].
Definition v2_s17 : val := VDict [("StepType", VText "Dischrge"); ("StepMode", VText "Current"); ("StepValue", VText "0.2"); ("Limits", VNone); ("Ends", VDict [("EndEntry", VList [VDict [("EndType", VText "Voltage"); ("SpecialType", VNone); ("Oper", VText "<="); ("Step", VText "021"); ("Value", VText "2.7")]; VDict [("EndType", VText "Voltage"); ("SpecialType", VNone); ("Oper", VText ">="); ("Step", VText "070"); ("Value", VText "4.4")]; VDict [("EndType", VText "Voltage"); ("SpecialType", VNone); ("Oper", VText "<="); ("Step", VText "070"); ("Value", VText "2.5")]])]); ("Reports", VDict [("ReportEntry", VList [VDict [("ReportType", VText "Voltage"); ("Value", VText "0.001")]; VDict [("ReportType", VText "StepTime"); ("Value", VText "00:00:30")]])]); ("Range", VText "4"); ("Option1", VText "N"); ("Option2", VText "N"); ("Option3", VText "N"); ("StepNote", VNone)].
Definition v2_s18 : val := VDict [("StepType", VText "Charge"); ("StepMode", VText "Current"); ("StepValue", VText "0.2"); ("Limits", VDict [("Voltage", VText "4.2")]); ("Ends", VDict [("EndEntry", VList [VDict [("EndType", VText "Current"); ("SpecialType", VNone); ("Oper", VText "<="); ("Step", VText "023"); ("Value", VText "0.05")]; VDict [("EndType", VText "Voltage"); ("SpecialType", VNone); ("Oper", VText ">="); ("Step", VText "070"); ("Value", VText "4.4")]; VDict [("EndType", VText "Voltage"); ("SpecialType", VNone); ("Oper", VText "<="); ("Step", VText "070"); ("Value", VText "2.5")]])]); ("Reports", VDict [("ReportEntry", VList [VDict [("ReportType", VText "Voltage"); ("Value", VText "0.001")]; VDict [("ReportType", VText "StepTime"); ("Value", VText "00:00:30")]])]); ("Range", VText "4"); ("Option1", VText "N"); ("Option2", VText "N"); ("Option3", VText "N"); ("StepNote", VNone)].
Definition v2_s19 : val := VDict [("StepType", VText "Dischrge"); ("StepMode", VText "Current"); ("StepValue", VText "1.0"); ("Limits", VNone); ("Ends", VDict [("EndEntry", VList [VDict [("EndType", VText "Voltage"); ("SpecialType", VNone); ("Oper", VText "<="); ("Step", VText "024"); ("Value", VText "2.7")]; VDict [("EndType", VText "Voltage"); ("SpecialType", VNone); ("Oper", VText ">="); ("Step", VText "070"); ("Value", VText "4.4")]; VDict [("EndType", VText "Voltage"); ("SpecialType", VNone); ("Oper", VText "<="); ("Step", VText "070"); ("Value", VText "2.5")]])]); ("Reports", VDict [("ReportEntry", VList [VDict [("ReportType", VText "Voltage"); ("Value", VText "0.001")]; VDict [("ReportType", VText "StepTime"); ("Value", VText "00:00:30")]])]); ("Range", VText "4"); ("Option1", VText "N"); ("Option2", VText "N"); ("Option3", VText "N"); ("StepNote", VNone)].
Definition v2_s20 : val := VDict [("StepType", VText "Charge"); ("StepMode", VText "Current"); ("StepValue", VText "0.2"); ("Limits", VDict [("Voltage", VText "4.2")]); ("Ends", VDict [("EndEntry", VList [VDict [("EndType", VText "Current"); ("SpecialType", VNone); ("Oper", VText "<="); ("Step", VText "026"); ("Value", VText "0.05")]; VDict [("EndType", VText "Voltage"); ("SpecialType", VNone); ("Oper", VText ">="); ("Step", VText "070"); ("Value", VText "4.4")]; VDict [("EndType", VText "Voltage"); ("SpecialType", VNone); ("Oper", VText "<="); ("Step", VText "070"); ("Value", VText "2.5")]])]); ("Reports", VDict [("ReportEntry", VList [VDict [("ReportType", VText "Voltage"); ("Value", VText "0.001")]; VDict [("ReportType", VText "StepTime"); ("Value", VText "00:00:30")]])]); ("Range", VText "4"); ("Option1", VText "N"); ("Option2", VText "N"); ("Option3", VText "N"); ("StepNote", VNone)].
Definition v2_s21 : val := VDict [("StepType", VText "Dischrge"); ("StepMode", VText "Current"); ("StepValue", VText "2.0"); ("Limits", VNone); ("Ends", VDict [("EndEntry", VList [VDict [("EndType", VText "Voltage"); ("SpecialType", VNone); ("Oper", VText "<="); ("Step", VText "027"); ("Value", VText "2.7")]; VDict [("EndType", VText "Voltage"); ("SpecialType", VNone); ("Oper", VText ">="); ("Step", VText "070"); ("Value", VText "4.4")]; VDict [("EndType", VText "Voltage"); ("SpecialType", VNone); ("Oper", VText "<="); ("Step", VText "070"); ("Value", VText "2.5")]])]); ("Reports", VDict [("ReportEntry", VList [VDict [("ReportType", VText "Voltage"); ("Value", VText "0.001")]; VDict [("ReportType", VText "StepTime"); ("Value", VText "00:00:30")]])]); ("Range", VText "4"); ("Option1", VText "N"); ("Option2", VText "N"); ("Option3", VText "N"); ("StepNote", VNone)].
Definition v2_s22 : val := VDict [("StepType", VText "Charge"); ("StepMode", VText "Current"); ("StepValue", VText "2.0"); ("Limits", VNone); ("Ends", VDict [("EndEntry", VList [VDict [("EndType", VText "StepTime"); ("SpecialType", VNone); ("Oper", VText "="); ("Step", VText "030"); ("Value", VText "00:09:00")]; VDict [("EndType", VText "Voltage"); ("SpecialType", VNone); ("Oper", VText ">="); ("Step", VText "070"); ("Value", VText "4.4")]; VDict [("EndType", VText "Voltage"); ("SpecialType", VNone); ("Oper", VText "<="); ("Step", VText "070"); ("Value", VText "2.5")]])]); ("Reports", VDict [("ReportEntry", VList [VDict [("ReportType", VText "Voltage"); ("Value", VText "0.005")]; VDict [("ReportType", VText "StepTime"); ("Value", VText "00:00:30")]])]); ("Range", VText "A"); ("Option1", VText "N"); ("Option2", VText "N"); ("Option3", VText "N"); ("StepNote", VNone)].
Definition v2_s23 : val := VDict [("StepType", VText "Charge"); ("StepMode", VText "Current"); ("StepValue", VText "1.0"); ("Limits", VNone); ("Ends", VDict [("EndEntry", VList [VDict [("EndType", VText "Voltage"); ("SpecialType", VNone); ("Oper", VText ">="); ("Step", VText "031"); ("Value", VText "4.1")]; VDict [("EndType", VText "Voltage"); ("SpecialType", VNone); ("Oper", VText ">="); ("Step", VText "070"); ("Value", VText "4.4")]; VDict [("EndType", VText "Voltage"); ("SpecialType", VNone); ("Oper", VText "<="); ("Step", VText "070"); ("Value", VText "2.5")]])]); ("Reports", VDict [("ReportEntry", VList [VDict [("ReportType", VText "Voltage"); ("Value", VText "0.005")]; VDict [("ReportType", VText "StepTime"); ("Value", VText "00:00:30")]])]); ("Range", VText "4"); ("Option1", VText "N"); ("Option2", VText "N"); ("Option3", VText "N"); ("StepNote", VNone)].
Definition v2_s24 : val := VDict [("StepType", VText "Charge"); ("StepMode", VText "Voltage"); ("StepValue", VText "4.1"); ("Limits", VNone); ("Ends", VDict [("EndEntry", VList [VDict [("EndType", VText "StepTime"); ("SpecialType", VNone); ("Oper", VText "="); ("Step", VText "032"); ("Value", VText "01:00:00")]; VDict [("EndType", VText "Voltage"); ("SpecialType", VNone); ("Oper", VText ">="); ("Step", VText "070"); ("Value", VText "4.4")]; VDict [("EndType", VText "Voltage"); ("SpecialType", VNone); ("Oper", VText "<="); ("Step", VText "070"); ("Value", VText "2.5")]])]); ("Reports", VDict [("ReportEntry", VDict [("ReportType", VText "StepTime"); ("Value", VText "00:00:30")])]); ("Range", VText "A"); ("Option1", VText "N"); ("Option2", VText "N"); ("Option3", VText "N"); ("StepNote", VNone)].
Definition v2_s25 : val := VDict [("StepType", VText "Rest"); ("StepMode", VNone); ("StepValue", VNone); ("Limits", VNone); ("Ends", VDict [("EndEntry", VList [VDict [("EndType", VText "StepTime"); ("SpecialType", VNone); ("Oper", VText "="); ("Step", VText "033"); ("Value", VText "00:05:00")]; VDict [("EndType", VText "Voltage"); ("SpecialType", VNone); ("Oper", VText ">="); ("Step", VText "070"); ("Value", VText "4.4")]; VDict [("EndType", VText "Voltage"); ("SpecialType", VNone); ("Oper", VText "<="); ("Step", VText "070"); ("Value", VText "2.5")]])]); ("Reports", VDict [("ReportEntry", VDict [("ReportType", VText "StepTime"); ("Value", VText "00:00:30")])]); ("Range", VText "A"); ("Option1", VText "N"); ("Option2", VText "N"); ("Option3", VText "N"); ("StepNote", VNone)].
Definition v2_s26 : val := VDict [("StepType", VText "Dischrge"); ("StepMode", VText "Current"); ("StepValue", VText "1.0"); ("Limits", VNone); ("Ends", VDict [("EndEntry", VList [VDict [("EndType", VText "Voltage"); ("SpecialType", VNone); ("Oper", VText "<="); ("Step", VText "034"); ("Value", VText "2.7")]; VDict [("EndType", VText "Voltage"); ("SpecialType", VNone); ("Oper", VText ">="); ("Step", VText "070"); ("Value", VText "4.4")]; VDict [("EndType", VText "Voltage"); ("SpecialType", VNone); ("Oper", VText "<="); ("Step", VText "070"); ("Value", VText "2.5")]])]); ("Reports", VDict [("ReportEntry", VList [VDict [("ReportType", VText "Voltage"); ("Value", VText "0.005")]; VDict [("ReportType", VText "StepTime"); ("Value", VText "00:00:30")]])]); ("Range", VText "4"); ("Option1", VText "N"); ("Option2", VText "N"); ("Option3", VText "N"); ("StepNote", VNone)].
Definition v2_s27 : val := VDict [("StepType", VText "Rest"); ("StepMode", VNone); ("StepValue", VNone); ("Limits", VNone); ("Ends", VDict [("EndEntry", VList [VDict [("EndType", VText "StepTime"); ("SpecialType", VNone); ("Oper", VText "="); ("Step", VText "035"); ("Value", VText "00:15:00")]; VDict [("EndType", VText "Voltage"); ("SpecialType", VNone); ("Oper", VText ">="); ("Step", VText "070"); ("Value", VText "4.4")]; VDict [("EndType", VText "Voltage"); ("SpecialType", VNone); ("Oper", VText "<="); ("Step", VText "070"); ("Value", VText "2.5")]])]); ("Reports", VDict [("ReportEntry", VDict [("ReportType", VText "StepTime"); ("Value", VText "00:00:30")])]); ("Range", VText "4"); ("Option1", VText "N"); ("Option2", VText "N"); ("Option3", VText "N"); ("StepNote", VNone)].
Definition v2_s28 : val := VDict [("StepType", VText "Loop 1"); ("StepMode", VNone); ("StepValue", VNone); ("Limits", VNone); ("Ends", VDict [("EndEntry", VDict [("EndType", VText "Loop Cnt"); ("SpecialType", VNone); ("Oper", VText "="); ("Step", VText "037"); ("Value", VText "30")])]); ("Reports", VNone); ("Range", VNone); ("Option1", VNone); ("Option2", VNone); ("Option3", VNone); ("StepNote", VNone)].
Definition v2_s29 : val := VDict [("StepType", VText "Charge"); ("StepMode", VText "Current"); ("StepValue", VText "0.1429"); ("Limits", VDict [("Voltage", VText "4.2")]); ("Ends", VDict [("EndEntry", VList [VDict [("EndType", VText "Current"); ("SpecialType", VNone); ("Oper", VText "<="); ("Step", VText "039"); ("Value", VText "0.0286")]; VDict [("EndType", VText "Voltage"); ("SpecialType", VNone); ("Oper", VText ">="); ("Step", VText "070"); ("Value", VText "4.4")]; VDict [("EndType", VText "Voltage"); ("SpecialType", VNone); ("Oper", VText "<="); ("Step", VText "070"); ("Value", VText "2.5")]])]); ("Reports", VDict [("ReportEntry", VList [VDict [("ReportType", VText "Voltage"); ("Value", VText "0.001")]; VDict [("ReportType", VText "StepTime"); ("Value", VText "00:02:00")]])]); ("Range", VText "A"); ("Option1", VText "N"); ("Option2", VText "N"); ("Option3", VText "N"); ("StepNote", VNone)].
Definition v2_s30 : val := VDict [("StepType", VText "Dischrge"); ("StepMode", VText "Current"); ("StepValue", VText "0.1429"); ("Limits", VNone); ("Ends", VDict [("EndEntry", VList [VDict [("EndType", VText "Voltage"); ("SpecialType", VNone); ("Oper", VText "<="); ("Step", VText "040"); ("Value", VText "2.7")]; VDict [("EndType", VText "Voltage"); ("SpecialType", VNone); ("Oper", VText ">="); ("Step", VText "070"); ("Value", VText "4.4")]; VDict [("EndType", VText "Voltage"); ("SpecialType", VNone); ("Oper", VText "<="); ("Step", VText "070"); ("Value", VText "2.5")]])]); ("Reports", VDict [("ReportEntry", VList [VDict [("ReportType", VText "Voltage"); ("Value", VText "0.001")]; VDict [("ReportType", VText "StepTime"); ("Value", VText "00:02:00")]])]); ("Range", VText "A"); ("Option1", VText "N"); ("Option2", VText "N"); ("Option3", VText "N"); ("StepNote", VNone)].
Definition v2_s31 : val := VDict [("StepType", VText "Charge"); ("StepMode", VText "Current"); ("StepValue", VText "0.333"); ("Limits", VDict [("Voltage", VText "4.2")]); ("Ends", VDict [("EndEntry", VList [VDict [("EndType", VText "Current"); ("SpecialType", VNone); ("Oper", VText "<="); ("Step", VText "042"); ("Value", VText "0.05")]; VDict [("EndType", VText "Voltage"); ("SpecialType", VNone); ("Oper", VText ">="); ("Step", VText "070"); ("Value", VText "4.4")]; VDict [("EndType", VText "Voltage"); ("SpecialType", VNone); ("Oper", VText "<="); ("Step", VText "070"); ("Value", VText "2.5")]])]); ("Reports", VDict [("ReportEntry", VList [VDict [("ReportType", VText "Voltage"); ("Value", VText "0.001")]; VDict [("ReportType", VText "StepTime"); ("Value", VText "00:00:30")]])]); ("Range", VText "A"); ("Option1", VText "N"); ("Option2", VText "N"); ("Option3", VText "N"); ("StepNote", VNone)].
Definition v2_s32 : val := VDict [("StepType", VText "Do 2"); ("StepMode", VNone); ("StepValue", VNone); ("Limits", VNone); ("Ends", VNone); ("Reports", VNone); ("Range", VNone); ("Option1", VNone); ("Option2", VNone); ("Option3", VNone); ("StepNote", VNone)].
Definition v2_s33 : val := VDict [("StepType", VText "Rest"); ("StepMode", VNone); ("StepValue", VNone); ("Limits", VNone); ("Ends", VDict [("EndEntry", VList [VDict [("EndType", VText "StepTime"); ("SpecialType", VNone); ("Oper", VText "="); ("Step", VText "044"); ("Value", VText "01:00:00")]; VDict [("EndType", VText "Voltage"); ("SpecialType", VNone); ("Oper", VText ">="); ("Step", VText "070"); ("Value", VText "4.4")]; VDict [("EndType", VText "Voltage"); ("SpecialType", VNone); ("Oper", VText "<="); ("Step", VText "070"); ("Value", VText "2.5")]])]); ("Reports", VDict [("ReportEntry", VList [VDict [("ReportType", VText "StepTime"); ("Value", VText "00:00:01")]; VDict [("ReportType", VText "Voltage"); ("Value", VText "1.0E-4")]])]); ("Range", VText "A"); ("Option1", VText "N"); ("Option2", VText "N"); ("Option3", VText "N"); ("StepNote", VNone)].
Definition v2_s34 : val := VDict [("StepType", VText "Dischrge"); ("StepMode", VText "Current"); ("StepValue", VText "1.0"); ("Limits", VNone); ("Ends", VDict [("EndEntry", VList [VDict [("EndType", VText "StepTime"); ("SpecialType", VNone); ("Oper", VText "="); ("Step", VText "045"); ("Value", VText "00:00:30")]; VDict [("EndType", VText "Voltage"); ("SpecialType", VNone); ("Oper", VText "<="); ("Step", VText "049"); ("Value", VText "2.7")]; VDict [("EndType", VText "Voltage"); ("SpecialType", VNone); ("Oper", VText ">="); ("Step", VText "070"); ("Value", VText "4.4")]; VDict [("EndType", VText "Voltage"); ("SpecialType", VNone); ("Oper", VText "<="); ("Step", VText "070"); ("Value", VText "2.5")]])]); ("Reports", VDict [("ReportEntry", VDict [("ReportType", VText "StepTime"); ("Value", VText "::.01")])]); ("Range", VText "A"); ("Option1", VText "N"); ("Option2", VText "N"); ("Option3", VText "N"); ("StepNote", VNone)].
Definition v2_s35 : val := VDict [("StepType", VText "Rest"); ("StepMode", VNone); ("StepValue", VNone); ("Limits", VNone); ("Ends", VDict [("EndEntry", VList [VDict [("EndType", VText "StepTime"); ("SpecialType", VNone); ("Oper", VText "="); ("Step", VText "046"); ("Value", VText "00:00:40")]; VDict [("EndType", VText "Voltage"); ("SpecialType", VNone); ("Oper", VText ">="); ("Step", VText "070"); ("Value", VText "4.4")]; VDict [("EndType", VText "Voltage"); ("SpecialType", VNone); ("Oper", VText "<="); ("Step", VText "070"); ("Value", VText "2.5")]])]); ("Reports", VDict [("ReportEntry", VDict [("ReportType", VText "StepTime"); ("Value", VText "::.01")])]); ("Range", VText "A"); ("Option1", VText "N"); ("Option2", VText "N"); ("Option3", VText "N"); ("StepNote", VNone)].
Definition v2_s36 : val := VDict [("StepType", VText "Charge"); ("StepMode", VText "Current"); ("StepValue", VText "0.75"); ("Limits", VNone); ("Ends", VDict [("EndEntry", VList [VDict [("EndType", VText "StepTime"); ("SpecialType", VNone); ("Oper", VText "="); ("Step", VText "047"); ("Value", VText "00:00:10")]; VDict [("EndType", VText "Voltage"); ("SpecialType", VNone); ("Oper", VText ">="); ("Step", VText "047"); ("Value", VText "4.39")]; VDict [("EndType", VText "Voltage"); ("SpecialType", VNone); ("Oper", VText ">="); ("Step", VText "070"); ("Value", VText "4.4")]; VDict [("EndType", VText "Voltage"); ("SpecialType", VNone); ("Oper", VText "<="); ("Step", VText "070"); ("Value", VText "2.5")]])]); ("Reports", VDict [("ReportEntry", VDict [("ReportType", VText "StepTime"); ("Value", VText "::.01")])]); ("Range", VText "A"); ("Option1", VText "N"); ("Option2", VText "N"); ("Option3", VText "N"); ("StepNote", VNone)].
Definition v2_s37 : val := VDict [("StepType", VText "Dischrge"); ("StepMode", VText "Current"); ("StepValue", VText "0.333"); ("Limits", VNone); ("Ends", VDict [("EndEntry", VList [VDict [("EndType", VText "StepTime"); ("SpecialType", VNone); ("Oper", VText "="); ("Step", VText "048"); ("Value", VText "00:18:00")]; VDict [("EndType", VText "Voltage"); ("SpecialType", VNone); ("Oper", VText "<="); ("Step", VText "049"); ("Value", VText "2.7")]; VDict [("EndType", VText "Voltage"); ("SpecialType", VNone); ("Oper", VText ">="); ("Step", VText "070"); ("Value", VText "4.4")]; VDict [("EndType", VText "Voltage"); ("SpecialType", VNone); ("Oper", VText "<="); ("Step", VText "070"); ("Value", VText "2.5")]])]); ("Reports", VDict [("ReportEntry", VList [VDict [("ReportType", VText "StepTime"); ("Value", VText "00:00:30")]; VDict [("ReportType", VText "Voltage"); ("Value", VText "0.001")]])]); ("Range", VText "A"); ("Option1", VText "N"); ("Option2", VText "N"); ("Option3", VText "N"); ("StepNote", VNone)].
Definition v2_s38 : val := VDict [("StepType", VText "Loop 2"); ("StepMode", VNone); ("StepValue", VNone); ("Limits", VNone); ("Ends", VDict [("EndEntry", VDict [("EndType", VText "Loop Cnt"); ("SpecialType", VNone); ("Oper", VText "="); ("Step", VText "049"); ("Value", VText "20")])]); ("Reports", VNone); ("Range", VNone); ("Option1", VNone); ("Option2", VNone); ("Option3", VNone); ("StepNote", VNone)].
Definition v2_s39 : val := VDict [("StepType", VText "Dischrge"); ("StepMode", VText "Voltage"); ("StepValue", VText "2.7"); ("Limits", VDict [("Current", VText "0.333")]); ("Ends", VDict [("EndEntry", VList [VDict [("EndType", VText "Current"); ("SpecialType", VNone); ("Oper", VText "<="); ("Step", VText "050"); ("Value", VText "0.05")]; VDict [("EndType", VText "Voltage"); ("SpecialType", VNone); ("Oper", VText ">="); ("Step", VText "070"); ("Value", VText "4.4")]; VDict [("EndType", VText "Voltage"); ("SpecialType", VNone); ("Oper", VText "<="); ("Step", VText "070"); ("Value", VText "2.5")]])]); ("Reports", VDict [("ReportEntry", VList [VDict [("ReportType", VText "StepTime"); ("Value", VText "00:00:30")]; VDict [("ReportType", VText "Voltage"); ("Value", VText "0.001")]])]); ("Range", VText "A"); ("Option1", VText "N"); ("Option2", VText "N"); ("Option3", VText "N"); ("StepNote", VNone)].
Definition v2_s40 : val := VDict [("StepType", VText "Charge"); ("StepMode", VText "Current"); ("StepValue", VText "0.2"); ("Limits", VDict [("Voltage", VText "4.2")]); ("Ends", VDict [("EndEntry", VList [VDict [("EndType", VText "Current"); ("SpecialType", VNone); ("Oper", VText "<="); ("Step", VText "052"); ("Value", VText "0.05")]; VDict [("EndType", VText "Voltage"); ("SpecialType", VNone); ("Oper", VText ">="); ("Step", VText "070"); ("Value", VText "4.4")]; VDict [("EndType", VText "Voltage"); ("SpecialType", VNone); ("Oper", VText "<="); ("Step", VText "070"); ("Value", VText "2.5")]])]); ("Reports", VDict [("ReportEntry", VList [VDict [("ReportType", VText "Voltage"); ("Value", VText "0.001")]; VDict [("ReportType", VText "StepTime"); ("Value", VText "00:00:30")]])]); ("Range", VText "4"); ("Option1", VText "N"); ("Option2", VText "N"); ("Option3", VText "N"); ("StepNote", VNone)].
Definition v2_s41 : val := VDict [("StepType", VText "Dischrge"); ("StepMode", VText "Current"); ("StepValue", VText "0.2"); ("Limits", VNone); ("Ends", VDict [("EndEntry", VList [VDict [("EndType", VText "Voltage"); ("SpecialType", VNone); ("Oper", VText "<="); ("Step", VText "053"); ("Value", VText "2.7")]; VDict [("EndType", VText "Voltage"); ("SpecialType", VNone); ("Oper", VText ">="); ("Step", VText "070"); ("Value", VText "4.4")]; VDict [("EndType", VText "Voltage"); ("SpecialType", VNone); ("Oper", VText "<="); ("Step", VText "070"); ("Value", VText "2.5")]])]); ("Reports", VDict [("ReportEntry", VList [VDict [("ReportType", VText "Voltage"); ("Value", VText "0.001")]; VDict [("ReportType", VText "StepTime"); ("Value", VText "00:00:30")]])]); ("Range", VText "4"); ("Option1", VText "N"); ("Option2", VText "N"); ("Option3", VText "N"); ("StepNote", VNone)].
Definition v2_s42 : val := VDict [("StepType", VText "Charge"); ("StepMode", VText "Current"); ("StepValue", VText "0.2"); ("Limits", VDict [("Voltage", VText "4.2")]); ("Ends", VDict [("EndEntry", VList [VDict [("EndType", VText "Current"); ("SpecialType", VNone); ("Oper", VText "<="); ("Step", VText "055"); ("Value", VText "0.05")]; VDict [("EndType", VText "Voltage"); ("SpecialType", VNone); ("Oper", VText ">="); ("Step", VText "070"); ("Value", VText "4.4")]; VDict [("EndType", VText "Voltage"); ("SpecialType", VNone); ("Oper", VText "<="); ("Step", VText "070"); ("Value", VText "2.5")]])]); ("Reports", VDict [("ReportEntry", VList [VDict [("ReportType", VText "Voltage"); ("Value", VText "0.001")]; VDict [("ReportType", VText "StepTime"); ("Value", VText "00:00:30")]])]); ("Range", VText "4"); ("Option1", VText "N"); ("Option2", VText "N"); ("Option3", VText "N"); ("StepNote", VNone)].
Definition v2_s43 : val := VDict [("StepType", VText "Dischrge"); ("StepMode", VText "Current"); ("StepValue", VText "1.0"); ("Limits", VNone); ("Ends", VDict [("EndEntry", VList [VDict [("EndType", VText "Voltage"); ("SpecialType", VNone); ("Oper", VText "<="); ("Step", VText "056"); ("Value", VText "2.7")]; VDict [("EndType", VText "Voltage"); ("SpecialType", VNone); ("Oper", VText ">="); ("Step", VText "070"); ("Value", VText "4.4")]; VDict [("EndType", VText "Voltage"); ("SpecialType", VNone); ("Oper", VText "<="); ("Step", VText "070"); ("Value", VText "2.5")]])]); ("Reports", VDict [("ReportEntry", VList [VDict [("ReportType", VText "Voltage"); ("Value", VText "0.001")]; VDict [("ReportType", VText "StepTime"); ("Value", VText "00:00:30")]])]); ("Range", VText "4"); ("Option1", VText "N"); ("Option2", VText "N"); ("Option3", VText "N"); ("StepNote", VNone)].
Definition v2_s44 : val := VDict [("StepType", VText "Charge"); ("StepMode", VText "Current"); ("StepValue", VText "0.2"); ("Limits", VDict [("Voltage", VText "4.2")]); ("Ends", VDict [("EndEntry", VList [VDict [("EndType", VText "Current"); ("SpecialType", VNone); ("Oper", VText "<="); ("Step", VText "058"); ("Value", VText "0.05")]; VDict [("EndType", VText "Voltage"); ("SpecialType", VNone); ("Oper", VText ">="); ("Step", VText "070"); ("Value", VText "4.4")]; VDict [("EndType", VText "Voltage"); ("SpecialType", VNone); ("Oper", VText "<="); ("Step", VText "070"); ("Value", VText "2.5")]])]); ("Reports", VDict [("ReportEntry", VList [VDict [("ReportType", VText "Voltage"); ("Value", VText "0.001")]; VDict [("ReportType", VText "StepTime"); ("Value", VText "00:00:30")]])]); ("Range", VText "4"); ("Option1", VText "N"); ("Option2", VText "N"); ("Option3", VText "N"); ("StepNote", VNone)].
Definition v2_s45 : val := VDict [("StepType", VText "Dischrge"); ("StepMode", VText "Current"); ("StepValue", VText "2.0"); ("Limits", VNone); ("Ends", VDict [("EndEntry", VList [VDict [("EndType", VText "Voltage"); ("SpecialType", VNone); ("Oper", VText "<="); ("Step", VText "059"); ("Value", VText "2.7")]; VDict [("EndType", VText "Voltage"); ("SpecialType", VNone); ("Oper", VText ">="); ("Step", VText "070"); ("Value", VText "4.4")]; VDict [("EndType", VText "Voltage"); ("SpecialType", VNone); ("Oper", VText "<="); ("Step", VText "070"); ("Value", VText "2.5")]])]); ("Reports", VDict [("ReportEntry", VList [VDict [("ReportType", VText "Voltage"); ("Value", VText "0.001")]; VDict [("ReportType", VText "StepTime"); ("Value", VText "00:00:30")]])]); ("Range", VText "4"); ("Option1", VText "N"); ("Option2", VText "N"); ("Option3", VText "N"); ("StepNote", VNone)].
Definition v2_s46 : val := VDict [("StepType", VText "Charge"); ("StepMode", VText "Current"); ("StepValue", VText "2.0"); ("Limits", VNone); ("Ends", VDict [("EndEntry", VList [VDict [("EndType", VText "StepTime"); ("SpecialType", VNone); ("Oper", VText "="); ("Step", VText "062"); ("Value", VText "00:09:00")]; VDict [("EndType", VText "Voltage"); ("SpecialType", VNone); ("Oper", VText ">="); ("Step", VText "070"); ("Value", VText "4.4")]; VDict [("EndType", VText "Voltage"); ("SpecialType", VNone); ("Oper", VText "<="); ("Step", VText "070"); ("Value", VText "2.5")]])]); ("Reports", VDict [("ReportEntry", VList [VDict [("ReportType", VText "Voltage"); ("Value", VText "0.005")]; VDict [("ReportType", VText "StepTime"); ("Value", VText "00:00:30")]])]); ("Range", VText "A"); ("Option1", VText "N"); ("Option2", VText "N"); ("Option3", VText "N"); ("StepNote", VNone)].
Definition v2_s47 : val := VDict [("StepType", VText "Charge"); ("StepMode", VText "Current"); ("StepValue", VText "1.0"); ("Limits", VNone); ("Ends", VDict [("EndEntry", VList [VDict [("EndType", VText "Voltage"); ("SpecialType", VNone); ("Oper", VText ">="); ("Step", VText "063"); ("Value", VText "4.1")]; VDict [("EndType", VText "Voltage"); ("SpecialType", VNone); ("Oper", VText ">="); ("Step", VText "070"); ("Value", VText "4.4")]; VDict [("EndType", VText "Voltage"); ("SpecialType", VNone); ("Oper", VText "<="); ("Step", VText "070"); ("Value", VText "2.5")]])]); ("Reports", VDict [("ReportEntry", VList [VDict [("ReportType", VText "Voltage"); ("Value", VText "0.005")]; VDict [("ReportType", VText "StepTime"); ("Value", VText "00:00:30")]])]); ("Range", VText "4"); ("Option1", VText "N"); ("Option2", VText "N"); ("Option3", VText "N"); ("StepNote", VNone)].
Definition v2_s48 : val := VDict [("StepType", VText "Charge"); ("StepMode", VText "Voltage"); ("StepValue", VText "4.1"); ("Limits", VNone); ("Ends", VDict [("EndEntry", VList [VDict [("EndType", VText "StepTime"); ("SpecialType", VNone); ("Oper", VText "="); ("Step", VText "064"); ("Value", VText "01:00:00")]; VDict [("EndType", VText "Voltage"); ("SpecialType", VNone); ("Oper", VText ">="); ("Step", VText "070"); ("Value", VText "4.4")]; VDict [("EndType", VText "Voltage"); ("SpecialType", VNone); ("Oper", VText "<="); ("Step", VText "070"); ("Value", VText "2.5")]])]); ("Reports", VDict [("ReportEntry", VDict [("ReportType", VText "StepTime"); ("Value", VText "00:00:30")])]); ("Range", VText "A"); ("Option1", VText "N"); ("Option2", VText "N"); ("Option3", VText "N"); ("StepNote", VNone)].
Definition v2_s49 : val := VDict [("StepType", VText "Rest"); ("StepMode", VNone); ("StepValue", VNone); ("Limits", VNone); ("Ends", VDict [("EndEntry", VList [VDict [("EndType", VText "StepTime"); ("SpecialType", VNone); ("Oper", VText "="); ("Step", VText "065"); ("Value", VText "00:05:00")]; VDict [("EndType", VText "Voltage"); ("SpecialType", VNone); ("Oper", VText ">="); ("Step", VText "070"); ("Value", VText "4.4")]; VDict [("EndType", VText "Voltage"); ("SpecialType", VNone); ("Oper", VText "<="); ("Step", VText "070"); ("Value", VText "2.5")]])]); ("Reports", VDict [("ReportEntry", VDict [("ReportType", VText "StepTime"); ("Value", VText "00:00:30")])]); ("Range", VText "A"); ("Option1", VText "N"); ("Option2", VText "N"); ("Option3", VText "N"); ("StepNote", VNone)].
Definition v2_s50 : val := VDict [("StepType", VText "Dischrge"); ("StepMode", VText "Current"); ("StepValue", VText "1.0"); ("Limits", VNone); ("Ends", VDict [("EndEntry", VList [VDict [("EndType", VText "Voltage"); ("SpecialType", VNone); ("Oper", VText "<="); ("Step", VText "066"); ("Value", VText "2.7")]; VDict [("EndType", VText "Voltage"); ("SpecialType", VNone); ("Oper", VText ">="); ("Step", VText "070"); ("Value", VText "4.4")]; VDict [("EndType", VText "Voltage"); ("SpecialType", VNone); ("Oper", VText "<="); ("Step", VText "070"); ("Value", VText "2.5")]])]); ("Reports", VDict [("ReportEntry", VList [VDict [("ReportType", VText "Voltage"); ("Value", VText "0.005")]; VDict [("ReportType", VText "StepTime"); ("Value", VText "00:00:30")]])]); ("Range", VText "4"); ("Option1", VText "N"); ("Option2", VText "N"); ("Option3", VText "N"); ("StepNote", VNone)].
Definition v2_s51 : val := VDict [("StepType", VText "Rest"); ("StepMode", VNone); ("StepValue", VNone); ("Limits", VNone); ("Ends", VDict [("EndEntry", VList [VDict [("EndType", VText "StepTime"); ("SpecialType", VNone); ("Oper", VText "="); ("Step", VText "067"); ("Value", VText "00:15:00")]; VDict [("EndType", VText "Voltage"); ("SpecialType", VNone); ("Oper", VText ">="); ("Step", VText "070"); ("Value", VText "4.4")]; VDict [("EndType", VText "Voltage"); ("SpecialType", VNone); ("Oper", VText "<="); ("Step", VText "070"); ("Value", VText "2.5")]])]); ("Reports", VDict [("ReportEntry", VDict [("ReportType", VText "StepTime"); ("Value", VText "00:00:30")])]); ("Range", VText "4"); ("Option1", VText "N"); ("Option2", VText "N"); ("Option3", VText "N"); ("StepNote", VNone)].
Definition v2_s52 : val := VDict [("StepType", VText "Loop 2"); ("StepMode", VNone); ("StepValue", VNone); ("Limits", VNone); ("Ends", VDict [("EndEntry", VDict [("EndType", VText "Loop Cnt"); ("SpecialType", VNone); ("Oper", VText "="); ("Step", VText "069"); ("Value", VText "100")])]); ("Reports", VNone); ("Range", VNone); ("Option1", VNone); ("Option2", VNone); ("Option3", VNone); ("StepNote", VNone)].
Definition v2_s53 : val := VDict [("StepType", VText "Loop 1"); ("StepMode", VNone); ("StepValue", VNone); ("Limits", VNone); ("Ends", VDict [("EndEntry", VDict [("EndType", VText "Loop Cnt"); ("SpecialType", VNone); ("Oper", VText "="); ("Step", VText "070"); ("Value", VText "1000")])]); ("Reports", VNone); ("Range", VNone); ("Option1", VNone); ("Option2", VNone); ("Option3", VNone); ("StepNote", VNone)].
Definition v2_s54 : val := VDict [("StepType", VText "Dischrge"); ("StepMode", VText "Current"); ("StepValue", VText "0.5"); ("Limits", VDict [("Voltage", VText "2.7")]); ("Ends", VDict [("EndEntry", VDict [("EndType", VText "Current"); ("SpecialType", VNone); ("Oper", VText "<="); ("Step", VText "071"); ("Value", VText "0.05")])]); ("Reports", VDict [("ReportEntry", VList [VDict [("ReportType", VText "Voltage"); ("Value", VText "0.005")]; VDict [("ReportType", VText "StepTime"); ("Value", VText "00:00:30")]])]); ("Range", VText "4"); ("Option1", VText "N"); ("Option2", VText "N"); ("Option3", VText "N"); ("StepNote", VNone)].
Definition v2_s55 : val := VDict [("StepType", VText "Charge"); ("StepMode", VText "Current"); ("StepValue", VText "0.5"); ("Limits", VNone); ("Ends", VDict [("EndEntry", VList [VDict [("EndType", VText "StepTime"); ("SpecialType", VNone); ("Oper", VText "="); ("Step", VText "072"); ("Value", VText "00:12:00")]; VDict [("EndType", VText "Voltage"); ("SpecialType", VNone); ("Oper", VText ">="); ("Step", VText "070"); ("Value", VText "4.4")]; VDict [("EndType", VText "Voltage"); ("SpecialType", VNone); ("Oper", VText "<="); ("Step", VText "070"); ("Value", VText "2.5")]])]); ("Reports", VDict [("ReportEntry", VList [VDict [("ReportType", VText "StepTime"); ("Value", VText "00:00:30")]; VDict [("ReportType", VText "Voltage"); ("Value", VText "0.005")]])]); ("Range", VText "4"); ("Option1", VText "N"); ("Option2", VText "N"); ("Option3", VText "N"); ("StepNote", VNone)].
Definition v2_s56 : val := VDict [("StepType", VText "End"); ("StepMode", VNone); ("StepValue", VNone); ("Limits", VNone); ("Ends", VNone); ("Reports", VNone); ("Range", VNone); ("Option1", VNone); ("Option2", VNone); ("Option3", VNone); ("StepNote", VNone)].
Definition template_v2 : steps :=
  [v2_s0; v2_s1; v2_s2; v2_s3; v2_s4; v2_s5; v2_s6; v2_s7; v2_s8; v2_s3; v2_s9; v2_s10; v2_s11; v2_s12; v2_s13; v2_s14; v2_s15; v2_s6; v2_s16; v2_s17; v2_s6; v2_s18; v2_s19; v2_s6; v2_s20; v2_s21; v2_s6; v2_s3; v2_s22; v2_s23; v2_s24; v2_s25; v2_s26; v2_s27; v2_s6; v2_s28; v2_s3; v2_s29; v2_s30; v2_s6; v2_s31; v2_s32; v2_s33; v2_s34; v2_s35; v2_s36; v2_s37; v2_s38; v2_s39; v2_s6; v2_s40; v2_s41; v2_s6; v2_s42; v2_s43; v2_s6; v2_s44; v2_s45; v2_s6; v2_s32; v2_s46; v2_s47; v2_s48; v2_s49; v2_s50; v2_s51; v2_s6; v2_s52; v2_s53; v2_s54; v2_s55; v2_s56].
