(** The steps of beep/protocol/procedure_templates/diagnosticV3.000:18-3302 as xmltodict.parse
    gives them (texts stripped, empty elements None); written by a script from the file. *)
From Verif Require Import Py Model_Procedure.
Local Open Scope string_scope.

Definition v3_s0 : val := VDict [("StepType", VText "Rest"); ("StepMode", VNone); ("StepValue", VNone); ("Limits", VNone); ("Ends", VDict [("EndEntry", VList [VDict [("EndType", VText "StepTime"); ("SpecialType", VNone); ("Oper", VText "="); ("Step", VText "002"); ("Value", VText "03:00:00")]; VDict [("EndType", VText "Voltage"); ("SpecialType", VNone); ("Oper", VText ">="); ("Step", VText "070"); ("Value", VText "4.4"); ("ChanSafetyEnd", VText "True")]; VDict [("EndType", VText "Voltage"); ("SpecialType", VNone); ("Oper", VText "<="); ("Step", VText "070"); ("Value", VText "2.5"); ("ChanSafetyEnd", VText "True")]])]); ("Reports", VDict [("ReportEntry", VDict [("ReportType", VText "StepTime"); ("Value", VText "00:00:30")])]); ("Range", VText "4"); ("Option1", VText "N"); ("Option2", VText "N"); ("Option3", VText "N"); ("StepNote", VNone)].
Definition v3_s1 : val := VDict [("StepType", VText "Charge"); ("StepMode", VText "Current"); ("StepValue", VText "1.0"); ("Limits", VNone); ("Ends", VDict [("EndEntry", VList [VDict [("EndType", VText "StepTime"); ("SpecialType", VNone); ("Oper", VText "="); ("Step", VText "003"); ("Value", VText "00:00:01")]; VDict [("EndType", VText "Voltage"); ("SpecialType", VNone); ("Oper", VText ">="); ("Step", VText "070"); ("Value", VText "4.4")]; VDict [("EndType", VText "Voltage"); ("SpecialType", VNone); ("Oper", VText "<="); ("Step", VText "070"); ("Value", VText "2.5")]])]); ("Reports", VDict [("ReportEntry", VDict [("ReportType", VText "StepTime"); ("Value", VText "::.01")])]); ("Range", VText "A"); ("Option1", VText "N"); ("Option2", VText "N"); ("Option3", VText "N"); ("StepNote", VText "resistance check")].
Definition v3_s2 : val := VDict [("StepType", VText "Rest"); ("StepMode", VNone); ("StepValue", VNone); ("Limits", VNone); ("Ends", VDict [("EndEntry", VList [VDict [("EndType", VText "StepTime"); ("SpecialType", VNone); ("Oper", VText "="); ("Step", VText "004"); ("Value", VText "00:01:00")]; VDict [("EndType", VText "Voltage"); ("SpecialType", VNone); ("Oper", VText ">="); ("Step", VText "070"); ("Value", VText "4.4")]; VDict [("EndType", VText "Voltage"); ("SpecialType", VNone); ("Oper", VText "<="); ("Step", VText "070"); ("Value", VText "2.5")]])]); ("Reports", VDict [("ReportEntry", VList [VDict [("ReportType", VText "StepTime"); ("Value", VText "00:00:01")]; VDict [("ReportType", VText "Voltage"); ("Value", VText "0.001")]])]); ("Range", VText "A"); ("Option1", VText "N"); ("Option2", VText "N"); ("Option3", VText "N"); ("StepNote", VNone)].
Definition v3_s3 : val := VDict [("StepType", VText "Do 1"); ("StepMode", VNone); ("StepValue", VNone); ("Limits", VNone); ("Ends", VNone); ("Reports", VNone); ("Range", VNone); ("Option1", VNone); ("Option2", VNone); ("Option3", VNone); ("StepNote", VNone)].
Definition v3_s4 : val := VDict [("StepType", VText "Charge"); ("StepMode", VText "Current"); ("StepValue", VText "0.1429"); ("Limits", VDict [("Voltage", VText "4.2")]); ("Ends", VDict [("EndEntry", VList [VDict [("EndType", VText "Current"); ("SpecialType", VNone); ("Oper", VText "<="); ("Step", VText "006"); ("Value", VText "0.0286")]; VDict [("EndType", VText "Voltage"); ("SpecialType", VNone); ("Oper", VText ">="); ("Step", VText "070"); ("Value", VText "4.4")]; VDict [("EndType", VText "Voltage"); ("SpecialType", VNone); ("Oper", VText "<="); ("Step", VText "070"); ("Value", VText "2.5")]])]); ("Reports", VDict [("ReportEntry", VList [VDict [("ReportType", VText "Voltage"); ("Value", VText "0.001")]; VDict [("ReportType", VText "StepTime"); ("Value", VText "00:02:00")]])]); ("Range", VText "A"); ("Option1", VText "N"); ("Option2", VText "N"); ("Option3", VText "N"); ("StepNote", VText "reset cycle C/20")].
Definition v3_s5 : val := VDict [("StepType", VText "Dischrge"); ("StepMode", VText "Current"); ("StepValue", VText "0.1429"); ("Limits", VNone); ("Ends", VDict [("EndEntry", VList [VDict [("EndType", VText "Voltage"); ("SpecialType", VNone); ("Oper", VText "<="); ("Step", VText "007"); ("Value", VText "2.7")]; VDict [("EndType", VText "Voltage"); ("SpecialType", VNone); ("Oper", VText ">="); ("Step", VText "070"); ("Value", VText "4.4")]; VDict [("EndType", VText "Voltage"); ("SpecialType", VNone); ("Oper", VText "<="); ("Step", VText "070"); ("Value", VText "2.5")]])]); ("Reports", VDict [("ReportEntry", VList [VDict [("ReportType", VText "Voltage"); ("Value", VText "0.001")]; VDict [("ReportType", VText "StepTime"); ("Value", VText "00:02:00")]])]); ("Range", VText "A"); ("Option1", VText "N"); ("Option2", VText "N"); ("Option3", VText "N"); ("StepNote", VNone)].
Definition v3_s6 : val := VDict [("StepType", VText "AdvCycle"); ("StepMode", VNone); ("StepValue", VNone); ("Limits", VNone); ("Ends", VNone); ("Reports", VNone); ("Range", VNone); ("Option1", VNone); ("Option2", VNone); ("Option3", VNone); ("StepNote", VNone)].
Definition v3_s7 : val := VDict [("StepType", VText "Loop 1"); ("StepMode", VNone); ("StepValue", VNone); ("Limits", VNone); ("Ends", VDict [("EndEntry", VDict [("EndType", VText "Loop Cnt"); ("SpecialType", VNone); ("Oper", VText "="); ("Step", VText "009"); ("Value", VText "2")])]); ("Reports", VNone); ("Range", VNone); ("Option1", VNone); ("Option2", VNone); ("Option3", VNone); ("StepNote", VNone)].
Definition v3_s8 : val := VDict [("StepType", VText "Charge"); ("StepMode", VText "Current"); ("StepValue", VText "0.333"); ("Limits", VDict [("Voltage", VText "4.2")]); ("Ends", VDict [("EndEntry", VList [VDict [("EndType", VText "Current"); ("SpecialType", VNone); ("Oper", VText "<="); ("Step", VText "010"); ("Value", VText "0.05")]; VDict [("EndType", VText "Voltage"); ("SpecialType", VNone); ("Oper", VText ">="); ("Step", VText "070"); ("Value", VText "4.4")]; VDict [("EndType", VText "Voltage"); ("SpecialType", VNone); ("Oper", VText "<="); ("Step", VText "070"); ("Value", VText "2.5")]])]); ("Reports", VDict [("ReportEntry", VList [VDict [("ReportType", VText "Voltage"); ("Value", VText "0.001")]; VDict [("ReportType", VText "StepTime"); ("Value", VText "00:00:30")]])]); ("Range", VText "A"); ("Option1", VText "N"); ("Option2", VText "N"); ("Option3", VText "N"); ("StepNote", VText "HPPC charge")].
Definition v3_s9 : val := VDict [("StepType", VText "Rest"); ("StepMode", VNone); ("StepValue", VNone); ("Limits", VNone); ("Ends", VDict [("EndEntry", VList [VDict [("EndType", VText "StepTime"); ("SpecialType", VNone); ("Oper", VText "="); ("Step", VText "012"); ("Value", VText "01:00:00")]; VDict [("EndType", VText "Voltage"); ("SpecialType", VNone); ("Oper", VText ">="); ("Step", VText "070"); ("Value", VText "4.4")]; VDict [("EndType", VText "Voltage"); ("SpecialType", VNone); ("Oper", VText "<="); ("Step", VText "070"); ("Value", VText "2.5")]])]); ("Reports", VDict [("ReportEntry", VList [VDict [("ReportType", VText "StepTime"); ("Value", VText "00:00:01")]; VDict [("ReportType", VText "Voltage"); ("Value", VText "1.0E-4")]])]); ("Range", VText "A"); ("Option1", VText "N"); ("Option2", VText "N"); ("Option3", VText "N"); ("StepNote", VNone)].
Definition v3_s10 : val := VDict [("StepType", VText "Dischrge"); ("StepMode", VText "Current"); ("StepValue", VText "1.0"); ("Limits", VNone); ("Ends", VDict [("EndEntry", VList [VDict [("EndType", VText "StepTime"); ("SpecialType", VNone); ("Oper", VText "="); ("Step", VText "013"); ("Value", VText "00:00:30")]; VDict [("EndType", VText "Voltage"); ("SpecialType", VNone); ("Oper", VText "<="); ("Step", VText "017"); ("Value", VText "2.7")]; VDict [("EndType", VText "Voltage"); ("SpecialType", VNone); ("Oper", VText ">="); ("Step", VText "070"); ("Value", VText "4.4")]; VDict [("EndType", VText "Voltage"); ("SpecialType", VNone); ("Oper", VText "<="); ("Step", VText "070"); ("Value", VText "2.5")]])]); ("Reports", VDict [("ReportEntry", VDict [("ReportType", VText "StepTime"); ("Value", VText "::.01")])]); ("Range", VText "A"); ("Option1", VText "N"); ("Option2", VText "N"); ("Option3", VText "N"); ("StepNote", VText "HPPC discharge with pulses")].
Definition v3_s11 : val := VDict [("StepType", VText "Rest"); ("StepMode", VNone); ("StepValue", VNone); ("Limits", VNone); ("Ends", VDict [("EndEntry", VList [VDict [("EndType", VText "StepTime"); ("SpecialType", VNone); ("Oper", VText "="); ("Step", VText "014"); ("Value", VText "00:00:40")]; VDict [("EndType", VText "Voltage"); ("SpecialType", VNone); ("Oper", VText ">="); ("Step", VText "070"); ("Value", VText "4.4")]; VDict [("EndType", VText "Voltage"); ("SpecialType", VNone); ("Oper", VText "<="); ("Step", VText "070"); ("Value", VText "2.5")]])]); ("Reports", VDict [("ReportEntry", VDict [("ReportType", VText "StepTime"); ("Value", VText "::.01")])]); ("Range", VText "A"); ("Option1", VText "N"); ("Option2", VText "N"); ("Option3", VText "N"); ("StepNote", VNone)].
Definition v3_s12 : val := VDict [("StepType", VText "Charge"); ("StepMode", VText "Current"); ("StepValue", VText "0.75"); ("Limits", VNone); ("Ends", VDict [("EndEntry", VList [VDict [("EndType", VText "StepTime"); ("SpecialType", VNone); ("Oper", VText "="); ("Step", VText "015"); ("Value", VText "00:00:10")]; VDict [("EndType", VText "Voltage"); ("SpecialType", VNone); ("Oper", VText ">="); ("Step", VText "015"); ("Value", VText "4.39")]; VDict [("EndType", VText "Voltage"); ("SpecialType", VNone); ("Oper", VText ">="); ("Step", VText "070"); ("Value", VText "4.4")]; VDict [("EndType", VText "Voltage"); ("SpecialType", VNone); ("Oper", VText "<="); ("Step", VText "070"); ("Value", VText "2.5")]])]); ("Reports", VDict [("ReportEntry", VDict [("ReportType", VText "StepTime"); ("Value", VText "::.01")])]); ("Range", VText "A"); ("Option1", VText "N"); ("Option2", VText "N"); ("Option3", VText "N"); ("StepNote", VNone)].
Definition v3_s13 : val := VDict [("StepType", VText "Dischrge"); ("StepMode", VText "Current"); ("StepValue", VText "0.333"); ("Limits", VNone); ("Ends", VDict [("EndEntry", VList [VDict [("EndType", VText "StepTime"); ("SpecialType", VNone); ("Oper", VText "="); ("Step", VText "016"); ("Value", VText "00:18:00")]; VDict [("EndType", VText "Voltage"); ("SpecialType", VNone); ("Oper", VText "<="); ("Step", VText "017"); ("Value", VText "2.7")]; VDict [("EndType", VText "Voltage"); ("SpecialType", VNone); ("Oper", VText ">="); ("Step", VText "070"); ("Value", VText "4.4")]; VDict [("EndType", VText "Voltage"); ("SpecialType", VNone); ("Oper", VText "<="); ("Step", VText "070"); ("Value", VText "2.5")]])]); ("Reports", VDict [("ReportEntry", VList [VDict [("ReportType", VText "StepTime"); ("Value", VText "00:00:30")]; VDict [("ReportType", VText "Voltage"); ("Value", VText "0.001")]])]); ("Range", VText "A"); ("Option1", VText "N"); ("Option2", VText "N"); ("Option3", VText "N"); ("StepNote", VNone)].
Definition v3_s14 : val := VDict [("StepType", VText "Loop 1"); ("StepMode", VNone); ("StepValue", VNone); ("Limits", VNone); ("Ends", VDict [("EndEntry", VDict [("EndType", VText "Loop Cnt"); ("SpecialType", VNone); ("Oper", VText "="); ("Step", VText "017"); ("Value", VText "20")])]); ("Reports", VNone); ("Range", VNone); ("Option1", VNone); ("Option2", VNone); ("Option3", VNone); ("StepNote", VNone)].
Definition v3_s15 : val := VDict [("StepType", VText "Dischrge"); ("StepMode", VText "Voltage"); ("StepValue", VText "2.7"); ("Limits", VDict [("Current", VText "0.333")]); ("Ends", VDict [("EndEntry", VList [VDict [("EndType", VText "Current"); ("SpecialType", VNone); ("Oper", VText "<="); ("Step", VText "018"); ("Value", VText "0.05")]; VDict [("EndType", VText "Voltage"); ("SpecialType", VNone); ("Oper", VText ">="); ("Step", VText "070"); ("Value", VText "4.4")]; VDict [("EndType", VText "Voltage"); ("SpecialType", VNone); ("Oper", VText "<="); ("Step", VText "070"); ("Value", VText "2.5")]])]); ("Reports", VDict [("ReportEntry", VList [VDict [("ReportType", VText "StepTime"); ("Value", VText "00:00:30")]; VDict [("ReportType", VText "Voltage"); ("Value", VText "0.001")]])]); ("Range", VText "A"); ("Option1", VText "N"); ("Option2", VText "N"); ("Option3", VText "N"); ("StepNote", VNone)].
Definition v3_s16 : val := VDict [("StepType", VText "Charge"); ("StepMode", VText "Current"); ("StepValue", VText "0.2"); ("Limits", VDict [("Voltage", VText "4.2")]); ("Ends", VDict [("EndEntry", VList [VDict [("EndType", VText "Current"); ("SpecialType", VNone); ("Oper", VText "<="); ("Step", VText "020"); ("Value", VText "0.05")]; VDict [("EndType", VText "Voltage"); ("SpecialType", VNone); ("Oper", VText ">="); ("Step", VText "070"); ("Value", VText "4.4")]; VDict [("EndType", VText "Voltage"); ("SpecialType", VNone); ("Oper", VText "<="); ("Step", VText "070"); ("Value", VText "2.5")]])]); ("Reports", VDict [("ReportEntry", VList [VDict [("ReportType", VText "Voltage"); ("Value", VText "0.001")]; VDict [("ReportType", VText "StepTime"); ("Value", VText "00:00:30")]])]); ("Range", VText "4"); ("Option1", VText "N"); ("Option2", VText "N"); ("Option3", VText "N"); ("StepNote", VText "RPT C/5")].
Definition v3_s17 : val := VDict [("StepType", VText "Dischrge"); ("StepMode", VText "Current"); ("StepValue", VText "0.2"); ("Limits", VNone); ("Ends", VDict [("EndEntry", VList [VDict [("EndType", VText "Voltage"); ("SpecialType", VNone); ("Oper", VText "<="); ("Step", VText "021"); ("Value", VText "2.7")]; VDict [("EndType", VText "Voltage"); ("SpecialType", VNone); ("Oper", VText ">="); ("Step", VText "070"); ("Value", VText "4.4")]; VDict [("EndType", VText "Voltage"); ("SpecialType", VNone); ("Oper", VText "<="); ("Step", VText "070"); ("Value", VText "2.5")]])]); ("Reports", VDict [("ReportEntry", VList [VDict [("ReportType", VText "Voltage"); ("Value", VText "0.001")]; VDict [("ReportType", VText "StepTime"); ("Value", VText "00:00:30")]])]); ("Range", VText "4"); ("Option1", VText "N"); ("Option2", VText "N"); ("Option3", VText "N"); ("StepNote", VNone)].
Definition v3_s18 : val := VDict [("StepType", VText "Charge"); ("StepMode", VText "Current"); ("StepValue", VText "0.2"); ("Limits", VDict [("Voltage", VText "4.2")]); ("Ends", VDict [("EndEntry", VList [VDict [("EndType", VText "Current"); ("SpecialType", VNone); ("Oper", VText "<="); ("Step", VText "023"); ("Value", VText "0.05")]; VDict [("EndType", VText "Voltage"); ("SpecialType", VNone); ("Oper", VText ">="); ("Step", VText "070"); ("Value", VText "4.4")]; VDict [("EndType", VText "Voltage"); ("SpecialType", VNone); ("Oper", VText "<="); ("Step", VText "070"); ("Value", VText "2.5")]])]); ("Reports", VDict [("ReportEntry", VList [VDict [("ReportType", VText "Voltage"); ("Value", VText "0.001")]; VDict [("ReportType", VText "StepTime"); ("Value", VText "00:00:30")]])]); ("Range", VText "4"); ("Option1", VText "N"); ("Option2", VText "N"); ("Option3", VText "N"); ("StepNote", VText "RPT 1C")].
Definition v3_s19 : val := VDict [("StepType", VText "Dischrge"); ("StepMode", VText "Current"); ("StepValue", VText "1.0"); ("Limits", VNone); ("Ends", VDict [("EndEntry", VList [VDict [("EndType", VText "Voltage"); ("SpecialType", VNone); ("Oper", VText "<="); ("Step", VText "024"); ("Value", VText "2.7")]; VDict [("EndType", VText "Voltage"); ("SpecialType", VNone); ("Oper", VText ">="); ("Step", VText "070"); ("Value", VText "4.4")]; VDict [("EndType", VText "Voltage"); ("SpecialType", VNone); ("Oper", VText "<="); ("Step", VText "070"); ("Value", VText "2.5")]])]); ("Reports", VDict [("ReportEntry", VList [VDict [("ReportType", VText "Voltage"); ("Value", VText "0.001")]; VDict [("ReportType", VText "StepTime"); ("Value", VText "00:00:30")]])]); ("Range", VText "4"); ("Option1", VText "N"); ("Option2", VText "N"); ("Option3", VText "N"); ("StepNote", VNone)].
Definition v3_s20 : val := VDict [("StepType", VText "Charge"); ("StepMode", VText "Current"); ("StepValue", VText "0.2"); ("Limits", VDict [("Voltage", VText "4.2")]); ("Ends", VDict [("EndEntry", VList [VDict [("EndType", VText "Current"); ("SpecialType", VNone); ("Oper", VText "<="); ("Step", VText "026"); ("Value", VText "0.05")]; VDict [("EndType", VText "Voltage"); ("SpecialType", VNone); ("Oper", VText ">="); ("Step", VText "070"); ("Value", VText "4.4")]; VDict [("EndType", VText "Voltage"); ("SpecialType", VNone); ("Oper", VText "<="); ("Step", VText "070"); ("Value", VText "2.5")]])]); ("Reports", VDict [("ReportEntry", VList [VDict [("ReportType", VText "Voltage"); ("Value", VText "0.001")]; VDict [("ReportType", VText "StepTime"); ("Value", VText "00:00:30")]])]); ("Range", VText "4"); ("Option1", VText "N"); ("Option2", VText "N"); ("Option3", VText "N"); ("StepNote", VText "RPT 2C")].
Definition v3_s21 : val := VDict [("StepType", VText "Dischrge"); ("StepMode", VText "Current"); ("StepValue", VText "2.0"); ("Limits", VNone); ("Ends", VDict [("EndEntry", VList [VDict [("EndType", VText "Voltage"); ("SpecialType", VNone); ("Oper", VText "<="); ("Step", VText "027"); ("Value", VText "2.7")]; VDict [("EndType", VText "Voltage"); ("SpecialType", VNone); ("Oper", VText ">="); ("Step", VText "070"); ("Value", VText "4.4")]; VDict [("EndType", VText "Voltage"); ("SpecialType", VNone); ("Oper", VText "<="); ("Step", VText "070"); ("Value", VText "2.5")]])]); ("Reports", VDict [("ReportEntry", VList [VDict [("ReportType", VText "Voltage"); ("Value", VText "0.001")]; VDict [("ReportType", VText "StepTime"); ("Value", VText "00:00:30")]])]); ("Range", VText "4"); ("Option1", VText "N"); ("Option2", VText "N"); ("Option3", VText "N"); ("StepNote", VNone)].
Definition v3_s22 : val := VDict [("StepType", VText "Do 1"); ("StepMode", VNone); ("StepValue", VNone); ("Limits", VNone); ("Ends", VNone); ("Reports", VNone); ("Range", VNone); ("Option1", VNone); ("Option2", VNone); ("Option3", VNone); ("StepNote", VText "regular cycles (first 30)")].
Definition v3_s23 : val := VDict [("StepType", VText "Charge"); ("StepMode", VText "Current"); ("StepValue", VText "1.0"); ("Limits", VNone); ("Ends", VDict [("EndEntry", VList [VDict [("EndType", VText "StepTime"); ("SpecialType", VNone); ("Oper", VText "="); ("Step", VText "030"); ("Value", VText "00:18:00")]; VDict [("EndType", VText "Voltage"); ("SpecialType", VNone); ("Oper", VText ">="); ("Step", VText "031"); ("Value", VText "4.1")]; VDict [("EndType", VText "Voltage"); ("SpecialType", VNone); ("Oper", VText ">="); ("Step", VText "070"); ("Value", VText "4.4")]; VDict [("EndType", VText "Voltage"); ("SpecialType", VNone); ("Oper", VText "<="); ("Step", VText "070"); ("Value", VText "2.5")]])]); ("Reports", VDict [("ReportEntry", VList [VDict [("ReportType", VText "Voltage"); ("Value", VText "0.005")]; VDict [("ReportType", VText "StepTime"); ("Value", VText "00:00:30")]])]); ("Range", VText "4"); ("Option1", VText "N"); ("Option2", VText "N"); ("Option3", VText "N"); ("StepNote", VNone)].
Definition v3_s24 : val := VDict [("StepType", VText "Charge"); ("StepMode", VText "Current"); ("StepValue", VText "1.0"); ("Limits", VNone); ("Ends", VDict [("EndEntry", VList [VDict [("EndType", VText "Voltage"); ("SpecialType", VNone); ("Oper", VText ">="); ("Step", VText "031"); ("Value", VText "4.1")]; VDict [("EndType", VText "Voltage"); ("SpecialType", VNone); ("Oper", VText ">="); ("Step", VText "070"); ("Value", VText "4.4")]; VDict [("EndType", VText "Voltage"); ("SpecialType", VNone); ("Oper", VText "<="); ("Step", VText "070"); ("Value", VText "2.5")]])]); ("Reports", VDict [("ReportEntry", VList [VDict [("ReportType", VText "Voltage"); ("Value", VText "0.005")]; VDict [("ReportType", VText "StepTime"); ("Value", VText "00:00:30")]])]); ("Range", VText "4"); ("Option1", VText "N"); ("Option2", VText "N"); ("Option3", VText "N"); ("StepNote", VNone)].
Definition v3_s25 : val := VDict [("StepType", VText "Charge"); ("StepMode", VText "Voltage"); ("StepValue", VText "4.1"); ("Limits", VNone); ("Ends", VDict [("EndEntry", VList [VDict [("EndType", VText "StepTime"); ("SpecialType", VNone); ("Oper", VText "="); ("Step", VText "032"); ("Value", VText "00:30:00")]; VDict [("EndType", VText "Voltage"); ("SpecialType", VNone); ("Oper", VText ">="); ("Step", VText "070"); ("Value", VText "4.4")]; VDict [("EndType", VText "Voltage"); ("SpecialType", VNone); ("Oper", VText "<="); ("Step", VText "070"); ("Value", VText "2.5")]])]); ("Reports", VDict [("ReportEntry", VDict [("ReportType", VText "StepTime"); ("Value", VText "00:00:30")])]); ("Range", VText "A"); ("Option1", VText "N"); ("Option2", VText "N"); ("Option3", VText "N"); ("StepNote", VNone)].
Definition v3_s26 : val := VDict [("StepType", VText "Rest"); ("StepMode", VNone); ("StepValue", VNone); ("Limits", VNone); ("Ends", VDict [("EndEntry", VList [VDict [("EndType", VText "StepTime"); ("SpecialType", VNone); ("Oper", VText "="); ("Step", VText "033"); ("Value", VText "00:05:00")]; VDict [("EndType", VText "Voltage"); ("SpecialType", VNone); ("Oper", VText ">="); ("Step", VText "070"); ("Value", VText "4.4")]; VDict [("EndType", VText "Voltage"); ("SpecialType", VNone); ("Oper", VText "<="); ("Step", VText "070"); ("Value", VText "2.5")]])]); ("Reports", VDict [("ReportEntry", VDict [("ReportType", VText "StepTime"); ("Value", VText "00:00:30")])]); ("Range", VText "A"); ("Option1", VText "N"); ("Option2", VText "N"); ("Option3", VText "N"); ("StepNote", VNone)].
Definition v3_s27 : val := VDict [("StepType", VText "Dischrge"); ("StepMode", VText "Current"); ("StepValue", VText "1.0"); ("Limits", VNone); ("Ends", VDict [("EndEntry", VList [VDict [("EndType", VText "Voltage"); ("SpecialType", VNone); ("Oper", VText "<="); ("Step", VText "034"); ("Value", VText "2.7")]; VDict [("EndType", VText "Voltage"); ("SpecialType", VNone); ("Oper", VText ">="); ("Step", VText "070"); ("Value", VText "4.4")]; VDict [("EndType", VText "Voltage"); ("SpecialType", VNone); ("Oper", VText "<="); ("Step", VText "070"); ("Value", VText "2.5")]])]); ("Reports", VDict [("ReportEntry", VList [VDict [("ReportType", VText "Voltage"); ("Value", VText "0.005")]; VDict [("ReportType", VText "StepTime"); ("Value", VText "00:00:30")]])]); ("Range", VText "4"); ("Option1", VText "N"); ("Option2", VText "N"); ("Option3", VText "N"); ("StepNote", VNone)].
Definition v3_s28 : val := VDict [("StepType", VText "Rest"); ("StepMode", VNone); ("StepValue", VNone); ("Limits", VNone); ("Ends", VDict [("EndEntry", VList [VDict [("EndType", VText "StepTime"); ("SpecialType", VNone); ("Oper", VText "="); ("Step", VText "035"); ("Value", VText "00:15:00")]; VDict [("EndType", VText "Voltage"); ("SpecialType", VNone); ("Oper", VText ">="); ("Step", VText "070"); ("Value", VText "4.4")]; VDict [("EndType", VText "Voltage"); ("SpecialType", VNone); ("Oper", VText "<="); ("Step", VText "070"); ("Value", VText "2.5")]])]); ("Reports", VDict [("ReportEntry", VDict [("ReportType", VText "StepTime"); ("Value", VText "00:00:30")])]); ("Range", VText "4"); ("Option1", VText "N"); ("Option2", VText "N"); ("Option3", VText "N"); ("StepNote", VNone)].
Definition v3_s29 : val := VDict [("StepType", VText "Loop 1"); ("StepMode", VNone); ("StepValue", VNone); ("Limits", VNone); ("Ends", VDict [("EndEntry", VDict [("EndType", VText "Loop Cnt"); ("SpecialType", VNone); ("Oper", VText "="); ("Step", VText "037"); ("Value", VText "30")])]); ("Reports", VNone); ("Range", VNone); ("Option1", VNone); ("Option2", VNone); ("Option3", VNone); ("StepNote", VNone)].
Definition v3_s30 : val := VDict [("StepType", VText "Do 1"); ("StepMode", VNone); ("StepValue", VNone); ("Limits", VNone); ("Ends", VNone); ("Reports", VNone); ("Range", VNone); ("Option1", VNone); ("Option2", VNone); ("Option3", VNone); ("StepNote", VText "begin main loop (after first 30 cycles)")].
Definition v3_s31 : val := VDict [("StepType", VText "Charge"); ("StepMode", VText "Current"); ("StepValue", VText "0.1429"); ("Limits", VDict [("Voltage", VText "4.2")]); ("Ends", VDict [("EndEntry", VList [VDict [("EndType", VText "Current"); ("SpecialType", VNone); ("Oper", VText "<="); ("Step", VText "039"); ("Value", VText "0.0286")]; VDict [("EndType", VText "Voltage"); ("SpecialType", VNone); ("Oper", VText ">="); ("Step", VText "070"); ("Value", VText "4.4")]; VDict [("EndType", VText "Voltage"); ("SpecialType", VNone); ("Oper", VText "<="); ("Step", VText "070"); ("Value", VText "2.5")]])]); ("Reports", VDict [("ReportEntry", VList [VDict [("ReportType", VText "Voltage"); ("Value", VText "0.001")]; VDict [("ReportType", VText "StepTime"); ("Value", VText "00:02:00")]])]); ("Range", VText "A"); ("Option1", VText "N"); ("Option2", VText "N"); ("Option3", VText "N"); ("StepNote", VText "reset cycle")].
Definition v3_s32 : val := VDict [("StepType", VText "Dischrge"); ("StepMode", VText "Current"); ("StepValue", VText "0.1429"); ("Limits", VNone); ("Ends", VDict [("EndEntry", VList [VDict [("EndType", VText "Voltage"); ("SpecialType", VNone); ("Oper", VText "<="); ("Step", VText "040"); ("Value", VText "2.7")]; VDict [("EndType", VText "Voltage"); ("SpecialType", VNone); ("Oper", VText ">="); ("Step", VText "070"); ("Value", VText "4.4")]; VDict [("EndType", VText "Voltage"); ("SpecialType", VNone); ("Oper", VText "<="); ("Step", VText "070"); ("Value", VText "2.5")]])]); ("Reports", VDict [("ReportEntry", VList [VDict [("ReportType", VText "Voltage"); ("Value", VText "0.001")]; VDict [("ReportType", VText "StepTime"); ("Value", VText "00:02:00")]])]); ("Range", VText "A"); ("Option1", VText "N"); ("Option2", VText "N"); ("Option3", VText "N"); ("StepNote", VNone)].
Definition v3_s33 : val := VDict [("StepType", VText "Charge"); ("StepMode", VText "Current"); ("StepValue", VText "0.333"); ("Limits", VDict [("Voltage", VText "4.2")]); ("Ends", VDict [("EndEntry", VList [VDict [("EndType", VText "Current"); ("SpecialType", VNone); ("Oper", VText "<="); ("Step", VText "042"); ("Value", VText "0.05")]; VDict [("EndType", VText "Voltage"); ("SpecialType", VNone); ("Oper", VText ">="); ("Step", VText "070"); ("Value", VText "4.4")]; VDict [("EndType", VText "Voltage"); ("SpecialType", VNone); ("Oper", VText "<="); ("Step", VText "070"); ("Value", VText "2.5")]])]); ("Reports", VDict [("ReportEntry", VList [VDict [("ReportType", VText "Voltage"); ("Value", VText "0.001")]; VDict [("ReportType", VText "StepTime"); ("Value", VText "00:00:30")]])]); ("Range", VText "A"); ("Option1", VText "N"); ("Option2", VText "N"); ("Option3", VText "N"); ("StepNote", VText "charge for HPPC")].
Definition v3_s34 : val := VDict [("StepType", VText "Do 2"); ("StepMode", VNone); ("StepValue", VNone); ("Limits", VNone); ("Ends", VNone); ("Reports", VNone); ("Range", VNone); ("Option1", VNone); ("Option2", VNone); ("Option3", VNone); ("StepNote", VNone)].
Definition v3_s35 : val := VDict [("StepType", VText "Rest"); ("StepMode", VNone); ("StepValue", VNone); ("Limits", VNone); ("Ends", VDict [("EndEntry", VList [VDict [("EndType", VText "StepTime"); ("SpecialType", VNone); ("Oper", VText "="); ("Step", VText "044"); ("Value", VText "01:00:00")]; VDict [("EndType", VText "Voltage"); ("SpecialType", VNone); ("Oper", VText ">="); ("Step", VText "070"); ("Value", VText "4.4")]; VDict [("EndType", VText "Voltage"); ("SpecialType", VNone); ("Oper", VText "<="); ("Step", VText "070"); ("Value", VText "2.5")]])]); ("Reports", VDict [("ReportEntry", VList [VDict [("ReportType", VText "StepTime"); ("Value", VText "00:00:01")]; VDict [("ReportType", VText "Voltage"); ("Value", VText "1.0E-4")]])]); ("Range", VText "A"); ("Option1", VText "N"); ("Option2", VText "N"); ("Option3", VText "N"); ("StepNote", VNone)].
Definition v3_s36 : val := VDict [("StepType", VText "Dischrge"); ("StepMode", VText "Current"); ("StepValue", VText "1.0"); ("Limits", VNone); ("Ends", VDict [("EndEntry", VList [VDict [("EndType", VText "StepTime"); ("SpecialType", VNone); ("Oper", VText "="); ("Step", VText "045"); ("Value", VText "00:00:30")]; VDict [("EndType", VText "Voltage"); ("SpecialType", VNone); ("Oper", VText "<="); ("Step", VText "049"); ("Value", VText "2.7")]; VDict [("EndType", VText "Voltage"); ("SpecialType", VNone); ("Oper", VText ">="); ("Step", VText "070"); ("Value", VText "4.4")]; VDict [("EndType", VText "Voltage"); ("SpecialType", VNone); ("Oper", VText "<="); ("Step", VText "070"); ("Value", VText "2.5")]])]); ("Reports", VDict [("ReportEntry", VDict [("ReportType", VText "StepTime"); ("Value", VText "::.01")])]); ("Range", VText "A"); ("Option1", VText "N"); ("Option2", VText "N"); ("Option3", VText "N"); ("StepNote", VText "HPPC discharge with pulses")].
Definition v3_s37 : val := VDict [("StepType", VText "Rest"); ("StepMode", VNone); ("StepValue", VNone); ("Limits", VNone); ("Ends", VDict [("EndEntry", VList [VDict [("EndType", VText "StepTime"); ("SpecialType", VNone); ("Oper", VText "="); ("Step", VText "046"); ("Value", VText "00:00:40")]; VDict [("EndType", VText "Voltage"); ("SpecialType", VNone); ("Oper", VText ">="); ("Step", VText "070"); ("Value", VText "4.4")]; VDict [("EndType", VText "Voltage"); ("SpecialType", VNone); ("Oper", VText "<="); ("Step", VText "070"); ("Value", VText "2.5")]])]); ("Reports", VDict [("ReportEntry", VDict [("ReportType", VText "StepTime"); ("Value", VText "::.01")])]); ("Range", VText "A"); ("Option1", VText "N"); ("Option2", VText "N"); ("Option3", VText "N"); ("StepNote", VNone)].
Definition v3_s38 : val := VDict [("StepType", VText "Charge"); ("StepMode", VText "Current"); ("StepValue", VText "0.75"); ("Limits", VNone); ("Ends", VDict [("EndEntry", VList [VDict [("EndType", VText "StepTime"); ("SpecialType", VNone); ("Oper", VText "="); ("Step", VText "047"); ("Value", VText "00:00:10")]; VDict [("EndType", VText "Voltage"); ("SpecialType", VNone); ("Oper", VText ">="); ("Step", VText "047"); ("Value", VText "4.39")]; VDict [("EndType", VText "Voltage"); ("SpecialType", VNone); ("Oper", VText ">="); ("Step", VText "070"); ("Value", VText "4.4")]; VDict [("EndType", VText "Voltage"); ("SpecialType", VNone); ("Oper", VText "<="); ("Step", VText "070"); ("Value", VText "2.5")]])]); ("Reports", VDict [("ReportEntry", VDict [("ReportType", VText "StepTime"); ("Value", VText "::.01")])]); ("Range", VText "A"); ("Option1", VText "N"); ("Option2", VText "N"); ("Option3", VText "N"); ("StepNote", VNone)].
Definition v3_s39 : val := VDict [("StepType", VText "Dischrge"); ("StepMode", VText "Current"); ("StepValue", VText "0.333"); ("Limits", VNone); ("Ends", VDict [("EndEntry", VList [VDict [("EndType", VText "StepTime"); ("SpecialType", VNone); ("Oper", VText "="); ("Step", VText "048"); ("Value", VText "00:18:00")]; VDict [("EndType", VText "Voltage"); ("SpecialType", VNone); ("Oper", VText "<="); ("Step", VText "049"); ("Value", VText "2.7")]; VDict [("EndType", VText "Voltage"); ("SpecialType", VNone); ("Oper", VText ">="); ("Step", VText "070"); ("Value", VText "4.4")]; VDict [("EndType", VText "Voltage"); ("SpecialType", VNone); ("Oper", VText "<="); ("Step", VText "070"); ("Value", VText "2.5")]])]); ("Reports", VDict [("ReportEntry", VList [VDict [("ReportType", VText "StepTime"); ("Value", VText "00:00:30")]; VDict [("ReportType", VText "Voltage"); ("Value", VText "0.001")]])]); ("Range", VText "A"); ("Option1", VText "N"); ("Option2", VText "N"); ("Option3", VText "N"); ("StepNote", VNone)].
Definition v3_s40 : val := VDict [("StepType", VText "Loop 2"); ("StepMode", VNone); ("StepValue", VNone); ("Limits", VNone); ("Ends", VDict [("EndEntry", VDict [("EndType", VText "Loop Cnt"); ("SpecialType", VNone); ("Oper", VText "="); ("Step", VText "049"); ("Value", VText "20")])]); ("Reports", VNone); ("Range", VNone); ("Option1", VNone); ("Option2", VNone); ("Option3", VNone); ("StepNote", VNone)].
Definition v3_s41 : val := VDict [("StepType", VText "Dischrge"); ("StepMode", VText "Voltage"); ("StepValue", VText "2.7"); ("Limits", VDict [("Current", VText "0.333")]); ("Ends", VDict [("EndEntry", VList [VDict [("EndType", VText "Current"); ("SpecialType", VNone); ("Oper", VText "<="); ("Step", VText "050"); ("Value", VText "0.05")]; VDict [("EndType", VText "Voltage"); ("SpecialType", VNone); ("Oper", VText ">="); ("Step", VText "070"); ("Value", VText "4.4")]; VDict [("EndType", VText "Voltage"); ("SpecialType", VNone); ("Oper", VText "<="); ("Step", VText "070"); ("Value", VText "2.5")]])]); ("Reports", VDict [("ReportEntry", VList [VDict [("ReportType", VText "StepTime"); ("Value", VText "00:00:30")]; VDict [("ReportType", VText "Voltage"); ("Value", VText "0.001")]])]); ("Range", VText "A"); ("Option1", VText "N"); ("Option2", VText "N"); ("Option3", VText "N"); ("StepNote", VNone)].
Definition v3_s42 : val := VDict [("StepType", VText "Charge"); ("StepMode", VText "Current"); ("StepValue", VText "0.2"); ("Limits", VDict [("Voltage", VText "4.2")]); ("Ends", VDict [("EndEntry", VList [VDict [("EndType", VText "Current"); ("SpecialType", VNone); ("Oper", VText "<="); ("Step", VText "052"); ("Value", VText "0.05")]; VDict [("EndType", VText "Voltage"); ("SpecialType", VNone); ("Oper", VText ">="); ("Step", VText "070"); ("Value", VText "4.4")]; VDict [("EndType", VText "Voltage"); ("SpecialType", VNone); ("Oper", VText "<="); ("Step", VText "070"); ("Value", VText "2.5")]])]); ("Reports", VDict [("ReportEntry", VList [VDict [("ReportType", VText "Voltage"); ("Value", VText "0.001")]; VDict [("ReportType", VText "StepTime"); ("Value", VText "00:00:30")]])]); ("Range", VText "4"); ("Option1", VText "N"); ("Option2", VText "N"); ("Option3", VText "N"); ("StepNote", VText "RPT C/5")].
Definition v3_s43 : val := VDict [("StepType", VText "Dischrge"); ("StepMode", VText "Current"); ("StepValue", VText "0.2"); ("Limits", VNone); ("Ends", VDict [("EndEntry", VList [VDict [("EndType", VText "Voltage"); ("SpecialType", VNone); ("Oper", VText "<="); ("Step", VText "053"); ("Value", VText "2.7")]; VDict [("EndType", VText "Voltage"); ("SpecialType", VNone); ("Oper", VText ">="); ("Step", VText "070"); ("Value", VText "4.4")]; VDict [("EndType", VText "Voltage"); ("SpecialType", VNone); ("Oper", VText "<="); ("Step", VText "070"); ("Value", VText "2.5")]])]); ("Reports", VDict [("ReportEntry", VList [VDict [("ReportType", VText "Voltage"); ("Value", VText "0.001")]; VDict [("ReportType", VText "StepTime"); ("Value", VText "00:00:30")]])]); ("Range", VText "4"); ("Option1", VText "N"); ("Option2", VText "N"); ("Option3", VText "N"); ("StepNote", VNone)].
Definition v3_s44 : val := VDict [("StepType", VText "Charge"); ("StepMode", VText "Current"); ("StepValue", VText "0.2"); ("Limits", VDict [("Voltage", VText "4.2")]); ("Ends", VDict [("EndEntry", VList [VDict [("EndType", VText "Current"); ("SpecialType", VNone); ("Oper", VText "<="); ("Step", VText "055"); ("Value", VText "0.05")]; VDict [("EndType", VText "Voltage"); ("SpecialType", VNone); ("Oper", VText ">="); ("Step", VText "070"); ("Value", VText "4.4")]; VDict [("EndType", VText "Voltage"); ("SpecialType", VNone); ("Oper", VText "<="); ("Step", VText "070"); ("Value", VText "2.5")]])]); ("Reports", VDict [("ReportEntry", VList [VDict [("ReportType", VText "Voltage"); ("Value", VText "0.001")]; VDict [("ReportType", VText "StepTime"); ("Value", VText "00:00:30")]])]); ("Range", VText "4"); ("Option1", VText "N"); ("Option2", VText "N"); ("Option3", VText "N"); ("StepNote", VText "RPT 1C")].
Definition v3_s45 : val := VDict [("StepType", VText "Dischrge"); ("StepMode", VText "Current"); ("StepValue", VText "1.0"); ("Limits", VNone); ("Ends", VDict [("EndEntry", VList [VDict [("EndType", VText "Voltage"); ("SpecialType", VNone); ("Oper", VText "<="); ("Step", VText "056"); ("Value", VText "2.7")]; VDict [("EndType", VText "Voltage"); ("SpecialType", VNone); ("Oper", VText ">="); ("Step", VText "070"); ("Value", VText "4.4")]; VDict [("EndType", VText "Voltage"); ("SpecialType", VNone); ("Oper", VText "<="); ("Step", VText "070"); ("Value", VText "2.5")]])]); ("Reports", VDict [("ReportEntry", VList [VDict [("ReportType", VText "Voltage"); ("Value", VText "0.001")]; VDict [("ReportType", VText "StepTime"); ("Value", VText "00:00:30")]])]); ("Range", VText "4"); ("Option1", VText "N"); ("Option2", VText "N"); ("Option3", VText "N"); ("StepNote", VNone)].
Definition v3_s46 : val := VDict [("StepType", VText "Charge"); ("StepMode", VText "Current"); ("StepValue", VText "0.2"); ("Limits", VDict [("Voltage", VText "4.2")]); ("Ends", VDict [("EndEntry", VList [VDict [("EndType", VText "Current"); ("SpecialType", VNone); ("Oper", VText "<="); ("Step", VText "058"); ("Value", VText "0.05")]; VDict [("EndType", VText "Voltage"); ("SpecialType", VNone); ("Oper", VText ">="); ("Step", VText "070"); ("Value", VText "4.4")]; VDict [("EndType", VText "Voltage"); ("SpecialType", VNone); ("Oper", VText "<="); ("Step", VText "070"); ("Value", VText "2.5")]])]); ("Reports", VDict [("ReportEntry", VList [VDict [("ReportType", VText "Voltage"); ("Value", VText "0.001")]; VDict [("ReportType", VText "StepTime"); ("Value", VText "00:00:30")]])]); ("Range", VText "4"); ("Option1", VText "N"); ("Option2", VText "N"); ("Option3", VText "N"); ("StepNote", VText "RPT 2C")].
Definition v3_s47 : val := VDict [("StepType", VText "Dischrge"); ("StepMode", VText "Current"); ("StepValue", VText "2.0"); ("Limits", VNone); ("Ends", VDict [("EndEntry", VList [VDict [("EndType", VText "Voltage"); ("SpecialType", VNone); ("Oper", VText "<="); ("Step", VText "059"); ("Value", VText "2.7")]; VDict [("EndType", VText "Voltage"); ("SpecialType", VNone); ("Oper", VText ">="); ("Step", VText "070"); ("Value", VText "4.4")]; VDict [("EndType", VText "Voltage"); ("SpecialType", VNone); ("Oper", VText "<="); ("Step", VText "070"); ("Value", VText "2.5")]])]); ("Reports", VDict [("ReportEntry", VList [VDict [("ReportType", VText "Voltage"); ("Value", VText "0.001")]; VDict [("ReportType", VText "StepTime"); ("Value", VText "00:00:30")]])]); ("Range", VText "4"); ("Option1", VText "N"); ("Option2", VText "N"); ("Option3", VText "N"); ("StepNote", VNone)].
Definition v3_s48 : val := VDict [("StepType", VText "Do 2"); ("StepMode", VNone); ("StepValue", VNone); ("Limits", VNone); ("Ends", VNone); ("Reports", VNone); ("Range", VNone); ("Option1", VNone); ("Option2", VNone); ("Option3", VNone); ("StepNote", VText "regular cycles")].
Definition v3_s49 : val := VDict [("StepType", VText "Charge"); ("StepMode", VText "Current"); ("StepValue", VText "1.0"); ("Limits", VNone); ("Ends", VDict [("EndEntry", VList [VDict [("EndType", VText "StepTime"); ("SpecialType", VNone); ("Oper", VText "="); ("Step", VText "062"); ("Value", VText "00:18:00")]; VDict [("EndType", VText "Voltage"); ("SpecialType", VNone); ("Oper", VText ">="); ("Step", VText "062"); ("Value", VText "4.1")]; VDict [("EndType", VText "Voltage"); ("SpecialType", VNone); ("Oper", VText ">="); ("Step", VText "070"); ("Value", VText "4.4")]; VDict [("EndType", VText "Voltage"); ("SpecialType", VNone); ("Oper", VText "<="); ("Step", VText "070"); ("Value", VText "2.5")]])]); ("Reports", VDict [("ReportEntry", VList [VDict [("ReportType", VText "Voltage"); ("Value", VText "0.005")]; VDict [("ReportType", VText "StepTime"); ("Value", VText "00:00:30")]])]); ("Range", VText "4"); ("Option1", VText "N"); ("Option2", VText "N"); ("Option3", VText "N"); ("StepNote", VNone)].
Definition v3_s50 : val := VDict [("StepType", VText "Charge"); ("StepMode", VText "Current"); ("StepValue", VText "1.0"); ("Limits", VNone); ("Ends", VDict [("EndEntry", VList [VDict [("EndType", VText "Voltage"); ("SpecialType", VNone); ("Oper", VText ">="); ("Step", VText "063"); ("Value", VText "4.1")]; VDict [("EndType", VText "Voltage"); ("SpecialType", VNone); ("Oper", VText ">="); ("Step", VText "070"); ("Value", VText "4.4")]; VDict [("EndType", VText "Voltage"); ("SpecialType", VNone); ("Oper", VText "<="); ("Step", VText "070"); ("Value", VText "2.5")]])]); ("Reports", VDict [("ReportEntry", VList [VDict [("ReportType", VText "Voltage"); ("Value", VText "0.005")]; VDict [("ReportType", VText "StepTime"); ("Value", VText "00:00:30")]])]); ("Range", VText "4"); ("Option1", VText "N"); ("Option2", VText "N"); ("Option3", VText "N"); ("StepNote", VNone)].
Definition v3_s51 : val := VDict [("StepType", VText "Charge"); ("StepMode", VText "Voltage"); ("StepValue", VText "4.1"); ("Limits", VNone); ("Ends", VDict [("EndEntry", VList [VDict [("EndType", VText "StepTime"); ("SpecialType", VNone); ("Oper", VText "="); ("Step", VText "064"); ("Value", VText "00:30:00")]; VDict [("EndType", VText "Voltage"); ("SpecialType", VNone); ("Oper", VText ">="); ("Step", VText "070"); ("Value", VText "4.4")]; VDict [("EndType", VText "Voltage"); ("SpecialType", VNone); ("Oper", VText "<="); ("Step", VText "070"); ("Value", VText "2.5")]])]); ("Reports", VDict [("ReportEntry", VDict [("ReportType", VText "StepTime"); ("Value", VText "00:00:30")])]); ("Range", VText "A"); ("Option1", VText "N"); ("Option2", VText "N"); ("Option3", VText "N"); ("StepNote", VNone)].
Definition v3_s52 : val := VDict [("StepType", VText "Rest"); ("StepMode", VNone); ("StepValue", VNone); ("Limits", VNone); ("Ends", VDict [("EndEntry", VList [VDict [("EndType", VText "StepTime"); ("SpecialType", VNone); ("Oper", VText "="); ("Step", VText "065"); ("Value", VText "00:05:00")]; VDict [("EndType", VText "Voltage"); ("SpecialType", VNone); ("Oper", VText ">="); ("Step", VText "070"); ("Value", VText "4.4")]; VDict [("EndType", VText "Voltage"); ("SpecialType", VNone); ("Oper", VText "<="); ("Step", VText "070"); ("Value", VText "2.5")]])]); ("Reports", VDict [("ReportEntry", VDict [("ReportType", VText "StepTime"); ("Value", VText "00:00:30")])]); ("Range", VText "A"); ("Option1", VText "N"); ("Option2", VText "N"); ("Option3", VText "N"); ("StepNote", VNone)].
Definition v3_s53 : val := VDict [("StepType", VText "Dischrge"); ("StepMode", VText "Current"); ("StepValue", VText "1.0"); ("Limits", VNone); ("Ends", VDict [("EndEntry", VList [VDict [("EndType", VText "Voltage"); ("SpecialType", VNone); ("Oper", VText "<="); ("Step", VText "066"); ("Value", VText "2.7")]; VDict [("EndType", VText "Voltage"); ("SpecialType", VNone); ("Oper", VText ">="); ("Step", VText "070"); ("Value", VText "4.4")]; VDict [("EndType", VText "Voltage"); ("SpecialType", VNone); ("Oper", VText "<="); ("Step", VText "070"); ("Value", VText "2.5")]])]); ("Reports", VDict [("ReportEntry", VList [VDict [("ReportType", VText "Voltage"); ("Value", VText "0.005")]; VDict [("ReportType", VText "StepTime"); ("Value", VText "00:00:30")]])]); ("Range", VText "4"); ("Option1", VText "N"); ("Option2", VText "N"); ("Option3", VText "N"); ("StepNote", VNone)].
Definition v3_s54 : val := VDict [("StepType", VText "Rest"); ("StepMode", VNone); ("StepValue", VNone); ("Limits", VNone); ("Ends", VDict [("EndEntry", VList [VDict [("EndType", VText "StepTime"); ("SpecialType", VNone); ("Oper", VText "="); ("Step", VText "067"); ("Value", VText "00:15:00")]; VDict [("EndType", VText "Voltage"); ("SpecialType", VNone); ("Oper", VText ">="); ("Step", VText "070"); ("Value", VText "4.4")]; VDict [("EndType", VText "Voltage"); ("SpecialType", VNone); ("Oper", VText "<="); ("Step", VText "070"); ("Value", VText "2.5")]])]); ("Reports", VDict [("ReportEntry", VDict [("ReportType", VText "StepTime"); ("Value", VText "00:00:30")])]); ("Range", VText "4"); ("Option1", VText "N"); ("Option2", VText "N"); ("Option3", VText "N"); ("StepNote", VNone)].
Definition v3_s55 : val := VDict [("StepType", VText "Loop 2"); ("StepMode", VNone); ("StepValue", VNone); ("Limits", VNone); ("Ends", VDict [("EndEntry", VDict [("EndType", VText "Loop Cnt"); ("SpecialType", VNone); ("Oper", VText "="); ("Step", VText "069"); ("Value", VText "100")])]); ("Reports", VNone); ("Range", VNone); ("Option1", VNone); ("Option2", VNone); ("Option3", VNone); ("StepNote", VNone)].
Definition v3_s56 : val := VDict [("StepType", VText "Loop 1"); ("StepMode", VNone); ("StepValue", VNone); ("Limits", VNone); ("Ends", VDict [("EndEntry", VDict [("EndType", VText "Loop Cnt"); ("SpecialType", VNone); ("Oper", VText "="); ("Step", VText "070"); ("Value", VText "1000")])]); ("Reports", VNone); ("Range", VNone); ("Option1", VNone); ("Option2", VNone); ("Option3", VNone); ("StepNote", VNone)].
Definition v3_s57 : val := VDict [("StepType", VText "Do 1"); ("StepMode", VNone); ("StepValue", VNone); ("Limits", VNone); ("Ends", VNone); ("Reports", VNone); ("Range", VNone); ("Option1", VNone); ("Option2", VNone); ("Option3", VNone); ("StepNote", VText "These are the 2 reset cycles")].
Definition v3_s58 : val := VDict [("StepType", VText "Charge"); ("StepMode", VText "Current"); ("StepValue", VText "0.1429"); ("Limits", VDict [("Voltage", VText "4.2")]); ("Ends", VDict [("EndEntry", VList [VDict [("EndType", VText "Current"); ("SpecialType", VNone); ("Oper", VText "<="); ("Step", VText "072"); ("Value", VText "0.0286")]; VDict [("EndType", VText "Voltage"); ("SpecialType", VNone); ("Oper", VText ">="); ("Step", VText "070"); ("Value", VText "4.4")]; VDict [("EndType", VText "Voltage"); ("SpecialType", VNone); ("Oper", VText "<="); ("Step", VText "070"); ("Value", VText "2.5")]])]); ("Reports", VDict [("ReportEntry", VList [VDict [("ReportType", VText "Voltage"); ("Value", VText "0.001")]; VDict [("ReportType", VText "StepTime"); ("Value", VText "00:02:00")]])]); ("Range", VText "A"); ("Option1", VText "N"); ("Option2", VText "N"); ("Option3", VText "N"); ("StepNote", VNone)].
Definition v3_s59 : val := VDict [("StepType", VText "Dischrge"); ("StepMode", VText "Current"); ("StepValue", VText "0.1429"); ("Limits", VNone); ("Ends", VDict [("EndEntry", VList [VDict [("EndType", VText "Voltage"); ("SpecialType", VNone); ("Oper", VText "<="); ("Step", VText "073"); ("Value", VText "2.7")]; VDict [("EndType", VText "Voltage"); ("SpecialType", VNone); ("Oper", VText ">="); ("Step", VText "070"); ("Value", VText "4.4")]; VDict [("EndType", VText "Voltage"); ("SpecialType", VNone); ("Oper", VText "<="); ("Step", VText "070"); ("Value", VText "2.5")]])]); ("Reports", VDict [("ReportEntry", VList [VDict [("ReportType", VText "Voltage"); ("Value", VText "0.001")]; VDict [("ReportType", VText "StepTime"); ("Value", VText "00:02:00")]])]); ("Range", VText "A"); ("Option1", VText "N"); ("Option2", VText "N"); ("Option3", VText "N"); ("StepNote", VNone)].
Definition v3_s60 : val := VDict [("StepType", VText "Loop 1"); ("StepMode", VNone); ("StepValue", VNone); ("Limits", VNone); ("Ends", VDict [("EndEntry", VDict [("EndType", VText "Loop Cnt"); ("SpecialType", VNone); ("Oper", VText "="); ("Step", VText "075"); ("Value", VText "2")])]); ("Reports", VNone); ("Range", VNone); ("Option1", VNone); ("Option2", VNone); ("Option3", VNone); ("StepNote", VText "End 2 reset cycles")].
Definition v3_s61 : val := VDict [("StepType", VText "Charge"); ("StepMode", VText "Current"); ("StepValue", VText "0.333"); ("Limits", VDict [("Voltage", VText "4.2")]); ("Ends", VDict [("EndEntry", VList [VDict [("EndType", VText "Current"); ("SpecialType", VNone); ("Oper", VText "<="); ("Step", VText "076"); ("Value", VText "0.05")]; VDict [("EndType", VText "Voltage"); ("SpecialType", VNone); ("Oper", VText ">="); ("Step", VText "070"); ("Value", VText "4.4")]; VDict [("EndType", VText "Voltage"); ("SpecialType", VNone); ("Oper", VText "<="); ("Step", VText "070"); ("Value", VText "2.5")]])]); ("Reports", VDict [("ReportEntry", VList [VDict [("ReportType", VText "Voltage"); ("Value", VText "0.001")]; VDict [("ReportType", VText "StepTime"); ("Value", VText "00:00:30")]])]); ("Range", VText "A"); ("Option1", VText "N"); ("Option2", VText "N"); ("Option3", VText "N"); ("StepNote", VText "Charging it up for the HPPC")].
Definition v3_s62 : val := VDict [("StepType", VText "Do 1"); ("StepMode", VNone); ("StepValue", VNone); ("Limits", VNone); ("Ends", VNone); ("Reports", VNone); ("Range", VNone); ("Option1", VNone); ("Option2", VNone); ("Option3", VNone); ("StepNote", VText "Perform HPPC until condition reached")].
Definition v3_s63 : val := VDict [("StepType", VText "Rest"); ("StepMode", VNone); ("StepValue", VNone); ("Limits", VNone); ("Ends", VDict [("EndEntry", VList [VDict [("EndType", VText "StepTime"); ("SpecialType", VNone); ("Oper", VText "="); ("Step", VText "078"); ("Value", VText "01:00:00")]; VDict [("EndType", VText "Voltage"); ("SpecialType", VNone); ("Oper", VText ">="); ("Step", VText "070"); ("Value", VText "4.4")]; VDict [("EndType", VText "Voltage"); ("SpecialType", VNone); ("Oper", VText "<="); ("Step", VText "070"); ("Value", VText "2.5")]])]); ("Reports", VDict [("ReportEntry", VList [VDict [("ReportType", VText "StepTime"); ("Value", VText "00:00:01")]; VDict [("ReportType", VText "Voltage"); ("Value", VText "1.0E-4")]])]); ("Range", VText "A"); ("Option1", VText "N"); ("Option2", VText "N"); ("Option3", VText "N"); ("StepNote", VNone)].
Definition v3_s64 : val := VDict [("StepType", VText "Dischrge"); ("StepMode", VText "Current"); ("StepValue", VText "1.0"); ("Limits", VNone); ("Ends", VDict [("EndEntry", VList [VDict [("EndType", VText "StepTime"); ("SpecialType", VNone); ("Oper", VText "="); ("Step", VText "079"); ("Value", VText "00:00:30")]; VDict [("EndType", VText "Voltage"); ("SpecialType", VNone); ("Oper", VText "<="); ("Step", VText "083"); ("Value", VText "2.7")]; VDict [("EndType", VText "Voltage"); ("SpecialType", VNone); ("Oper", VText ">="); ("Step", VText "070"); ("Value", VText "4.4")]; VDict [("EndType", VText "Voltage"); ("SpecialType", VNone); ("Oper", VText "<="); ("Step", VText "070"); ("Value", VText "2.5")]])]); ("Reports", VDict [("ReportEntry", VDict [("ReportType", VText "StepTime"); ("Value", VText "::.01")])]); ("Range", VText "A"); ("Option1", VText "N"); ("Option2", VText "N"); ("Option3", VText "N"); ("StepNote", VNone)].
Definition v3_s65 : val := VDict [("StepType", VText "Rest"); ("StepMode", VNone); ("StepValue", VNone); ("Limits", VNone); ("Ends", VDict [("EndEntry", VList [VDict [("EndType", VText "StepTime"); ("SpecialType", VNone); ("Oper", VText "="); ("Step", VText "080"); ("Value", VText "00:00:40")]; VDict [("EndType", VText "Voltage"); ("SpecialType", VNone); ("Oper", VText ">="); ("Step", VText "070"); ("Value", VText "4.4")]; VDict [("EndType", VText "Voltage"); ("SpecialType", VNone); ("Oper", VText "<="); ("Step", VText "070"); ("Value", VText "2.5")]])]); ("Reports", VDict [("ReportEntry", VDict [("ReportType", VText "StepTime"); ("Value", VText "::.01")])]); ("Range", VText "A"); ("Option1", VText "N"); ("Option2", VText "N"); ("Option3", VText "N"); ("StepNote", VNone)].
Definition v3_s66 : val := VDict [("StepType", VText "Charge"); ("StepMode", VText "Current"); ("StepValue", VText "0.75"); ("Limits", VNone); ("Ends", VDict [("EndEntry", VList [VDict [("EndType", VText "StepTime"); ("SpecialType", VNone); ("Oper", VText "="); ("Step", VText "081"); ("Value", VText "00:00:10")]; VDict [("EndType", VText "Voltage"); ("SpecialType", VNone); ("Oper", VText ">="); ("Step", VText "081"); ("Value", VText "4.39")]; VDict [("EndType", VText "Voltage"); ("SpecialType", VNone); ("Oper", VText ">="); ("Step", VText "070"); ("Value", VText "4.4")]; VDict [("EndType", VText "Voltage"); ("SpecialType", VNone); ("Oper", VText "<="); ("Step", VText "070"); ("Value", VText "2.5")]])]); ("Reports", VDict [("ReportEntry", VDict [("ReportType", VText "StepTime"); ("Value", VText "::.01")])]); ("Range", VText "A"); ("Option1", VText "N"); ("Option2", VText "N"); ("Option3", VText "N"); ("StepNote", VNone)].
Definition v3_s67 : val := VDict [("StepType", VText "Dischrge"); ("StepMode", VText "Current"); ("StepValue", VText "0.333"); ("Limits", VNone); ("Ends", VDict [("EndEntry", VList [VDict [("EndType", VText "StepTime"); ("SpecialType", VNone); ("Oper", VText "="); ("Step", VText "082"); ("Value", VText "00:18:00")]; VDict [("EndType", VText "Voltage"); ("SpecialType", VNone); ("Oper", VText "<="); ("Step", VText "083"); ("Value", VText "2.7")]; VDict [("EndType", VText "Voltage"); ("SpecialType", VNone); ("Oper", VText ">="); ("Step", VText "070"); ("Value", VText "4.4")]; VDict [("EndType", VText "Voltage"); ("SpecialType", VNone); ("Oper", VText "<="); ("Step", VText "070"); ("Value", VText "2.5")]])]); ("Reports", VDict [("ReportEntry", VList [VDict [("ReportType", VText "StepTime"); ("Value", VText "00:00:30")]; VDict [("ReportType", VText "Voltage"); ("Value", VText "0.001")]])]); ("Range", VText "A"); ("Option1", VText "N"); ("Option2", VText "N"); ("Option3", VText "N"); ("StepNote", VNone)].
Definition v3_s68 : val := VDict [("StepType", VText "Loop 1"); ("StepMode", VNone); ("StepValue", VNone); ("Limits", VNone); ("Ends", VDict [("EndEntry", VDict [("EndType", VText "Loop Cnt"); ("SpecialType", VNone); ("Oper", VText "="); ("Step", VText "083"); ("Value", VText "20")])]); ("Reports", VNone); ("Range", VNone); ("Option1", VNone); ("Option2", VNone); ("Option3", VNone); ("StepNote", VText "End of HPPC")].
Definition v3_s69 : val := VDict [("StepType", VText "Dischrge"); ("StepMode", VText "Voltage"); ("StepValue", VText "2.7"); ("Limits", VDict [("Current", VText "0.333")]); ("Ends", VDict [("EndEntry", VList [VDict [("EndType", VText "Current"); ("SpecialType", VNone); ("Oper", VText "<="); ("Step", VText "084"); ("Value", VText "0.05")]; VDict [("EndType", VText "Voltage"); ("SpecialType", VNone); ("Oper", VText ">="); ("Step", VText "070"); ("Value", VText "4.4")]; VDict [("EndType", VText "Voltage"); ("SpecialType", VNone); ("Oper", VText "<="); ("Step", VText "070"); ("Value", VText "2.5")]])]); ("Reports", VDict [("ReportEntry", VList [VDict [("ReportType", VText "StepTime"); ("Value", VText "00:00:30")]; VDict [("ReportType", VText "Voltage"); ("Value", VText "0.001")]])]); ("Range", VText "A"); ("Option1", VText "N"); ("Option2", VText "N"); ("Option3", VText "N"); ("StepNote", VText "Discharge for rate test")].
Definition v3_s70 : val := VDict [("StepType", VText "Charge"); ("StepMode", VText "Current"); ("StepValue", VText "0.2"); ("Limits", VDict [("Voltage", VText "4.2")]); ("Ends", VDict [("EndEntry", VList [VDict [("EndType", VText "Current"); ("SpecialType", VNone); ("Oper", VText "<="); ("Step", VText "086"); ("Value", VText "0.05")]; VDict [("EndType", VText "Voltage"); ("SpecialType", VNone); ("Oper", VText ">="); ("Step", VText "070"); ("Value", VText "4.4")]; VDict [("EndType", VText "Voltage"); ("SpecialType", VNone); ("Oper", VText "<="); ("Step", VText "070"); ("Value", VText "2.5")]])]); ("Reports", VDict [("ReportEntry", VList [VDict [("ReportType", VText "Voltage"); ("Value", VText "0.001")]; VDict [("ReportType", VText "StepTime"); ("Value", VText "00:00:30")]])]); ("Range", VText "4"); ("Option1", VText "N"); ("Option2", VText "N"); ("Option3", VText "N"); ("StepNote", VText "Rate test 1")].
Definition v3_s71 : val := VDict [("StepType", VText "Dischrge"); ("StepMode", VText "Current"); ("StepValue", VText "0.2"); ("Limits", VNone); ("Ends", VDict [("EndEntry", VList [VDict [("EndType", VText "Voltage"); ("SpecialType", VNone); ("Oper", VText "<="); ("Step", VText "087"); ("Value", VText "2.7")]; VDict [("EndType", VText "Voltage"); ("SpecialType", VNone); ("Oper", VText ">="); ("Step", VText "070"); ("Value", VText "4.4")]; VDict [("EndType", VText "Voltage"); ("SpecialType", VNone); ("Oper", VText "<="); ("Step", VText "070"); ("Value", VText "2.5")]])]); ("Reports", VDict [("ReportEntry", VList [VDict [("ReportType", VText "Voltage"); ("Value", VText "0.001")]; VDict [("ReportType", VText "StepTime"); ("Value", VText "00:00:30")]])]); ("Range", VText "4"); ("Option1", VText "N"); ("Option2", VText "N"); ("Option3", VText "N"); ("StepNote", VNone)].
Definition v3_s72 : val := VDict [("StepType", VText "Charge"); ("StepMode", VText "Current"); ("StepValue", VText "0.2"); ("Limits", VDict [("Voltage", VText "4.2")]); ("Ends", VDict [("EndEntry", VList [VDict [("EndType", VText "Current"); ("SpecialType", VNone); ("Oper", VText "<="); ("Step", VText "089"); ("Value", VText "0.05")]; VDict [("EndType", VText "Voltage"); ("SpecialType", VNone); ("Oper", VText ">="); ("Step", VText "070"); ("Value", VText "4.4")]; VDict [("EndType", VText "Voltage"); ("SpecialType", VNone); ("Oper", VText "<="); ("Step", VText "070"); ("Value", VText "2.5")]])]); ("Reports", VDict [("ReportEntry", VList [VDict [("ReportType", VText "Voltage"); ("Value", VText "0.001")]; VDict [("ReportType", VText "StepTime"); ("Value", VText "00:00:30")]])]); ("Range", VText "4"); ("Option1", VText "N"); ("Option2", VText "N"); ("Option3", VText "N"); ("StepNote", VText "Rate test 2")].
Definition v3_s73 : val := VDict [("StepType", VText "Dischrge"); ("StepMode", VText "Current"); ("StepValue", VText "1.0"); ("Limits", VNone); ("Ends", VDict [("EndEntry", VList [VDict [("EndType", VText "Voltage"); ("SpecialType", VNone); ("Oper", VText "<="); ("Step", VText "090"); ("Value", VText "2.7")]; VDict [("EndType", VText "Voltage"); ("SpecialType", VNone); ("Oper", VText ">="); ("Step", VText "070"); ("Value", VText "4.4")]; VDict [("EndType", VText "Voltage"); ("SpecialType", VNone); ("Oper", VText "<="); ("Step", VText "070"); ("Value", VText "2.5")]])]); ("Reports", VDict [("ReportEntry", VList [VDict [("ReportType", VText "Voltage"); ("Value", VText "0.001")]; VDict [("ReportType", VText "StepTime"); ("Value", VText "00:00:30")]])]); ("Range", VText "4"); ("Option1", VText "N"); ("Option2", VText "N"); ("Option3", VText "N"); ("StepNote", VNone)].
Definition v3_s74 : val := VDict [("StepType", VText "Charge"); ("StepMode", VText "Current"); ("StepValue", VText "0.2"); ("Limits", VDict [("Voltage", VText "4.2")]); ("Ends", VDict [("EndEntry", VList [VDict [("EndType", VText "Current"); ("SpecialType", VNone); ("Oper", VText "<="); ("Step", VText "092"); ("Value", VText "0.05")]; VDict [("EndType", VText "Voltage"); ("SpecialType", VNone); ("Oper", VText ">="); ("Step", VText "070"); ("Value", VText "4.4")]; VDict [("EndType", VText "Voltage"); ("SpecialType", VNone); ("Oper", VText "<="); ("Step", VText "070"); ("Value", VText "2.5")]])]); ("Reports", VDict [("ReportEntry", VList [VDict [("ReportType", VText "Voltage"); ("Value", VText "0.001")]; VDict [("ReportType", VText "StepTime"); ("Value", VText "00:00:30")]])]); ("Range", VText "4"); ("Option1", VText "N"); ("Option2", VText "N"); ("Option3", VText "N"); ("StepNote", VText "Rate test 3")].
Definition v3_s75 : val := VDict [("StepType", VText "Dischrge"); ("StepMode", VText "Current"); ("StepValue", VText "2.0"); ("Limits", VNone); ("Ends", VDict [("EndEntry", VList [VDict [("EndType", VText "Voltage"); ("SpecialType", VNone); ("Oper", VText "<="); ("Step", VText "093"); ("Value", VText "2.7")]; VDict [("EndType", VText "Voltage"); ("SpecialType", VNone); ("Oper", VText ">="); ("Step", VText "070"); ("Value", VText "4.4")]; VDict [("EndType", VText "Voltage"); ("SpecialType", VNone); ("Oper", VText "<="); ("Step", VText "070"); ("Value", VText "2.5")]])]); ("Reports", VDict [("ReportEntry", VList [VDict [("ReportType", VText "Voltage"); ("Value", VText "0.001")]; VDict [("ReportType", VText "StepTime"); ("Value", VText "00:00:30")]])]); ("Range", VText "4"); ("Option1", VText "N"); ("Option2", VText "N"); ("Option3", VText "N"); ("StepNote", VNone)].
Definition v3_s76 : val := VDict [("StepType", VText "AdvCycle"); ("StepMode", VNone); ("StepValue", VNone); ("Limits", VNone); ("Ends", VNone); ("Reports", VNone); ("Range", VNone); ("Option1", VNone); ("Option2", VNone); ("Option3", VNone); ("StepNote", VText "Diagnostic cycle ends here")].
Definition v3_s77 : val := VDict [("StepType", VText "Dischrge"); ("StepMode", VText "Current"); ("StepValue", VText "0.5"); ("Limits", VDict [("Voltage", VText "2.7")]); ("Ends", VDict [("EndEntry", VList [VDict [("EndType", VText "Current"); ("SpecialType", VNone); ("Oper", VText "<="); ("Step", VText "095"); ("Value", VText "0.05")]; VDict [("EndType", VText "Voltage"); ("SpecialType", VNone); ("Oper", VText ">="); ("Step", VText "070"); ("Value", VText "4.4")]; VDict [("EndType", VText "Voltage"); ("SpecialType", VNone); ("Oper", VText "<="); ("Step", VText "070"); ("Value", VText "2.5")]])]); ("Reports", VDict [("ReportEntry", VList [VDict [("ReportType", VText "Voltage"); ("Value", VText "0.005")]; VDict [("ReportType", VText "StepTime"); ("Value", VText "00:00:30")]])]); ("Range", VText "4"); ("Option1", VText "N"); ("Option2", VText "N"); ("Option3", VText "N"); ("StepNote", VText "Discharge and charge for storage")].
Definition v3_s78 : val := VDict [("StepType", VText "Charge"); ("StepMode", VText "Current"); ("StepValue", VText "0.5"); ("Limits", VNone); ("Ends", VDict [("EndEntry", VList [VDict [("EndType", VText "StepTime"); ("SpecialType", VNone); ("Oper", VText "="); ("Step", VText "096"); ("Value", VText "00:12:00")]; VDict [("EndType", VText "Voltage"); ("SpecialType", VNone); ("Oper", VText ">="); ("Step", VText "070"); ("Value", VText "4.4")]; VDict [("EndType", VText "Voltage"); ("SpecialType", VNone); ("Oper", VText "<="); ("Step", VText "070"); ("Value", VText "2.5")]])]); ("Reports", VDict [("ReportEntry", VList [VDict [("ReportType", VText "StepTime"); ("Value", VText "00:00:30")]; VDict [("ReportType", VText "Voltage"); ("Value", VText "0.005")]])]); ("Range", VText "4"); ("Option1", VText "N"); ("Option2", VText "N"); ("Option3", VText "N"); ("StepNote", VNone)].
Definition v3_s79 : val := VDict [("StepType", VText "End"); ("StepMode", VNone); ("StepValue", VNone); ("Limits", VNone); ("Ends", VNone); ("Reports", VNone); ("Range", VNone); ("Option1", VNone); ("Option2", VNone); ("Option3", VNone); ("StepNote", VNone)].
Definition template_v3 : steps :=
  [v3_s0; v3_s1; v3_s2; v3_s3; v3_s4; v3_s5; v3_s6; v3_s7; v3_s8; v3_s3; v3_s9; v3_s10; v3_s11; v3_s12; v3_s13; v3_s14; v3_s15; v3_s6; v3_s16; v3_s17; v3_s6; v3_s18; v3_s19; v3_s6; v3_s20; v3_s21; v3_s6; v3_s22; v3_s23; v3_s24; v3_s25; v3_s26; v3_s27; v3_s28; v3_s6; v3_s29; v3_s30; v3_s31; v3_s32; v3_s6; v3_s33; v3_s34; v3_s35; v3_s36; v3_s37; v3_s38; v3_s39; v3_s40; v3_s41; v3_s6; v3_s42; v3_s43; v3_s6; v3_s44; v3_s45; v3_s6; v3_s46; v3_s47; v3_s6; v3_s48; v3_s49; v3_s50; v3_s51; v3_s52; v3_s53; v3_s54; v3_s6; v3_s55; v3_s56; v3_s57; v3_s58; v3_s59; v3_s6; v3_s60; v3_s61; v3_s62; v3_s63; v3_s64; v3_s65; v3_s66; v3_s67; v3_s68; v3_s69; v3_s6; v3_s70; v3_s71; v3_s6; v3_s72; v3_s73; v3_s6; v3_s74; v3_s75; v3_s76; v3_s77; v3_s78; v3_s79].
