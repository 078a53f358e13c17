(** The steps of beep/protocol/procedure_templates/diagnosticV4.000:18-3302 as xmltodict.parse
    gives them (texts stripped, empty elements None); written by a script from the file. *)
From Verif Require Import Py Model_Procedure.
Local Open Scope string_scope.

Definition v4_s0 : val := VDict [("StepType", VText "Rest"); ("StepMode", VNone); ("StepValue", VNone); ("Limits", VNone); ("Ends", VDict [("EndEntry", VList [VDict [("EndType", VText "StepTime"); ("SpecialType", VNone); ("Oper", VText "="); ("Step", VText "002"); ("Value", VText "03:00:00")]; VDict [("EndType", VText "Voltage"); ("SpecialType", VNone); ("Oper", VText ">="); ("Step", VText "070"); ("Value", VText "4.4"); ("ChanSafetyEnd", VText "True")]; VDict [("EndType", VText "Voltage"); ("SpecialType", VNone); ("Oper", VText "<="); ("Step", VText "070"); ("Value", VText "2.0"); ("ChanSafetyEnd", VText "True")]])]); ("Reports", VDict [("ReportEntry", VDict [("ReportType", VText "StepTime"); ("Value", VText "00:00:30")])]); ("Range", VText "4"); ("Option1", VText "N"); ("Option2", VText "N"); ("Option3", VText "N"); ("StepNote", VNone)].
Definition v4_s1 : val := VDict [("StepType", VText "Charge"); ("StepMode", VText "Current"); ("StepValue", VText "1.0"); ("Limits", VNone); ("Ends", VDict [("EndEntry", VList [VDict [("EndType", VText "StepTime"); ("SpecialType", VNone); ("Oper", VText "="); ("Step", VText "003"); ("Value", VText "00:00:01")]; VDict [("EndType", VText "Voltage"); ("SpecialType", VNone); ("Oper", VText ">="); ("Step", VText "070"); ("Value", VText "4.4")]; VDict [("EndType", VText "Voltage"); ("SpecialType", VNone); ("Oper", VText "<="); ("Step", VText "070"); ("Value", VText "2.0")]])]); ("Reports", VDict [("ReportEntry", VDict [("ReportType", VText "StepTime"); ("Value", VText "::.01")])]); ("Range", VText "A"); ("Option1", VText "N"); ("Option2", VText "N"); ("Option3", VText "N"); ("StepNote", VText "resistance check")].
Definition v4_s2 : val := VDict [("StepType", VText "Rest"); ("StepMode", VNone); ("StepValue", VNone); ("Limits", VNone); ("Ends", VDict [("EndEntry", VList [VDict [("EndType", VText "StepTime"); ("SpecialType", VNone); ("Oper", VText "="); ("Step", VText "004"); ("Value", VText "00:01:00")]; VDict [("EndType", VText "Voltage"); ("SpecialType", VNone); ("Oper", VText ">="); ("Step", VText "070"); ("Value", VText "4.4")]; VDict [("EndType", VText "Voltage"); ("SpecialType", VNone); ("Oper", VText "<="); ("Step", VText "070"); ("Value", VText "2.0")]])]); ("Reports", VDict [("ReportEntry", VList [VDict [("ReportType", VText "StepTime"); ("Value", VText "00:00:01")]; VDict [("ReportType", VText "Voltage"); ("Value", VText "0.001")]])]); ("Range", VText "A"); ("Option1", VText "N"); ("Option2", VText "N"); ("Option3", VText "N"); ("StepNote", VNone)].
Definition v4_s3 : val := VDict [("StepType", VText "Do 1"); ("StepMode", VNone); ("StepValue", VNone); ("Limits", VNone); ("Ends", VNone); ("Reports", VNone); ("Range", VNone); ("Option1", VNone); ("Option2", VNone); ("Option3", VNone); ("StepNote", VNone)].
Definition v4_s4 : val := VDict [("StepType", VText "Charge"); ("StepMode", VText "Current"); ("StepValue", VText "0.1429"); ("Limits", VDict [("Voltage", VText "4.2")]); ("Ends", VDict [("EndEntry", VList [VDict [("EndType", VText "Current"); ("SpecialType", VNone); ("Oper", VText "<="); ("Step", VText "006"); ("Value", VText "0.0286")]; VDict [("EndType", VText "Voltage"); ("SpecialType", VNone); ("Oper", VText ">="); ("Step", VText "070"); ("Value", VText "4.4")]; VDict [("EndType", VText "Voltage"); ("SpecialType", VNone); ("Oper", VText "<="); ("Step", VText "070"); ("Value", VText "2.0")]])]); ("Reports", VDict [("ReportEntry", VList [VDict [("ReportType", VText "Voltage"); ("Value", VText "0.001")]; VDict [("ReportType", VText "StepTime"); ("Value", VText "00:02:00")]])]); ("Range", VText "A"); ("Option1", VText "N"); ("Option2", VText "N"); ("Option3", VText "N"); ("StepNote", VText "reset cycle C/20")].
Definition v4_s5 : val := VDict [("StepType", VText "Dischrge"); ("StepMode", VText "Current"); ("StepValue", VText "0.1429"); ("Limits", VNone); ("Ends", VDict [("EndEntry", VList [VDict [("EndType", VText "Voltage"); ("SpecialType", VNone); ("Oper", VText "<="); ("Step", VText "007"); ("Value", VText "2.7")]; VDict [("EndType", VText "Voltage"); ("SpecialType", VNone); ("Oper", VText ">="); ("Step", VText "070"); ("Value", VText "4.4")]; VDict [("EndType", VText "Voltage"); ("SpecialType", VNone); ("Oper", VText "<="); ("Step", VText "070"); ("Value", VText "2.0")]])]); ("Reports", VDict [("ReportEntry", VList [VDict [("ReportType", VText "Voltage"); ("Value", VText "0.001")]; VDict [("ReportType", VText "StepTime"); ("Value", VText "00:02:00")]])]); ("Range", VText "A"); ("Option1", VText "N"); ("Option2", VText "N"); ("Option3", VText "N"); ("StepNote", VNone)].
Definition v4_s6 : val := VDict [("StepType", VText "AdvCycle"); ("StepMode", VNone); ("StepValue", VNone); ("Limits", VNone); ("Ends", VNone); ("Reports", VNone); ("Range", VNone); ("Option1", VNone); ("Option2", VNone); ("Option3", VNone); ("StepNote", VNone)].
Definition v4_s7 : val := VDict [("StepType", VText "Loop 1"); ("StepMode", VNone); ("StepValue", VNone); ("Limits", VNone); ("Ends", VDict [("EndEntry", VDict [("EndType", VText "Loop Cnt"); ("SpecialType", VNone); ("Oper", VText "="); ("Step", VText "009"); ("Value", VText "2")])]); ("Reports", VNone); ("Range", VNone); ("Option1", VNone); ("Option2", VNone); ("Option3", VNone); ("StepNote", VNone)].
Definition v4_s8 : val := VDict [("StepType", VText "Charge"); ("StepMode", VText "Current"); ("StepValue", VText "0.333"); ("Limits", VDict [("Voltage", VText "4.2")]); ("Ends", VDict [("EndEntry", VList [VDict [("EndType", VText "Current"); ("SpecialType", VNone); ("Oper", VText "<="); ("Step", VText "010"); ("Value", VText "0.05")]; VDict [("EndType", VText "Voltage"); ("SpecialType", VNone); ("Oper", VText ">="); ("Step", VText "070"); ("Value", VText "4.4")]; VDict [("EndType", VText "Voltage"); ("SpecialType", VNone); ("Oper", VText "<="); ("Step", VText "070"); ("Value", VText "2.0")]])]); ("Reports", VDict [("ReportEntry", VList [VDict [("ReportType", VText "Voltage"); ("Value", VText "0.001")]; VDict [("ReportType", VText "StepTime"); ("Value", VText "00:00:30")]])]); ("Range", VText "A"); ("Option1", VText "N"); ("Option2", VText "N"); ("Option3", VText "N"); ("StepNote", VText "HPPC charge")].
Definition v4_s9 : val := VDict [("StepType", VText "Rest"); ("StepMode", VNone); ("StepValue", VNone); ("Limits", VNone); ("Ends", VDict [("EndEntry", VList [VDict [("EndType", VText "StepTime"); ("SpecialType", VNone); ("Oper", VText "="); ("Step", VText "012"); ("Value", VText "01:00:00")]; VDict [("EndType", VText "Voltage"); ("SpecialType", VNone); ("Oper", VText ">="); ("Step", VText "070"); ("Value", VText "4.4")]; VDict [("EndType", VText "Voltage"); ("SpecialType", VNone); ("Oper", VText "<="); ("Step", VText "070"); ("Value", VText "2.0")]])]); ("Reports", VDict [("ReportEntry", VList [VDict [("ReportType", VText "StepTime"); ("Value", VText "00:00:01")]; VDict [("ReportType", VText "Voltage"); ("Value", VText "1.0E-4")]])]); ("Range", VText "A"); ("Option1", VText "N"); ("Option2", VText "N"); ("Option3", VText "N"); ("StepNote", VNone)].
Definition v4_s10 : val := VDict [("StepType", VText "Dischrge"); ("StepMode", VText "Current"); ("StepValue", VText "1.0"); ("Limits", VNone); ("Ends", VDict [("EndEntry", VList [VDict [("EndType", VText "StepTime"); ("SpecialType", VNone); ("Oper", VText "="); ("Step", VText "013"); ("Value", VText "00:00:30")]; VDict [("EndType", VText "Voltage"); ("SpecialType", VNone); ("Oper", VText "<="); ("Step", VText "017"); ("Value", VText "2.7")]; VDict [("EndType", VText "Voltage"); ("SpecialType", VNone); ("Oper", VText ">="); ("Step", VText "070"); ("Value", VText "4.4")]; VDict [("EndType", VText "Voltage"); ("SpecialType", VNone); ("Oper", VText "<="); ("Step", VText "070"); ("Value", VText "2.0")]])]); ("Reports", VDict [("ReportEntry", VDict [("ReportType", VText "StepTime"); ("Value", VText "::.01")])]); ("Range", VText "A"); ("Option1", VText "N"); ("Option2", VText "N"); ("Option3", VText "N"); ("StepNote", VText "HPPC discharge with pulses")].
Definition v4_s11 : val := VDict [("StepType", VText "Rest"); ("StepMode", VNone); ("StepValue", VNone); ("Limits", VNone); ("Ends", VDict [("EndEntry", VList [VDict [("EndType", VText "StepTime"); ("SpecialType", VNone); ("Oper", VText "="); ("Step", VText "014"); ("Value", VText "00:00:40")]; VDict [("EndType", VText "Voltage"); ("SpecialType", VNone); ("Oper", VText ">="); ("Step", VText "070"); ("Value", VText "4.4")]; VDict [("EndType", VText "Voltage"); ("SpecialType", VNone); ("Oper", VText "<="); ("Step", VText "070"); ("Value", VText "2.0")]])]); ("Reports", VDict [("ReportEntry", VDict [("ReportType", VText "StepTime"); ("Value", VText "::.01")])]); ("Range", VText "A"); ("Option1", VText "N"); ("Option2", VText "N"); ("Option3", VText "N"); ("StepNote", VNone)].
Definition v4_s12 : val := VDict [("StepType", VText "Charge"); ("StepMode", VText "Current"); ("StepValue", VText "0.75"); ("Limits", VNone); ("Ends", VDict [("EndEntry", VList [VDict [("EndType", VText "StepTime"); ("SpecialType", VNone); ("Oper", VText "="); ("Step", VText "015"); ("Value", VText "00:00:10")]; VDict [("EndType", VText "Voltage"); ("SpecialType", VNone); ("Oper", VText ">="); ("Step", VText "015"); ("Value", VText "4.39")]; VDict [("EndType", VText "Voltage"); ("SpecialType", VNone); ("Oper", VText ">="); ("Step", VText "070"); ("Value", VText "4.4")]; VDict [("EndType", VText "Voltage"); ("SpecialType", VNone); ("Oper", VText "<="); ("Step", VText "070"); ("Value", VText "2.0")]])]); ("Reports", VDict [("ReportEntry", VDict [("ReportType", VText "StepTime"); ("Value", VText "::.01")])]); ("Range", VText "A"); ("Option1", VText "N"); ("Option2", VText "N"); ("Option3", VText "N"); ("StepNote", VNone)].
Definition v4_s13 : val := VDict [("StepType", VText "Dischrge"); ("StepMode", VText "Current"); ("StepValue", VText "0.333"); ("Limits", VNone); ("Ends", VDict [("EndEntry", VList [VDict [("EndType", VText "StepTime"); ("SpecialType", VNone); ("Oper", VText "="); ("Step", VText "016"); ("Value", VText "00:18:00")]; VDict [("EndType", VText "Voltage"); ("SpecialType", VNone); ("Oper", VText "<="); ("Step", VText "017"); ("Value", VText "2.7")]; VDict [("EndType", VText "Voltage"); ("SpecialType", VNone); ("Oper", VText ">="); ("Step", VText "070"); ("Value", VText "4.4")]; VDict [("EndType", VText "Voltage"); ("SpecialType", VNone); ("Oper", VText "<="); ("Step", VText "070"); ("Value", VText "2.0")]])]); ("Reports", VDict [("ReportEntry", VList [VDict [("ReportType", VText "StepTime"); ("Value", VText "00:00:30")]; VDict [("ReportType", VText "Voltage"); ("Value", VText "0.001")]])]); ("Range", VText "A"); ("Option1", VText "N"); ("Option2", VText "N"); ("Option3", VText "N"); ("StepNote", VNone)].
Definition v4_s14 : val := VDict [("StepType", VText "Loop 1"); ("StepMode", VNone); ("StepValue", VNone); ("Limits", VNone); ("Ends", VDict [("EndEntry", VDict [("EndType", VText "Loop Cnt"); ("SpecialType", VNone); ("Oper", VText "="); ("Step", VText "017"); ("Value", VText "20")])]); ("Reports", VNone); ("Range", VNone); ("Option1", VNone); ("Option2", VNone); ("Option3", VNone); ("StepNote", VNone)].
Definition v4_s15 : val := VDict [("StepType", VText "Dischrge"); ("StepMode", VText "Voltage"); ("StepValue", VText "2.7"); ("Limits", VDict [("Current", VText "0.333")]); ("Ends", VDict [("EndEntry", VList [VDict [("EndType", VText "Current"); ("SpecialType", VNone); ("Oper", VText "<="); ("Step", VText "018"); ("Value", VText "0.05")]; VDict [("EndType", VText "Voltage"); ("SpecialType", VNone); ("Oper", VText ">="); ("Step", VText "070"); ("Value", VText "4.4")]; VDict [("EndType", VText "Voltage"); ("SpecialType", VNone); ("Oper", VText "<="); ("Step", VText "070"); ("Value", VText "2.0")]])]); ("Reports", VDict [("ReportEntry", VList [VDict [("ReportType", VText "StepTime"); ("Value", VText "00:00:30")]; VDict [("ReportType", VText "Voltage"); ("Value", VText "0.001")]])]); ("Range", VText "A"); ("Option1", VText "N"); ("Option2", VText "N"); ("Option3", VText "N"); ("StepNote", VNone)].
Definition v4_s16 : val := VDict [("StepType", VText "Charge"); ("StepMode", VText "Current"); ("StepValue", VText "0.2"); ("Limits", VDict [("Voltage", VText "4.2")]); ("Ends", VDict [("EndEntry", VList [VDict [("EndType", VText "Current"); ("SpecialType", VNone); ("Oper", VText "<="); ("Step", VText "020"); ("Value", VText "0.05")]; VDict [("EndType", VText "Voltage"); ("SpecialType", VNone); ("Oper", VText ">="); ("Step", VText "070"); ("Value", VText "4.4")]; VDict [("EndType", VText "Voltage"); ("SpecialType", VNone); ("Oper", VText "<="); ("Step", VText "070"); ("Value", VText "2.0")]])]); ("Reports", VDict [("ReportEntry", VList [VDict [("ReportType", VText "Voltage"); ("Value", VText "0.001")]; VDict [("ReportType", VText "StepTime"); ("Value", VText "00:00:30")]])]); ("Range", VText "4"); ("Option1", VText "N"); ("Option2", VText "N"); ("Option3", VText "N"); ("StepNote", VText "RPT C/5")].
Definition v4_s17 : val := VDict [("StepType", VText "Dischrge"); ("StepMode", VText "Current"); ("StepValue", VText "0.2"); ("Limits", VNone); ("Ends", VDict [("EndEntry", VList [VDict [("EndType", VText "Voltage"); ("SpecialType", VNone); ("Oper", VText "<="); ("Step", VText "021"); ("Value", VText "2.7")]; VDict [("EndType", VText "Voltage"); ("SpecialType", VNone); ("Oper", VText ">="); ("Step", VText "070"); ("Value", VText "4.4")]; VDict [("EndType", VText "Voltage"); ("SpecialType", VNone); ("Oper", VText "<="); ("Step", VText "070"); ("Value", VText "2.0")]])]); ("Reports", VDict [("ReportEntry", VList [VDict [("ReportType", VText "Voltage"); ("Value", VText "0.001")]; VDict [("ReportType", VText "StepTime"); ("Value", VText "00:00:30")]])]); ("Range", VText "4"); ("Option1", VText "N"); ("Option2", VText "N"); ("Option3", VText "N"); ("StepNote", VNone)].
Definition v4_s18 : val := VDict [("StepType", VText "Charge"); ("StepMode", VText "Current"); ("StepValue", VText "0.2"); ("Limits", VDict [("Voltage", VText "4.2")]); ("Ends", VDict [("EndEntry", VList [VDict [("EndType", VText "Current"); ("SpecialType", VNone); ("Oper", VText "<="); ("Step", VText "023"); ("Value", VText "0.05")]; VDict [("EndType", VText "Voltage"); ("SpecialType", VNone); ("Oper", VText ">="); ("Step", VText "070"); ("Value", VText "4.4")]; VDict [("EndType", VText "Voltage"); ("SpecialType", VNone); ("Oper", VText "<="); ("Step", VText "070"); ("Value", VText "2.0")]])]); ("Reports", VDict [("ReportEntry", VList [VDict [("ReportType", VText "Voltage"); ("Value", VText "0.001")]; VDict [("ReportType", VText "StepTime"); ("Value", VText "00:00:30")]])]); ("Range", VText "4"); ("Option1", VText "N"); ("Option2", VText "N"); ("Option3", VText "N"); ("StepNote", VText "RPT 1C")].
Definition v4_s19 : val := VDict [("StepType", VText "Dischrge"); ("StepMode", VText "Current"); ("StepValue", VText "1.0"); ("Limits", VNone); ("Ends", VDict [("EndEntry", VList [VDict [("EndType", VText "Voltage"); ("SpecialType", VNone); ("Oper", VText "<="); ("Step", VText "024"); ("Value", VText "2.7")]; VDict [("EndType", VText "Voltage"); ("SpecialType", VNone); ("Oper", VText ">="); ("Step", VText "070"); ("Value", VText "4.4")]; VDict [("EndType", VText "Voltage"); ("SpecialType", VNone); ("Oper", VText "<="); ("Step", VText "070"); ("Value", VText "2.0")]])]); ("Reports", VDict [("ReportEntry", VList [VDict [("ReportType", VText "Voltage"); ("Value", VText "0.001")]; VDict [("ReportType", VText "StepTime"); ("Value", VText "00:00:30")]])]); ("Range", VText "4"); ("Option1", VText "N"); ("Option2", VText "N"); ("Option3", VText "N"); ("StepNote", VNone)].
Definition v4_s20 : val := VDict [("StepType", VText "Charge"); ("StepMode", VText "Current"); ("StepValue", VText "0.2"); ("Limits", VDict [("Voltage", VText "4.2")]); ("Ends", VDict [("EndEntry", VList [VDict [("EndType", VText "Current"); ("SpecialType", VNone); ("Oper", VText "<="); ("Step", VText "026"); ("Value", VText "0.05")]; VDict [("EndType", VText "Voltage"); ("SpecialType", VNone); ("Oper", VText ">="); ("Step", VText "070"); ("Value", VText "4.4")]; VDict [("EndType", VText "Voltage"); ("SpecialType", VNone); ("Oper", VText "<="); ("Step", VText "070"); ("Value", VText "2.0")]])]); ("Reports", VDict [("ReportEntry", VList [VDict [("ReportType", VText "Voltage"); ("Value", VText "0.001")]; VDict [("ReportType", VText "StepTime"); ("Value", VText "00:00:30")]])]); ("Range", VText "4"); ("Option1", VText "N"); ("Option2", VText "N"); ("Option3", VText "N"); ("StepNote", VText "RPT 2C")].
Definition v4_s21 : val := VDict [("StepType", VText "Dischrge"); ("StepMode", VText "Current"); ("StepValue", VText "2.0"); ("Limits", VNone); ("Ends", VDict [("EndEntry", VList [VDict [("EndType", VText "Voltage"); ("SpecialType", VNone); ("Oper", VText "<="); ("Step", VText "027"); ("Value", VText "2.7")]; VDict [("EndType", VText "Voltage"); ("SpecialType", VNone); ("Oper", VText ">="); ("Step", VText "070"); ("Value", VText "4.4")]; VDict [("EndType", VText "Voltage"); ("SpecialType", VNone); ("Oper", VText "<="); ("Step", VText "070"); ("Value", VText "2.0")]])]); ("Reports", VDict [("ReportEntry", VList [VDict [("ReportType", VText "Voltage"); ("Value", VText "0.001")]; VDict [("ReportType", VText "StepTime"); ("Value", VText "00:00:30")]])]); ("Range", VText "4"); ("Option1", VText "N"); ("Option2", VText "N"); ("Option3", VText "N"); ("StepNote", VNone)].
Definition v4_s22 : val := VDict [("StepType", VText "Do 1"); ("StepMode", VNone); ("StepValue", VNone); ("Limits", VNone); ("Ends", VNone); ("Reports", VNone); ("Range", VNone); ("Option1", VNone); ("Option2", VNone); ("Option3", VNone); ("StepNote", VText "regular cycles (first 30)")].
Definition v4_s23 : val := VDict [("StepType", VText "Charge"); ("StepMode", VText "Current"); ("StepValue", VText "1.0"); ("Limits", VNone); ("Ends", VDict [("EndEntry", VList [VDict [("EndType", VText "StepTime"); ("SpecialType", VNone); ("Oper", VText "="); ("Step", VText "030"); ("Value", VText "00:18:00")]; VDict [("EndType", VText "Voltage"); ("SpecialType", VNone); ("Oper", VText ">="); ("Step", VText "031"); ("Value", VText "4.1")]; VDict [("EndType", VText "Voltage"); ("SpecialType", VNone); ("Oper", VText ">="); ("Step", VText "070"); ("Value", VText "4.4")]; VDict [("EndType", VText "Voltage"); ("SpecialType", VNone); ("Oper", VText "<="); ("Step", VText "070"); ("Value", VText "2.0")]])]); ("Reports", VDict [("ReportEntry", VList [VDict [("ReportType", VText "Voltage"); ("Value", VText "0.005")]; VDict [("ReportType", VText "StepTime"); ("Value", VText "00:00:30")]])]); ("Range", VText "4"); ("Option1", VText "N"); ("Option2", VText "N"); ("Option3", VText "N"); ("StepNote", VNone)].
Definition v4_s24 : val := VDict [("StepType", VText "Charge"); ("StepMode", VText "Current"); ("StepValue", VText "1.0"); ("Limits", VNone); ("Ends", VDict [("EndEntry", VList [VDict [("EndType", VText "Voltage"); ("SpecialType", VNone); ("Oper", VText ">="); ("Step", VText "031"); ("Value", VText "4.1")]; VDict [("EndType", VText "Voltage"); ("SpecialType", VNone); ("Oper", VText ">="); ("Step", VText "070"); ("Value", VText "4.4")]; VDict [("EndType", VText "Voltage"); ("SpecialType", VNone); ("Oper", VText "<="); ("Step", VText "070"); ("Value", VText "2.0")]])]); ("Reports", VDict [("ReportEntry", VList [VDict [("ReportType", VText "Voltage"); ("Value", VText "0.005")]; VDict [("ReportType", VText "StepTime"); ("Value", VText "00:00:30")]])]); ("Range", VText "4"); ("Option1", VText "N"); ("Option2", VText "N"); ("Option3", VText "N"); ("StepNote", VNone)].
Definition v4_s25 : val := VDict [("StepType", VText "Charge"); ("StepMode", VText "Voltage"); ("StepValue", VText "4.1"); ("Limits", VNone); ("Ends", VDict [("EndEntry", VList [VDict [("EndType", VText "StepTime"); ("SpecialType", VNone); ("Oper", VText "="); ("Step", VText "032"); ("Value", VText "00:30:00")]; VDict [("EndType", VText "Voltage"); ("SpecialType", VNone); ("Oper", VText ">="); ("Step", VText "070"); ("Value", VText "4.4")]; VDict [("EndType", VText "Voltage"); ("SpecialType", VNone); ("Oper", VText "<="); ("Step", VText "070"); ("Value", VText "2.0")]])]); ("Reports", VDict [("ReportEntry", VDict [("ReportType", VText "StepTime"); ("Value", VText "00:00:30")])]); ("Range", VText "A"); ("Option1", VText "N"); ("Option2", VText "N"); ("Option3", VText "N"); ("StepNote", VNone)].
Definition v4_s26 : val := VDict [("StepType", VText "Rest"); ("StepMode", VNone); ("StepValue", VNone); ("Limits", VNone); ("Ends", VDict [("EndEntry", VList [VDict [("EndType", VText "StepTime"); ("SpecialType", VNone); ("Oper", VText "="); ("Step", VText "033"); ("Value", VText "00:05:00")]; VDict [("EndType", VText "Voltage"); ("SpecialType", VNone); ("Oper", VText ">="); ("Step", VText "070"); ("Value", VText "4.4")]; VDict [("EndType", VText "Voltage"); ("SpecialType", VNone); ("Oper", VText "<="); ("Step", VText "070"); ("Value", VText "2.0")]])]); ("Reports", VDict [("ReportEntry", VDict [("ReportType", VText "StepTime"); ("Value", VText "00:00:30")])]); ("Range", VText "A"); ("Option1", VText "N"); ("Option2", VText "N"); ("Option3", VText "N"); ("StepNote", VNone)].
Definition v4_s27 : val := VDict [("StepType", VText "Dischrge"); ("StepMode", VText "Current"); ("StepValue", VText "1.0"); ("Limits", VNone); ("Ends", VDict [("EndEntry", VList [VDict [("EndType", VText "Voltage"); ("SpecialType", VNone); ("Oper", VText "<="); ("Step", VText "034"); ("Value", VText "2.7")]; VDict [("EndType", VText "Voltage"); ("SpecialType", VNone); ("Oper", VText ">="); ("Step", VText "070"); ("Value", VText "4.4")]; VDict [("EndType", VText "Voltage"); ("SpecialType", VNone); ("Oper", VText "<="); ("Step", VText "070"); ("Value", VText "2.0")]])]); ("Reports", VDict [("ReportEntry", VList [VDict [("ReportType", VText "Voltage"); ("Value", VText "0.005")]; VDict [("ReportType", VText "StepTime"); ("Value", VText "00:00:30")]])]); ("Range", VText "4"); ("Option1", VText "N"); ("Option2", VText "N"); ("Option3", VText "N"); ("StepNote", VNone)].
Definition v4_s28 : val := VDict [("StepType", VText "Rest"); ("StepMode", VNone); ("StepValue", VNone); ("Limits", VNone); ("Ends", VDict [("EndEntry", VList [VDict [("EndType", VText "StepTime"); ("SpecialType", VNone); ("Oper", VText "="); ("Step", VText "035"); ("Value", VText "00:15:00")]; VDict [("EndType", VText "Voltage"); ("SpecialType", VNone); ("Oper", VText ">="); ("Step", VText "070"); ("Value", VText "4.4")]; VDict [("EndType", VText "Voltage"); ("SpecialType", VNone); ("Oper", VText "<="); ("Step", VText "070"); ("Value", VText "2.0")]])]); ("Reports", VDict [("ReportEntry", VDict [("ReportType", VText "StepTime"); ("Value", VText "00:00:30")])]); ("Range", VText "4"); ("Option1", VText "N"); ("Option2", VText "N"); ("Option3", VText "N"); ("StepNote", VNone)].
Definition v4_s29 : val := VDict [("StepType", VText "Loop 1"); ("StepMode", VNone); ("StepValue", VNone); ("Limits", VNone); ("Ends", VDict [("EndEntry", VDict [("EndType", VText "Loop Cnt"); ("SpecialType", VNone); ("Oper", VText "="); ("Step", VText "037"); ("Value", VText "30")])]); ("Reports", VNone); ("Range", VNone); ("Option1", VNone); ("Option2", VNone); ("Option3", VNone); ("StepNote", VNone)].
Definition v4_s30 : val := VDict [("StepType", VText "Do 1"); ("StepMode", VNone); ("StepValue", VNone); ("Limits", VNone); ("Ends", VNone); ("Reports", VNone); ("Range", VNone); ("Option1", VNone); ("Option2", VNone); ("Option3", VNone); ("StepNote", VText "begin main loop (after first 30 cycles)")].
Definition v4_s31 : val := VDict [("StepType", VText "Charge"); ("StepMode", VText "Current"); ("StepValue", VText "0.1429"); ("Limits", VDict [("Voltage", VText "4.2")]); ("Ends", VDict [("EndEntry", VList [VDict [("EndType", VText "Current"); ("SpecialType", VNone); ("Oper", VText "<="); ("Step", VText "039"); ("Value", VText "0.0286")]; VDict [("EndType", VText "Voltage"); ("SpecialType", VNone); ("Oper", VText ">="); ("Step", VText "070"); ("Value", VText "4.4")]; VDict [("EndType", VText "Voltage"); ("SpecialType", VNone); ("Oper", VText "<="); ("Step", VText "070"); ("Value", VText "2.0")]])]); ("Reports", VDict [("ReportEntry", VList [VDict [("ReportType", VText "Voltage"); ("Value", VText "0.001")]; VDict [("ReportType", VText "StepTime"); ("Value", VText "00:02:00")]])]); ("Range", VText "A"); ("Option1", VText "N"); ("Option2", VText "N"); ("Option3", VText "N"); ("StepNote", VText "reset cycle")].
Definition v4_s32 : val := VDict [("StepType", VText "Dischrge"); ("StepMode", VText "Current"); ("StepValue", VText "0.1429"); ("Limits", VNone); ("Ends", VDict [("EndEntry", VList [VDict [("EndType", VText "Voltage"); ("SpecialType", VNone); ("Oper", VText "<="); ("Step", VText "040"); ("Value", VText "2.7")]; VDict [("EndType", VText "Voltage"); ("SpecialType", VNone); ("Oper", VText ">="); ("Step", VText "070"); ("Value", VText "4.4")]; VDict [("EndType", VText "Voltage"); ("SpecialType", VNone); ("Oper", VText "<="); ("Step", VText "070"); ("Value", VText "2.0")]])]); ("Reports", VDict [("ReportEntry", VList [VDict [("ReportType", VText "Voltage"); ("Value", VText "0.001")]; VDict [("ReportType", VText "StepTime"); ("Value", VText "00:02:00")]])]); ("Range", VText "A"); ("Option1", VText "N"); ("Option2", VText "N"); ("Option3", VText "N"); ("StepNote", VNone)].
Definition v4_s33 : val := VDict [("StepType", VText "Charge"); ("StepMode", VText "Current"); ("StepValue", VText "0.333"); ("Limits", VDict [("Voltage", VText "4.2")]); ("Ends", VDict [("EndEntry", VList [VDict [("EndType", VText "Current"); ("SpecialType", VNone); ("Oper", VText "<="); ("Step", VText "042"); ("Value", VText "0.05")]; VDict [("EndType", VText "Voltage"); ("SpecialType", VNone); ("Oper", VText ">="); ("Step", VText "070"); ("Value", VText "4.4")]; VDict [("EndType", VText "Voltage"); ("SpecialType", VNone); ("Oper", VText "<="); ("Step", VText "070"); ("Value", VText "2.0")]])]); ("Reports", VDict [("ReportEntry", VList [VDict [("ReportType", VText "Voltage"); ("Value", VText "0.001")]; VDict [("ReportType", VText "StepTime"); ("Value", VText "00:00:30")]])]); ("Range", VText "A"); ("Option1", VText "N"); ("Option2", VText "N"); ("Option3", VText "N"); ("StepNote", VText "charge for HPPC")].
Definition v4_s34 : val := VDict [("StepType", VText "Do 2"); ("StepMode", VNone); ("StepValue", VNone); ("Limits", VNone); ("Ends", VNone); ("Reports", VNone); ("Range", VNone); ("Option1", VNone); ("Option2", VNone); ("Option3", VNone); ("StepNote", VNone)].
Definition v4_s35 : val := VDict [("StepType", VText "Rest"); ("StepMode", VNone); ("StepValue", VNone); ("Limits", VNone); ("Ends", VDict [("EndEntry", VList [VDict [("EndType", VText "StepTime"); ("SpecialType", VNone); ("Oper", VText "="); ("Step", VText "044"); ("Value", VText "01:00:00")]; VDict [("EndType", VText "Voltage"); ("SpecialType", VNone); ("Oper", VText ">="); ("Step", VText "070"); ("Value", VText "4.4")]; VDict [("EndType", VText "Voltage"); ("SpecialType", VNone); ("Oper", VText "<="); ("Step", VText "070"); ("Value", VText "2.0")]])]); ("Reports", VDict [("ReportEntry", VList [VDict [("ReportType", VText "StepTime"); ("Value", VText "00:00:01")]; VDict [("ReportType", VText "Voltage"); ("Value", VText "1.0E-4")]])]); ("Range", VText "A"); ("Option1", VText "N"); ("Option2", VText "N"); ("Option3", VText "N"); ("StepNote", VNone)].
Definition v4_s36 : val := VDict [("StepType", VText "Dischrge"); ("StepMode", VText "Current"); ("StepValue", VText "1.0"); ("Limits", VNone); ("Ends", VDict [("EndEntry", VList [VDict [("EndType", VText "StepTime"); ("SpecialType", VNone); ("Oper", VText "="); ("Step", VText "045"); ("Value", VText "00:00:30")]; VDict [("EndType", VText "Voltage"); ("SpecialType", VNone); ("Oper", VText "<="); ("Step", VText "049"); ("Value", VText "2.7")]; VDict [("EndType", VText "Voltage"); ("SpecialType", VNone); ("Oper", VText ">="); ("Step", VText "070"); ("Value", VText "4.4")]; VDict [("EndType", VText "Voltage"); ("SpecialType", VNone); ("Oper", VText "<="); ("Step", VText "070"); ("Value", VText "2.0")]])]); ("Reports", VDict [("ReportEntry", VDict [("ReportType", VText "StepTime"); ("Value", VText "::.01")])]); ("Range", VText "A"); ("Option1", VText "N"); ("Option2", VText "N"); ("Option3", VText "N"); ("StepNote", VText "HPPC discharge with pulses")].
Definition v4_s37 : val := VDict [("StepType", VText "Rest"); ("StepMode", VNone); ("StepValue", VNone); ("Limits", VNone); ("Ends", VDict [("EndEntry", VList [VDict [("EndType", VText "StepTime"); ("SpecialType", VNone); ("Oper", VText "="); ("Step", VText "046"); ("Value", VText "00:00:40")]; VDict [("EndType", VText "Voltage"); ("SpecialType", VNone); ("Oper", VText ">="); ("Step", VText "070"); ("Value", VText "4.4")]; VDict [("EndType", VText "Voltage"); ("SpecialType", VNone); ("Oper", VText "<="); ("Step", VText "070"); ("Value", VText "2.0")]])]); ("Reports", VDict [("ReportEntry", VDict [("ReportType", VText "StepTime"); ("Value", VText "::.01")])]); ("Range", VText "A"); ("Option1", VText "N"); ("Option2", VText "N"); ("Option3", VText "N"); ("StepNote", VNone)].
Definition v4_s38 : val := VDict [("StepType", VText "Charge"); ("StepMode", VText "Current"); ("StepValue", VText "0.75"); ("Limits", VNone); ("Ends", VDict [("EndEntry", VList [VDict [("EndType", VText "StepTime"); ("SpecialType", VNone); ("Oper", VText "="); ("Step", VText "047"); ("Value", VText "00:00:10")]; VDict [("EndType", VText "Voltage"); ("SpecialType", VNone); ("Oper", VText ">="); ("Step", VText "047"); ("Value", VText "4.39")]; VDict [("EndType", VText "Voltage"); ("SpecialType", VNone); ("Oper", VText ">="); ("Step", VText "070"); ("Value", VText "4.4")]; VDict [("EndType", VText "Voltage"); ("SpecialType", VNone); ("Oper", VText "<="); ("Step", VText "070"); ("Value", VText "2.0")]])]); ("Reports", VDict [("ReportEntry", VDict [("ReportType", VText "StepTime"); ("Value", VText "::.01")])]); ("Range", VText "A"); ("Option1", VText "N"); ("Option2", VText "N"); ("Option3", VText "N"); ("StepNote", VNone)].
Definition v4_s39 : val := VDict [("StepType", VText "Dischrge"); ("StepMode", VText "Current"); ("StepValue", VText "0.333"); ("Limits", VNone); ("Ends", VDict [("EndEntry", VList [VDict [("EndType", VText "StepTime"); ("SpecialType", VNone); ("Oper", VText "="); ("Step", VText "048"); ("Value", VText "00:18:00")]; VDict [("EndType", VText "Voltage"); ("SpecialType", VNone); ("Oper", VText "<="); ("Step", VText "049"); ("Value", VText "2.7")]; VDict [("EndType", VText "Voltage"); ("SpecialType", VNone); ("Oper", VText ">="); ("Step", VText "070"); ("Value", VText "4.4")]; VDict [("EndType", VText "Voltage"); ("SpecialType", VNone); ("Oper", VText "<="); ("Step", VText "070"); ("Value", VText "2.0")]])]); ("Reports", VDict [("ReportEntry", VList [VDict [("ReportType", VText "StepTime"); ("Value", VText "00:00:30")]; VDict [("ReportType", VText "Voltage"); ("Value", VText "0.001")]])]); ("Range", VText "A"); ("Option1", VText "N"); ("Option2", VText "N"); ("Option3", VText "N"); ("StepNote", VNone)].
Definition v4_s40 : val := VDict [("StepType", VText "Loop 2"); ("StepMode", VNone); ("StepValue", VNone); ("Limits", VNone); ("Ends", VDict [("EndEntry", VDict [("EndType", VText "Loop Cnt"); ("SpecialType", VNone); ("Oper", VText "="); ("Step", VText "049"); ("Value", VText "20")])]); ("Reports", VNone); ("Range", VNone); ("Option1", VNone); ("Option2", VNone); ("Option3", VNone); ("StepNote", VNone)].
Definition v4_s41 : val := VDict [("StepType", VText "Dischrge"); ("StepMode", VText "Voltage"); ("StepValue", VText "2.7"); ("Limits", VDict [("Current", VText "0.333")]); ("Ends", VDict [("EndEntry", VList [VDict [("EndType", VText "Current"); ("SpecialType", VNone); ("Oper", VText "<="); ("Step", VText "050"); ("Value", VText "0.05")]; VDict [("EndType", VText "Voltage"); ("SpecialType", VNone); ("Oper", VText ">="); ("Step", VText "070"); ("Value", VText "4.4")]; VDict [("EndType", VText "Voltage"); ("SpecialType", VNone); ("Oper", VText "<="); ("Step", VText "070"); ("Value", VText "2.0")]])]); ("Reports", VDict [("ReportEntry", VList [VDict [("ReportType", VText "StepTime"); ("Value", VText "00:00:30")]; VDict [("ReportType", VText "Voltage"); ("Value", VText "0.001")]])]); ("Range", VText "A"); ("Option1", VText "N"); ("Option2", VText "N"); ("Option3", VText "N"); ("StepNote", VNone)].
Definition v4_s42 : val := VDict [("StepType", VText "Charge"); ("StepMode", VText "Current"); ("StepValue", VText "0.2"); ("Limits", VDict [("Voltage", VText "4.2")]); ("Ends", VDict [("EndEntry", VList [VDict [("EndType", VText "Current"); ("SpecialType", VNone); ("Oper", VText "<="); ("Step", VText "052"); ("Value", VText "0.05")]; VDict [("EndType", VText "Voltage"); ("SpecialType", VNone); ("Oper", VText ">="); ("Step", VText "070"); ("Value", VText "4.4")]; VDict [("EndType", VText "Voltage"); ("SpecialType", VNone); ("Oper", VText "<="); ("Step", VText "070"); ("Value", VText "2.0")]])]); ("Reports", VDict [("ReportEntry", VList [VDict [("ReportType", VText "Voltage"); ("Value", VText "0.001")]; VDict [("ReportType", VText "StepTime"); ("Value", VText "00:00:30")]])]); ("Range", VText "4"); ("Option1", VText "N"); ("Option2", VText "N"); ("Option3", VText "N"); ("StepNote", VText "RPT C/5")].
Definition v4_s43 : val := VDict [("StepType", VText "Dischrge"); ("StepMode", VText "Current"); ("StepValue", VText "0.2"); ("Limits", VNone); ("Ends", VDict [("EndEntry", VList [VDict [("EndType", VText "Voltage"); ("SpecialType", VNone); ("Oper", VText "<="); ("Step", VText "053"); ("Value", VText "2.7")]; VDict [("EndType", VText "Voltage"); ("SpecialType", VNone); ("Oper", VText ">="); ("Step", VText "070"); ("Value", VText "4.4")]; VDict [("EndType", VText "Voltage"); ("SpecialType", VNone); ("Oper", VText "<="); ("Step", VText "070"); ("Value", VText "2.0")]])]); ("Reports", VDict [("ReportEntry", VList [VDict [("ReportType", VText "Voltage"); ("Value", VText "0.001")]; VDict [("ReportType", VText "StepTime"); ("Value", VText "00:00:30")]])]); ("Range", VText "4"); ("Option1", VText "N"); ("Option2", VText "N"); ("Option3", VText "N"); ("StepNote", VNone)].
Definition v4_s44 : val := VDict [("StepType", VText "Charge"); ("StepMode", VText "Current"); ("StepValue", VText "0.2"); ("Limits", VDict [("Voltage", VText "4.2")]); ("Ends", VDict [("EndEntry", VList [VDict [("EndType", VText "Current"); ("SpecialType", VNone); ("Oper", VText "<="); ("Step", VText "055"); ("Value", VText "0.05")]; VDict [("EndType", VText "Voltage"); ("SpecialType", VNone); ("Oper", VText ">="); ("Step", VText "070"); ("Value", VText "4.4")]; VDict [("EndType", VText "Voltage"); ("SpecialType", VNone); ("Oper", VText "<="); ("Step", VText "070"); ("Value", VText "2.0")]])]); ("Reports", VDict [("ReportEntry", VList [VDict [("ReportType", VText "Voltage"); ("Value", VText "0.001")]; VDict [("ReportType", VText "StepTime"); ("Value", VText "00:00:30")]])]); ("Range", VText "4"); ("Option1", VText "N"); ("Option2", VText "N"); ("Option3", VText "N"); ("StepNote", VText "RPT 1C")].
Definition v4_s45 : val := VDict [("StepType", VText "Dischrge"); ("StepMode", VText "Current"); ("StepValue", VText "1.0"); ("Limits", VNone); ("Ends", VDict [("EndEntry", VList [VDict [("EndType", VText "Voltage"); ("SpecialType", VNone); ("Oper", VText "<="); ("Step", VText "056"); ("Value", VText "2.7")]; VDict [("EndType", VText "Voltage"); ("SpecialType", VNone); ("Oper", VText ">="); ("Step", VText "070"); ("Value", VText "4.4")]; VDict [("EndType", VText "Voltage"); ("SpecialType", VNone); ("Oper", VText "<="); ("Step", VText "070"); ("Value", VText "2.0")]])]); ("Reports", VDict [("ReportEntry", VList [VDict [("ReportType", VText "Voltage"); ("Value", VText "0.001")]; VDict [("ReportType", VText "StepTime"); ("Value", VText "00:00:30")]])]); ("Range", VText "4"); ("Option1", VText "N"); ("Option2", VText "N"); ("Option3", VText "N"); ("StepNote", VNone)].
Definition v4_s46 : val := VDict [("StepType", VText "Charge"); ("StepMode", VText "Current"); ("StepValue", VText "0.2"); ("Limits", VDict [("Voltage", VText "4.2")]); ("Ends", VDict [("EndEntry", VList [VDict [("EndType", VText "Current"); ("SpecialType", VNone); ("Oper", VText "<="); ("Step", VText "058"); ("Value", VText "0.05")]; VDict [("EndType", VText "Voltage"); ("SpecialType", VNone); ("Oper", VText ">="); ("Step", VText "070"); ("Value", VText "4.4")]; VDict [("EndType", VText "Voltage"); ("SpecialType", VNone); ("Oper", VText "<="); ("Step", VText "070"); ("Value", VText "2.0")]])]); ("Reports", VDict [("ReportEntry", VList [VDict [("ReportType", VText "Voltage"); ("Value", VText "0.001")]; VDict [("ReportType", VText "StepTime"); ("Value", VText "00:00:30")]])]); ("Range", VText "4"); ("Option1", VText "N"); ("Option2", VText "N"); ("Option3", VText "N"); ("StepNote", VText "RPT 2C")].
Definition v4_s47 : val := VDict [("StepType", VText "Dischrge"); ("StepMode", VText "Current"); ("StepValue", VText "2.0"); ("Limits", VNone); ("Ends", VDict [("EndEntry", VList [VDict [("EndType", VText "Voltage"); ("SpecialType", VNone); ("Oper", VText "<="); ("Step", VText "059"); ("Value", VText "2.7")]; VDict [("EndType", VText "Voltage"); ("SpecialType", VNone); ("Oper", VText ">="); ("Step", VText "070"); ("Value", VText "4.4")]; VDict [("EndType", VText "Voltage"); ("SpecialType", VNone); ("Oper", VText "<="); ("Step", VText "070"); ("Value", VText "2.0")]])]); ("Reports", VDict [("ReportEntry", VList [VDict [("ReportType", VText "Voltage"); ("Value", VText "0.001")]; VDict [("ReportType", VText "StepTime"); ("Value", VText "00:00:30")]])]); ("Range", VText "4"); ("Option1", VText "N"); ("Option2", VText "N"); ("Option3", VText "N"); ("StepNote", VNone)].
Definition v4_s48 : val := VDict [("StepType", VText "Do 2"); ("StepMode", VNone); ("StepValue", VNone); ("Limits", VNone); ("Ends", VNone); ("Reports", VNone); ("Range", VNone); ("Option1", VNone); ("Option2", VNone); ("Option3", VNone); ("StepNote", VText "regular cycles")].
Definition v4_s49 : val := VDict [("StepType", VText "Charge"); ("StepMode", VText "Current"); ("StepValue", VText "1.0"); ("Limits", VNone); ("Ends", VDict [("EndEntry", VList [VDict [("EndType", VText "StepTime"); ("SpecialType", VNone); ("Oper", VText "="); ("Step", VText "062"); ("Value", VText "00:18:00")]; VDict [("EndType", VText "Voltage"); ("SpecialType", VNone); ("Oper", VText ">="); ("Step", VText "062"); ("Value", VText "4.1")]; VDict [("EndType", VText "Voltage"); ("SpecialType", VNone); ("Oper", VText ">="); ("Step", VText "070"); ("Value", VText "4.4")]; VDict [("EndType", VText "Voltage"); ("SpecialType", VNone); ("Oper", VText "<="); ("Step", VText "070"); ("Value", VText "2.0")]])]); ("Reports", VDict [("ReportEntry", VList [VDict [("ReportType", VText "Voltage"); ("Value", VText "0.005")]; VDict [("ReportType", VText "StepTime"); ("Value", VText "00:00:30")]])]); ("Range", VText "4"); ("Option1", VText "N"); ("Option2", VText "N"); ("Option3", VText "N"); ("StepNote", VNone)].
Definition v4_s50 : val := VDict [("StepType", VText "Charge"); ("StepMode", VText "Current"); ("StepValue", VText "1.0"); ("Limits", VNone); ("Ends", VDict [("EndEntry", VList [VDict [("EndType", VText "Voltage"); ("SpecialType", VNone); ("Oper", VText ">="); ("Step", VText "063"); ("Value", VText "4.1")]; VDict [("EndType", VText "Voltage"); ("SpecialType", VNone); ("Oper", VText ">="); ("Step", VText "070"); ("Value", VText "4.4")]; VDict [("EndType", VText "Voltage"); ("SpecialType", VNone); ("Oper", VText "<="); ("Step", VText "070"); ("Value", VText "2.0")]])]); ("Reports", VDict [("ReportEntry", VList [VDict [("ReportType", VText "Voltage"); ("Value", VText "0.005")]; VDict [("ReportType", VText "StepTime"); ("Value", VText "00:00:30")]])]); ("Range", VText "4"); ("Option1", VText "N"); ("Option2", VText "N"); ("Option3", VText "N"); ("StepNote", VNone)].
Definition v4_s51 : val := VDict [("StepType", VText "Charge"); ("StepMode", VText "Voltage"); ("StepValue", VText "4.1"); ("Limits", VNone); ("Ends", VDict [("EndEntry", VList [VDict [("EndType", VText "StepTime"); ("SpecialType", VNone); ("Oper", VText "="); ("Step", VText "064"); ("Value", VText "00:30:00")]; VDict [("EndType", VText "Voltage"); ("SpecialType", VNone); ("Oper", VText ">="); ("Step", VText "070"); ("Value", VText "4.4")]; VDict [("EndType", VText "Voltage"); ("SpecialType", VNone); ("Oper", VText "<="); ("Step", VText "070"); ("Value", VText "2.0")]])]); ("Reports", VDict [("ReportEntry", VDict [("ReportType", VText "StepTime"); ("Value", VText "00:00:30")])]); ("Range", VText "A"); ("Option1", VText "N"); ("Option2", VText "N"); ("Option3", VText "N"); ("StepNote", VNone)].
Definition v4_s52 : val := VDict [("StepType", VText "Rest"); ("StepMode", VNone); ("StepValue", VNone); ("Limits", VNone); ("Ends", VDict [("EndEntry", VList [VDict [("EndType", VText "StepTime"); ("SpecialType", VNone); ("Oper", VText "="); ("Step", VText "065"); ("Value", VText "00:05:00")]; VDict [("EndType", VText "Voltage"); ("SpecialType", VNone); ("Oper", VText ">="); ("Step", VText "070"); ("Value", VText "4.4")]; VDict [("EndType", VText "Voltage"); ("SpecialType", VNone); ("Oper", VText "<="); ("Step", VText "070"); ("Value", VText "2.0")]])]); ("Reports", VDict [("ReportEntry", VDict [("ReportType", VText "StepTime"); ("Value", VText "00:00:30")])]); ("Range", VText "A"); ("Option1", VText "N"); ("Option2", VText "N"); ("Option3", VText "N"); ("StepNote", VNone)].
Definition v4_s53 : val := VDict [("StepType", VText "Dischrge"); ("StepMode", VText "Current"); ("StepValue", VText "1.0"); ("Limits", VNone); ("Ends", VDict [("EndEntry", VList [VDict [("EndType", VText "Voltage"); ("SpecialType", VNone); ("Oper", VText "<="); ("Step", VText "066"); ("Value", VText "2.7")]; VDict [("EndType", VText "Voltage"); ("SpecialType", VNone); ("Oper", VText ">="); ("Step", VText "070"); ("Value", VText "4.4")]; VDict [("EndType", VText "Voltage"); ("SpecialType", VNone); ("Oper", VText "<="); ("Step", VText "070"); ("Value", VText "2.0")]])]); ("Reports", VDict [("ReportEntry", VList [VDict [("ReportType", VText "Voltage"); ("Value", VText "0.005")]; VDict [("ReportType", VText "StepTime"); ("Value", VText "00:00:30")]])]); ("Range", VText "4"); ("Option1", VText "N"); ("Option2", VText "N"); ("Option3", VText "N"); ("StepNote", VNone)].
Definition v4_s54 : val := VDict [("StepType", VText "Rest"); ("StepMode", VNone); ("StepValue", VNone); ("Limits", VNone); ("Ends", VDict [("EndEntry", VList [VDict [("EndType", VText "StepTime"); ("SpecialType", VNone); ("Oper", VText "="); ("Step", VText "067"); ("Value", VText "00:15:00")]; VDict [("EndType", VText "Voltage"); ("SpecialType", VNone); ("Oper", VText ">="); ("Step", VText "070"); ("Value", VText "4.4")]; VDict [("EndType", VText "Voltage"); ("SpecialType", VNone); ("Oper", VText "<="); ("Step", VText "070"); ("Value", VText "2.0")]])]); ("Reports", VDict [("ReportEntry", VDict [("ReportType", VText "StepTime"); ("Value", VText "00:00:30")])]); ("Range", VText "4"); ("Option1", VText "N"); ("Option2", VText "N"); ("Option3", VText "N"); ("StepNote", VNone)].
Definition v4_s55 : val := VDict [("StepType", VText "Loop 2"); ("StepMode", VNone); ("StepValue", VNone); ("Limits", VNone); ("Ends", VDict [("EndEntry", VDict [("EndType", VText "Loop Cnt"); ("SpecialType", VNone); ("Oper", VText "="); ("Step", VText "069"); ("Value", VText "100")])]); ("Reports", VNone); ("Range", VNone); ("Option1", VNone); ("Option2", VNone); ("Option3", VNone); ("StepNote", VNone)].
Definition v4_s56 : val := VDict [("StepType", VText "Loop 1"); ("StepMode", VNone); ("StepValue", VNone); ("Limits", VNone); ("Ends", VDict [("EndEntry", VDict [("EndType", VText "Loop Cnt"); ("SpecialType", VNone); ("Oper", VText "="); ("Step", VText "070"); ("Value", VText "1000")])]); ("Reports", VNone); ("Range", VNone); ("Option1", VNone); ("Option2", VNone); ("Option3", VNone); ("StepNote", VNone)].
Definition v4_s57 : val := VDict [("StepType", VText "Do 1"); ("StepMode", VNone); ("StepValue", VNone); ("Limits", VNone); ("Ends", VNone); ("Reports", VNone); ("Range", VNone); ("Option1", VNone); ("Option2", VNone); ("Option3", VNone); ("StepNote", VText "These are the 2 reset cycles")].
Definition v4_s58 : val := VDict [("StepType", VText "Charge"); ("StepMode", VText "Current"); ("StepValue", VText "0.1429"); ("Limits", VDict [("Voltage", VText "4.2")]); ("Ends", VDict [("EndEntry", VList [VDict [("EndType", VText "Current"); ("SpecialType", VNone); ("Oper", VText "<="); ("Step", VText "072"); ("Value", VText "0.0286")]; VDict [("EndType", VText "Voltage"); ("SpecialType", VNone); ("Oper", VText ">="); ("Step", VText "070"); ("Value", VText "4.4")]; VDict [("EndType", VText "Voltage"); ("SpecialType", VNone); ("Oper", VText "<="); ("Step", VText "070"); ("Value", VText "2.0")]])]); ("Reports", VDict [("ReportEntry", VList [VDict [("ReportType", VText "Voltage"); ("Value", VText "0.001")]; VDict [("ReportType", VText "StepTime"); ("Value", VText "00:02:00")]])]); ("Range", VText "A"); ("Option1", VText "N"); ("Option2", VText "N"); ("Option3", VText "N"); ("StepNote", VNone)].
Definition v4_s59 : val := VDict [("StepType", VText "Dischrge"); ("StepMode", VText "Current"); ("StepValue", VText "0.1429"); ("Limits", VNone); ("Ends", VDict [("EndEntry", VList [VDict [("EndType", VText "Voltage"); ("SpecialType", VNone); ("Oper", VText "<="); ("Step", VText "073"); ("Value", VText "2.7")]; VDict [("EndType", VText "Voltage"); ("SpecialType", VNone); ("Oper", VText ">="); ("Step", VText "070"); ("Value", VText "4.4")]; VDict [("EndType", VText "Voltage"); ("SpecialType", VNone); ("Oper", VText "<="); ("Step", VText "070"); ("Value", VText "2.0")]])]); ("Reports", VDict [("ReportEntry", VList [VDict [("ReportType", VText "Voltage"); ("Value", VText "0.001")]; VDict [("ReportType", VText "StepTime"); ("Value", VText "00:02:00")]])]); ("Range", VText "A"); ("Option1", VText "N"); ("Option2", VText "N"); ("Option3", VText "N"); ("StepNote", VNone)].
Definition v4_s60 : val := VDict [("StepType", VText "Loop 1"); ("StepMode", VNone); ("StepValue", VNone); ("Limits", VNone); ("Ends", VDict [("EndEntry", VDict [("EndType", VText "Loop Cnt"); ("SpecialType", VNone); ("Oper", VText "="); ("Step", VText "075"); ("Value", VText "2")])]); ("Reports", VNone); ("Range", VNone); ("Option1", VNone); ("Option2", VNone); ("Option3", VNone); ("StepNote", VText "End 2 reset cycles")].
Definition v4_s61 : val := VDict [("StepType", VText "Charge"); ("StepMode", VText "Current"); ("StepValue", VText "0.333"); ("Limits", VDict [("Voltage", VText "4.2")]); ("Ends", VDict [("EndEntry", VList [VDict [("EndType", VText "Current"); ("SpecialType", VNone); ("Oper", VText "<="); ("Step", VText "076"); ("Value", VText "0.05")]; VDict [("EndType", VText "Voltage"); ("SpecialType", VNone); ("Oper", VText ">="); ("Step", VText "070"); ("Value", VText "4.4")]; VDict [("EndType", VText "Voltage"); ("SpecialType", VNone); ("Oper", VText "<="); ("Step", VText "070"); ("Value", VText "2.0")]])]); ("Reports", VDict [("ReportEntry", VList [VDict [("ReportType", VText "Voltage"); ("Value", VText "0.001")]; VDict [("ReportType", VText "StepTime"); ("Value", VText "00:00:30")]])]); ("Range", VText "A"); ("Option1", VText "N"); ("Option2", VText "N"); ("Option3", VText "N"); ("StepNote", VText "Charging it up for the HPPC")].
Definition v4_s62 : val := VDict [("StepType", VText "Do 1"); ("StepMode", VNone); ("StepValue", VNone); ("Limits", VNone); ("Ends", VNone); ("Reports", VNone); ("Range", VNone); ("Option1", VNone); ("Option2", VNone); ("Option3", VNone); ("StepNote", VText "Perform HPPC until condition reached")].
Definition v4_s63 : val := VDict [("StepType", VText "Rest"); ("StepMode", VNone); ("StepValue", VNone); ("Limits", VNone); ("Ends", VDict [("EndEntry", VList [VDict [("EndType", VText "StepTime"); ("SpecialType", VNone); ("Oper", VText "="); ("Step", VText "078"); ("Value", VText "01:00:00")]; VDict [("EndType", VText "Voltage"); ("SpecialType", VNone); ("Oper", VText ">="); ("Step", VText "070"); ("Value", VText "4.4")]; VDict [("EndType", VText "Voltage"); ("SpecialType", VNone); ("Oper", VText "<="); ("Step", VText "070"); ("Value", VText "2.0")]])]); ("Reports", VDict [("ReportEntry", VList [VDict [("ReportType", VText "StepTime"); ("Value", VText "00:00:01")]; VDict [("ReportType", VText "Voltage"); ("Value", VText "1.0E-4")]])]); ("Range", VText "A"); ("Option1", VText "N"); ("Option2", VText "N"); ("Option3", VText "N"); ("StepNote", VNone)].
Definition v4_s64 : val := VDict [("StepType", VText "Dischrge"); ("StepMode", VText "Current"); ("StepValue", VText "1.0"); ("Limits", VNone); ("Ends", VDict [("EndEntry", VList [VDict [("EndType", VText "StepTime"); ("SpecialType", VNone); ("Oper", VText "="); ("Step", VText "079"); ("Value", VText "00:00:30")]; VDict [("EndType", VText "Voltage"); ("SpecialType", VNone); ("Oper", VText "<="); ("Step", VText "083"); ("Value", VText "2.7")]; VDict [("EndType", VText "Voltage"); ("SpecialType", VNone); ("Oper", VText ">="); ("Step", VText "070"); ("Value", VText "4.4")]; VDict [("EndType", VText "Voltage"); ("SpecialType", VNone); ("Oper", VText "<="); ("Step", VText "070"); ("Value", VText "2.0")]])]); ("Reports", VDict [("ReportEntry", VDict [("ReportType", VText "StepTime"); ("Value", VText "::.01")])]); ("Range", VText "A"); ("Option1", VText "N"); ("Option2", VText "N"); ("Option3", VText "N"); ("StepNote", VNone)].
Definition v4_s65 : val := VDict [("StepType", VText "Rest"); ("StepMode", VNone); ("StepValue", VNone); ("Limits", VNone); ("Ends", VDict [("EndEntry", VList [VDict [("EndType", VText "StepTime"); ("SpecialType", VNone); ("Oper", VText "="); ("Step", VText "080"); ("Value", VText "00:00:40")]; VDict [("EndType", VText "Voltage"); ("SpecialType", VNone); ("Oper", VText ">="); ("Step", VText "070"); ("Value", VText "4.4")]; VDict [("EndType", VText "Voltage"); ("SpecialType", VNone); ("Oper", VText "<="); ("Step", VText "070"); ("Value", VText "2.0")]])]); ("Reports", VDict [("ReportEntry", VDict [("ReportType", VText "StepTime"); ("Value", VText "::.01")])]); ("Range", VText "A"); ("Option1", VText "N"); ("Option2", VText "N"); ("Option3", VText "N"); ("StepNote", VNone)].
Definition v4_s66 : val := VDict [("StepType", VText "Charge"); ("StepMode", VText "Current"); ("StepValue", VText "0.75"); ("Limits", VNone); ("Ends", VDict [("EndEntry", VList [VDict [("EndType", VText "StepTime"); ("SpecialType", VNone); ("Oper", VText "="); ("Step", VText "081"); ("Value", VText "00:00:10")]; VDict [("EndType", VText "Voltage"); ("SpecialType", VNone); ("Oper", VText ">="); ("Step", VText "081"); ("Value", VText "4.39")]; VDict [("EndType", VText "Voltage"); ("SpecialType", VNone); ("Oper", VText ">="); ("Step", VText "070"); ("Value", VText "4.4")]; VDict [("EndType", VText "Voltage"); ("SpecialType", VNone); ("Oper", VText "<="); ("Step", VText "070"); ("Value", VText "2.0")]])]); ("Reports", VDict [("ReportEntry", VDict [("ReportType", VText "StepTime"); ("Value", VText "::.01")])]); ("Range", VText "A"); ("Option1", VText "N"); ("Option2", VText "N"); ("Option3", VText "N"); ("StepNote", VNone)].
Definition v4_s67 : val := VDict [("StepType", VText "Dischrge"); ("StepMode", VText "Current"); ("StepValue", VText "0.333"); ("Limits", VNone); ("Ends", VDict [("EndEntry", VList [VDict [("EndType", VText "StepTime"); ("SpecialType", VNone); ("Oper", VText "="); ("Step", VText "082"); ("Value", VText "00:18:00")]; VDict [("EndType", VText "Voltage"); ("SpecialType", VNone); ("Oper", VText "<="); ("Step", VText "083"); ("Value", VText "2.7")]; VDict [("EndType", VText "Voltage"); ("SpecialType", VNone); ("Oper", VText ">="); ("Step", VText "070"); ("Value", VText "4.4")]; VDict [("EndType", VText "Voltage"); ("SpecialType", VNone); ("Oper", VText "<="); ("Step", VText "070"); ("Value", VText "2.0")]])]); ("Reports", VDict [("ReportEntry", VList [VDict [("ReportType", VText "StepTime"); ("Value", VText "00:00:30")]; VDict [("ReportType", VText "Voltage"); ("Value", VText "0.001")]])]); ("Range", VText "A"); ("Option1", VText "N"); ("Option2", VText "N"); ("Option3", VText "N"); ("StepNote", VNone)].
Definition v4_s68 : val := VDict [("StepType", VText "Loop 1"); ("StepMode", VNone); ("StepValue", VNone); ("Limits", VNone); ("Ends", VDict [("EndEntry", VDict [("EndType", VText "Loop Cnt"); ("SpecialType", VNone); ("Oper", VText "="); ("Step", VText "083"); ("Value", VText "20")])]); ("Reports", VNone); ("Range", VNone); ("Option1", VNone); ("Option2", VNone); ("Option3", VNone); ("StepNote", VText "End of HPPC")].
Definition v4_s69 : val := VDict [("StepType", VText "Dischrge"); ("StepMode", VText "Voltage"); ("StepValue", VText "2.7"); ("Limits", VDict [("Current", VText "0.333")]); ("Ends", VDict [("EndEntry", VList [VDict [("EndType", VText "Current"); ("SpecialType", VNone); ("Oper", VText "<="); ("Step", VText "084"); ("Value", VText "0.05")]; VDict [("EndType", VText "Voltage"); ("SpecialType", VNone); ("Oper", VText ">="); ("Step", VText "070"); ("Value", VText "4.4")]; VDict [("EndType", VText "Voltage"); ("SpecialType", VNone); ("Oper", VText "<="); ("Step", VText "070"); ("Value", VText "2.0")]])]); ("Reports", VDict [("ReportEntry", VList [VDict [("ReportType", VText "StepTime"); ("Value", VText "00:00:30")]; VDict [("ReportType", VText "Voltage"); ("Value", VText "0.001")]])]); ("Range", VText "A"); ("Option1", VText "N"); ("Option2", VText "N"); ("Option3", VText "N"); ("StepNote", VText "Discharge for rate test")].
Definition v4_s70 : val := VDict [("StepType", VText "Charge"); ("StepMode", VText "Current"); ("StepValue", VText "0.2"); ("Limits", VDict [("Voltage", VText "4.2")]); ("Ends", VDict [("EndEntry", VList [VDict [("EndType", VText "Current"); ("SpecialType", VNone); ("Oper", VText "<="); ("Step", VText "086"); ("Value", VText "0.05")]; VDict [("EndType", VText "Voltage"); ("SpecialType", VNone); ("Oper", VText ">="); ("Step", VText "070"); ("Value", VText "4.4")]; VDict [("EndType", VText "Voltage"); ("SpecialType", VNone); ("Oper", VText "<="); ("Step", VText "070"); ("Value", VText "2.0")]])]); ("Reports", VDict [("ReportEntry", VList [VDict [("ReportType", VText "Voltage"); ("Value", VText "0.001")]; VDict [("ReportType", VText "StepTime"); ("Value", VText "00:00:30")]])]); ("Range", VText "4"); ("Option1", VText "N"); ("Option2", VText "N"); ("Option3", VText "N"); ("StepNote", VText "Rate test 1")].
Definition v4_s71 : val := VDict [("StepType", VText "Dischrge"); ("StepMode", VText "Current"); ("StepValue", VText "0.2"); ("Limits", VNone); ("Ends", VDict [("EndEntry", VList [VDict [("EndType", VText "Voltage"); ("SpecialType", VNone); ("Oper", VText "<="); ("Step", VText "087"); ("Value", VText "2.7")]; VDict [("EndType", VText "Voltage"); ("SpecialType", VNone); ("Oper", VText ">="); ("Step", VText "070"); ("Value", VText "4.4")]; VDict [("EndType", VText "Voltage"); ("SpecialType", VNone); ("Oper", VText "<="); ("Step", VText "070"); ("Value", VText "2.0")]])]); ("Reports", VDict [("ReportEntry", VList [VDict [("ReportType", VText "Voltage"); ("Value", VText "0.001")]; VDict [("ReportType", VText "StepTime"); ("Value", VText "00:00:30")]])]); ("Range", VText "4"); ("Option1", VText "N"); ("Option2", VText "N"); ("Option3", VText "N"); ("StepNote", VNone)].
Definition v4_s72 : val := VDict [("StepType", VText "Charge"); ("StepMode", VText "Current"); ("StepValue", VText "0.2"); ("Limits", VDict [("Voltage", VText "4.2")]); ("Ends", VDict [("EndEntry", VList [VDict [("EndType", VText "Current"); ("SpecialType", VNone); ("Oper", VText "<="); ("Step", VText "089"); ("Value", VText "0.05")]; VDict [("EndType", VText "Voltage"); ("SpecialType", VNone); ("Oper", VText ">="); ("Step", VText "070"); ("Value", VText "4.4")]; VDict [("EndType", VText "Voltage"); ("SpecialType", VNone); ("Oper", VText "<="); ("Step", VText "070"); ("Value", VText "2.0")]])]); ("Reports", VDict [("ReportEntry", VList [VDict [("ReportType", VText "Voltage"); ("Value", VText "0.001")]; VDict [("ReportType", VText "StepTime"); ("Value", VText "00:00:30")]])]); ("Range", VText "4"); ("Option1", VText "N"); ("Option2", VText "N"); ("Option3", VText "N"); ("StepNote", VText "Rate test 2")].
Definition v4_s73 : val := VDict [("StepType", VText "Dischrge"); ("StepMode", VText "Current"); ("StepValue", VText "1.0"); ("Limits", VNone); ("Ends", VDict [("EndEntry", VList [VDict [("EndType", VText "Voltage"); ("SpecialType", VNone); ("Oper", VText "<="); ("Step", VText "090"); ("Value", VText "2.7")]; VDict [("EndType", VText "Voltage"); ("SpecialType", VNone); ("Oper", VText ">="); ("Step", VText "070"); ("Value", VText "4.4")]; VDict [("EndType", VText "Voltage"); ("SpecialType", VNone); ("Oper", VText "<="); ("Step", VText "070"); ("Value", VText "2.0")]])]); ("Reports", VDict [("ReportEntry", VList [VDict [("ReportType", VText "Voltage"); ("Value", VText "0.001")]; VDict [("ReportType", VText "StepTime"); ("Value", VText "00:00:30")]])]); ("Range", VText "4"); ("Option1", VText "N"); ("Option2", VText "N"); ("Option3", VText "N"); ("StepNote", VNone)].
Definition v4_s74 : val := VDict [("StepType", VText "Charge"); ("StepMode", VText "Current"); ("StepValue", VText "0.2"); ("Limits", VDict [("Voltage", VText "4.2")]); ("Ends", VDict [("EndEntry", VList [VDict [("EndType", VText "Current"); ("SpecialType", VNone); ("Oper", VText "<="); ("Step", VText "092"); ("Value", VText "0.05")]; VDict [("EndType", VText "Voltage"); ("SpecialType", VNone); ("Oper", VText ">="); ("Step", VText "070"); ("Value", VText "4.4")]; VDict [("EndType", VText "Voltage"); ("SpecialType", VNone); ("Oper", VText "<="); ("Step", VText "070"); ("Value", VText "2.0")]])]); ("Reports", VDict [("ReportEntry", VList [VDict [("ReportType", VText "Voltage"); ("Value", VText "0.001")]; VDict [("ReportType", VText "StepTime"); ("Value", VText "00:00:30")]])]); ("Range", VText "4"); ("Option1", VText "N"); ("Option2", VText "N"); ("Option3", VText "N"); ("StepNote", VText "Rate test 3")].
Definition v4_s75 : val := VDict [("StepType", VText "Dischrge"); ("StepMode", VText "Current"); ("StepValue", VText "2.0"); ("Limits", VNone); ("Ends", VDict [("EndEntry", VList [VDict [("EndType", VText "Voltage"); ("SpecialType", VNone); ("Oper", VText "<="); ("Step", VText "093"); ("Value", VText "2.7")]; VDict [("EndType", VText "Voltage"); ("SpecialType", VNone); ("Oper", VText ">="); ("Step", VText "070"); ("Value", VText "4.4")]; VDict [("EndType", VText "Voltage"); ("SpecialType", VNone); ("Oper", VText "<="); ("Step", VText "070"); ("Value", VText "2.0")]])]); ("Reports", VDict [("ReportEntry", VList [VDict [("ReportType", VText "Voltage"); ("Value", VText "0.001")]; VDict [("ReportType", VText "StepTime"); ("Value", VText "00:00:30")]])]); ("Range", VText "4"); ("Option1", VText "N"); ("Option2", VText "N"); ("Option3", VText "N"); ("StepNote", VNone)].
Definition v4_s76 : val := VDict [("StepType", VText "AdvCycle"); ("StepMode", VNone); ("StepValue", VNone); ("Limits", VNone); ("Ends", VNone); ("Reports", VNone); ("Range", VNone); ("Option1", VNone); ("Option2", VNone); ("Option3", VNone); ("StepNote", VText "Diagnostic cycle ends here")].
Definition v4_s77 : val := VDict [("StepType", VText "Dischrge"); ("StepMode", VText "Current"); ("StepValue", VText "0.5"); ("Limits", VDict [("Voltage", VText "2.7")]); ("Ends", VDict [("EndEntry", VList [VDict [("EndType", VText "Current"); ("SpecialType", VNone); ("Oper", VText "<="); ("Step", VText "095"); ("Value", VText "0.05")]; VDict [("EndType", VText "Voltage"); ("SpecialType", VNone); ("Oper", VText ">="); ("Step", VText "070"); ("Value", VText "4.4")]; VDict [("EndType", VText "Voltage"); ("SpecialType", VNone); ("Oper", VText "<="); ("Step", VText "070"); ("Value", VText "2.0")]])]); ("Reports", VDict [("ReportEntry", VList [VDict [("ReportType", VText "Voltage"); ("Value", VText "0.005")]; VDict [("ReportType", VText "StepTime"); ("Value", VText "00:00:30")]])]); ("Range", VText "4"); ("Option1", VText "N"); ("Option2", VText "N"); ("Option3", VText "N"); ("StepNote", VText "Discharge and charge for storage")].
Definition v4_s78 : val := VDict [("StepType", VText "Charge"); ("StepMode", VText "Current"); ("StepValue", VText "0.5"); ("Limits", VNone); ("Ends", VDict [("EndEntry", VList [VDict [("EndType", VText "StepTime"); ("SpecialType", VNone); ("Oper", VText "="); ("Step", VText "096"); ("Value", VText "00:12:00")]; VDict [("EndType", VText "Voltage"); ("SpecialType", VNone); ("Oper", VText ">="); ("Step", VText "070"); ("Value", VText "4.4")]; VDict [("EndType", VText "Voltage"); ("SpecialType", VNone); ("Oper", VText "<="); ("Step", VText "070"); ("Value", VText "2.0")]])]); ("Reports", VDict [("ReportEntry", VList [VDict [("ReportType", VText "StepTime"); ("Value", VText "00:00:30")]; VDict [("ReportType", VText "Voltage"); ("Value", VText "0.005")]])]); ("Range", VText "4"); ("Option1", VText "N"); ("Option2", VText "N"); ("Option3", VText "N"); ("StepNote", VNone)].
Definition v4_s79 : val := VDict [("StepType", VText "End"); ("StepMode", VNone); ("StepValue", VNone); ("Limits", VNone); ("Ends", VNone); ("Reports", VNone); ("Range", VNone); ("Option1", VNone); ("Option2", VNone); ("Option3", VNone); ("StepNote", VNone)].
Definition template_v4 : steps :=
  [v4_s0; v4_s1; v4_s2; v4_s3; v4_s4; v4_s5; v4_s6; v4_s7; v4_s8; v4_s3; v4_s9; v4_s10; v4_s11; v4_s12; v4_s13; v4_s14; v4_s15; v4_s6; v4_s16; v4_s17; v4_s6; v4_s18; v4_s19; v4_s6; v4_s20; v4_s21; v4_s6; v4_s22; v4_s23; v4_s24; v4_s25; v4_s26; v4_s27; v4_s28; v4_s6; v4_s29; v4_s30; v4_s31; v4_s32; v4_s6; v4_s33; v4_s34; v4_s35; v4_s36; v4_s37; v4_s38; v4_s39; v4_s40; v4_s41; v4_s6; v4_s42; v4_s43; v4_s6; v4_s44; v4_s45; v4_s6; v4_s46; v4_s47; v4_s6; v4_s48; v4_s49; v4_s50; v4_s51; v4_s52; v4_s53; v4_s54; v4_s6; v4_s55; v4_s56; v4_s57; v4_s58; v4_s59; v4_s6; v4_s60; v4_s61; v4_s62; v4_s63; v4_s64; v4_s65; v4_s66; v4_s67; v4_s68; v4_s69; v4_s6; v4_s70; v4_s71; v4_s6; v4_s72; v4_s73; v4_s6; v4_s74; v4_s75; v4_s76; v4_s77; v4_s78; v4_s79].
