(** The steps of beep/protocol/procedure_templates/drivingV1.000:18-3240 as xmltodict.parse
    gives them (texts stripped, empty elements None); written by a script from the file. *)
From Verif Require Import Py Model_Procedure.
Local Open Scope string_scope.

Definition driving_s0 : val := VDict [("StepType", VText "Rest"); ("StepMode", VNone); ("StepValue", VNone); ("Limits", VNone); ("Ends", VDict [("EndEntry", VList [VDict [("EndType", VText "StepTime"); ("SpecialType", VNone); ("Oper", VText "="); ("Step", VText "002"); ("Value", VText "03:12:00")]; VDict [("EndType", VText "Voltage"); ("SpecialType", VNone); ("Oper", VText ">="); ("Step", VText "070"); ("Value", VText "4.4"); ("ChanSafetyEnd", VText "True")]; VDict [("EndType", VText "Voltage"); ("SpecialType", VNone); ("Oper", VText "<="); ("Step", VText "070"); ("Value", VText "2.5"); ("ChanSafetyEnd", VText "True")]])]); ("Reports", VDict [("ReportEntry", VDict [("ReportType", VText "StepTime"); ("Value", VText "00:00:30")])]); ("Range", VText "4"); ("Option1", VText "N"); ("Option2", VText "N"); ("Option3", VText "N"); ("StepNote", VNone)].
Definition driving_s1 : val := VDict [("StepType", VText "Charge"); ("StepMode", VText "Current"); ("StepValue", VText "3.71"); ("Limits", VNone); ("Ends", VDict [("EndEntry", VList [VDict [("EndType", VText "StepTime"); ("SpecialType", VNone); ("Oper", VText "="); ("Step", VText "003"); ("Value", VText "00:00:01")]; VDict [("EndType", VText "Voltage"); ("SpecialType", VNone); ("Oper", VText ">="); ("Step", VText "070"); ("Value", VText "4.4")]; VDict [("EndType", VText "Voltage"); ("SpecialType", VNone); ("Oper", VText "<="); ("Step", VText "070"); ("Value", VText "2.5")]])]); ("Reports", VDict [("ReportEntry", VDict [("ReportType", VText "StepTime"); ("Value", VText "::.01")])]); ("Range", VText "A"); ("Option1", VText "N"); ("Option2", VText "N"); ("Option3", VText "N"); ("StepNote", VText "resistance check")].
Definition driving_s2 : val := VDict [("StepType", VText "Rest"); ("StepMode", VNone); ("StepValue", VNone); ("Limits", VNone); ("Ends", VDict [("EndEntry", VList [VDict [("EndType", VText "StepTime"); ("SpecialType", VNone); ("Oper", VText "="); ("Step", VText "004"); ("Value", VText "00:01:00")]; VDict [("EndType", VText "Voltage"); ("SpecialType", VNone); ("Oper", VText ">="); ("Step", VText "070"); ("Value", VText "4.4")]; VDict [("EndType", VText "Voltage"); ("SpecialType", VNone); ("Oper", VText "<="); ("Step", VText "070"); ("Value", VText "2.5")]])]); ("Reports", VDict [("ReportEntry", VList [VDict [("ReportType", VText "StepTime"); ("Value", VText "00:00:01")]; VDict [("ReportType", VText "Voltage"); ("Value", VText "0.001")]])]); ("Range", VText "A"); ("Option1", VText "N"); ("Option2", VText "N"); ("Option3", VText "N"); ("StepNote", VNone)].
Definition driving_s3 : val := VDict [("StepType", VText "Do 1"); ("StepMode", VNone); ("StepValue", VNone); ("Limits", VNone); ("Ends", VNone); ("Reports", VNone); ("Range", VNone); ("Option1", VNone); ("Option2", VNone); ("Option3", VNone); ("StepNote", VNone)].
Definition driving_s4 : val := VDict [("StepType", VText "Charge"); ("StepMode", VText "Current"); ("StepValue", VText "0.5302"); ("Limits", VDict [("Voltage", VText "4.2")]); ("Ends", VDict [("EndEntry", VList [VDict [("EndType", VText "Current"); ("SpecialType", VNone); ("Oper", VText "<="); ("Step", VText "006"); ("Value", VText "0.1061")]; VDict [("EndType", VText "Voltage"); ("SpecialType", VNone); ("Oper", VText ">="); ("Step", VText "070"); ("Value", VText "4.4")]; VDict [("EndType", VText "Voltage"); ("SpecialType", VNone); ("Oper", VText "<="); ("Step", VText "070"); ("Value", VText "2.5")]])]); ("Reports", VDict [("ReportEntry", VList [VDict [("ReportType", VText "Voltage"); ("Value", VText "0.001")]; VDict [("ReportType", VText "StepTime"); ("Value", VText "00:02:00")]])]); ("Range", VText "A"); ("Option1", VText "N"); ("Option2", VText "N"); ("Option3", VText "N"); ("StepNote", VText "reset cycle C/20")].
Definition driving_s5 : val := VDict [("StepType", VText "Dischrge"); ("StepMode", VText "Current"); ("StepValue", VText "0.5302"); ("Limits", VNone); ("Ends", VDict [("EndEntry", VList [VDict [("EndType", VText "Voltage"); ("SpecialType", VNone); ("Oper", VText "<="); ("Step", VText "007"); ("Value", VText "2.7")]; VDict [("EndType", VText "Voltage"); ("SpecialType", VNone); ("Oper", VText ">="); ("Step", VText "070"); ("Value", VText "4.4")]; VDict [("EndType", VText "Voltage"); ("SpecialType", VNone); ("Oper", VText "<="); ("Step", VText "070"); ("Value", VText "2.5")]])]); ("Reports", VDict [("ReportEntry", VList [VDict [("ReportType", VText "Voltage"); ("Value", VText "0.001")]; VDict [("ReportType", VText "StepTime"); ("Value", VText "00:02:00")]])]); ("Range", VText "A"); ("Option1", VText "N"); ("Option2", VText "N"); ("Option3", VText "N"); ("StepNote", VNone)].
Definition driving_s6 : val := VDict [("StepType", VText "AdvCycle"); ("StepMode", VNone); ("StepValue", VNone); ("Limits", VNone); ("Ends", VNone); ("Reports", VNone); ("Range", VNone); ("Option1", VNone); ("Option2", VNone); ("Option3", VNone); ("StepNote", VNone)].
Definition driving_s7 : val := VDict [("StepType", VText "Loop 1"); ("StepMode", VNone); ("StepValue", VNone); ("Limits", VNone); ("Ends", VDict [("EndEntry", VDict [("EndType", VText "Loop Cnt"); ("SpecialType", VNone); ("Oper", VText "="); ("Step", VText "009"); ("Value", VText "2")])]); ("Reports", VNone); ("Range", VNone); ("Option1", VNone); ("Option2", VNone); ("Option3", VNone); ("StepNote", VNone)].
Definition driving_s8 : val := VDict [("StepType", VText "Charge"); ("StepMode", VText "Current"); ("StepValue", VText "1.235"); ("Limits", VDict [("Voltage", VText "4.2")]); ("Ends", VDict [("EndEntry", VList [VDict [("EndType", VText "Current"); ("SpecialType", VNone); ("Oper", VText "<="); ("Step", VText "010"); ("Value", VText "0.186")]; VDict [("EndType", VText "Voltage"); ("SpecialType", VNone); ("Oper", VText ">="); ("Step", VText "070"); ("Value", VText "4.4")]; VDict [("EndType", VText "Voltage"); ("SpecialType", VNone); ("Oper", VText "<="); ("Step", VText "070"); ("Value", VText "2.5")]])]); ("Reports", VDict [("ReportEntry", VList [VDict [("ReportType", VText "Voltage"); ("Value", VText "0.001")]; VDict [("ReportType", VText "StepTime"); ("Value", VText "00:00:30")]])]); ("Range", VText "A"); ("Option1", VText "N"); ("Option2", VText "N"); ("Option3", VText "N"); ("StepNote", VText "HPPC charge")].
Definition driving_s9 : val := VDict [("StepType", VText "Rest"); ("StepMode", VNone); ("StepValue", VNone); ("Limits", VNone); ("Ends", VDict [("EndEntry", VList [VDict [("EndType", VText "StepTime"); ("SpecialType", VNone); ("Oper", VText "="); ("Step", VText "012"); ("Value", VText "01:00:00")]; VDict [("EndType", VText "Voltage"); ("SpecialType", VNone); ("Oper", VText ">="); ("Step", VText "070"); ("Value", VText "4.4")]; VDict [("EndType", VText "Voltage"); ("SpecialType", VNone); ("Oper", VText "<="); ("Step", VText "070"); ("Value", VText "2.5")]])]); ("Reports", VDict [("ReportEntry", VList [VDict [("ReportType", VText "StepTime"); ("Value", VText "00:00:01")]; VDict [("ReportType", VText "Voltage"); ("Value", VText "1.0E-4")]])]); ("Range", VText "A"); ("Option1", VText "N"); ("Option2", VText "N"); ("Option3", VText "N"); ("StepNote", VNone)].
Definition driving_s10 : val := VDict [("StepType", VText "Dischrge"); ("StepMode", VText "Current"); ("StepValue", VText "3.71"); ("Limits", VNone); ("Ends", VDict [("EndEntry", VList [VDict [("EndType", VText "StepTime"); ("SpecialType", VNone); ("Oper", VText "="); ("Step", VText "013"); ("Value", VText "00:00:30")]; VDict [("EndType", VText "Voltage"); ("SpecialType", VNone); ("Oper", VText "<="); ("Step", VText "017"); ("Value", VText "2.7")]; VDict [("EndType", VText "Voltage"); ("SpecialType", VNone); ("Oper", VText ">="); ("Step", VText "070"); ("Value", VText "4.4")]; VDict [("EndType", VText "Voltage"); ("SpecialType", VNone); ("Oper", VText "<="); ("Step", VText "070"); ("Value", VText "2.5")]])]); ("Reports", VDict [("ReportEntry", VDict [("ReportType", VText "StepTime"); ("Value", VText "::.01")])]); ("Range", VText "A"); ("Option1", VText "N"); ("Option2", VText "N"); ("Option3", VText "N"); ("StepNote", VText "HPPC discharge with pulses")].
Definition driving_s11 : val := VDict [("StepType", VText "Rest"); ("StepMode", VNone); ("StepValue", VNone); ("Limits", VNone); ("Ends", VDict [("EndEntry", VList [VDict [("EndType", VText "StepTime"); ("SpecialType", VNone); ("Oper", VText "="); ("Step", VText "014"); ("Value", VText "00:00:40")]; VDict [("EndType", VText "Voltage"); ("SpecialType", VNone); ("Oper", VText ">="); ("Step", VText "070"); ("Value", VText "4.4")]; VDict [("EndType", VText "Voltage"); ("SpecialType", VNone); ("Oper", VText "<="); ("Step", VText "070"); ("Value", VText "2.5")]])]); ("Reports", VDict [("ReportEntry", VDict [("ReportType", VText "StepTime"); ("Value", VText "::.01")])]); ("Range", VText "A"); ("Option1", VText "N"); ("Option2", VText "N"); ("Option3", VText "N"); ("StepNote", VNone)].
Definition driving_s12 : val := VDict [("StepType", VText "Charge"); ("StepMode", VText "Current"); ("StepValue", VText "2.782"); ("Limits", VNone); ("Ends", VDict [("EndEntry", VList [VDict [("EndType", VText "StepTime"); ("SpecialType", VNone); ("Oper", VText "="); ("Step", VText "015"); ("Value", VText "00:00:10")]; VDict [("EndType", VText "Voltage"); ("SpecialType", VNone); ("Oper", VText ">="); ("Step", VText "015"); ("Value", VText "4.39")]; VDict [("EndType", VText "Voltage"); ("SpecialType", VNone); ("Oper", VText ">="); ("Step", VText "070"); ("Value", VText "4.4")]; VDict [("EndType", VText "Voltage"); ("SpecialType", VNone); ("Oper", VText "<="); ("Step", VText "070"); ("Value", VText "2.5")]])]); ("Reports", VDict [("ReportEntry", VDict [("ReportType", VText "StepTime"); ("Value", VText "::.01")])]); ("Range", VText "A"); ("Option1", VText "N"); ("Option2", VText "N"); ("Option3", VText "N"); ("StepNote", VNone)].
Definition driving_s13 : val := VDict [("StepType", VText "Dischrge"); ("StepMode", VText "Current"); ("StepValue", VText "1.235"); ("Limits", VNone); ("Ends", VDict [("EndEntry", VList [VDict [("EndType", VText "StepTime"); ("SpecialType", VNone); ("Oper", VText "="); ("Step", VText "016"); ("Value", VText "00:18:00")]; VDict [("EndType", VText "Voltage"); ("SpecialType", VNone); ("Oper", VText "<="); ("Step", VText "017"); ("Value", VText "2.7")]; VDict [("EndType", VText "Voltage"); ("SpecialType", VNone); ("Oper", VText ">="); ("Step", VText "070"); ("Value", VText "4.4")]; VDict [("EndType", VText "Voltage"); ("SpecialType", VNone); ("Oper", VText "<="); ("Step", VText "070"); ("Value", VText "2.5")]])]); ("Reports", VDict [("ReportEntry", VList [VDict [("ReportType", VText "StepTime"); ("Value", VText "00:00:30")]; VDict [("ReportType", VText "Voltage"); ("Value", VText "0.001")]])]); ("Range", VText "A"); ("Option1", VText "N"); ("Option2", VText "N"); ("Option3", VText "N"); ("StepNote", VNone)].
Definition driving_s14 : val := VDict [("StepType", VText "Loop 1"); ("StepMode", VNone); ("StepValue", VNone); ("Limits", VNone); ("Ends", VDict [("EndEntry", VDict [("EndType", VText "Loop Cnt"); ("SpecialType", VNone); ("Oper", VText "="); ("Step", VText "017"); ("Value", VText "20")])]); ("Reports", VNone); ("Range", VNone); ("Option1", VNone); ("Option2", VNone); ("Option3", VNone); ("StepNote", VNone)].
Definition driving_s15 : val := VDict [("StepType", VText "Dischrge"); ("StepMode", VText "Voltage"); ("StepValue", VText "2.7"); ("Limits", VDict [("Current", VText "1.235")]); ("Ends", VDict [("EndEntry", VList [VDict [("EndType", VText "Current"); ("SpecialType", VNone); ("Oper", VText "<="); ("Step", VText "018"); ("Value", VText "0.186")]; VDict [("EndType", VText "Voltage"); ("SpecialType", VNone); ("Oper", VText ">="); ("Step", VText "070"); ("Value", VText "4.4")]; VDict [("EndType", VText "Voltage"); ("SpecialType", VNone); ("Oper", VText "<="); ("Step", VText "070"); ("Value", VText "2.5")]])]); ("Reports", VDict [("ReportEntry", VList [VDict [("ReportType", VText "StepTime"); ("Value", VText "00:00:30")]; VDict [("ReportType", VText "Voltage"); ("Value", VText "0.001")]])]); ("Range", VText "A"); ("Option1", VText "N"); ("Option2", VText "N"); ("Option3", VText "N"); ("StepNote", VNone)].
Definition driving_s16 : val := VDict [("StepType", VText "Charge"); ("StepMode", VText "Current"); ("StepValue", VText "0.742"); ("Limits", VDict [("Voltage", VText "4.2")]); ("Ends", VDict [("EndEntry", VList [VDict [("EndType", VText "Current"); ("SpecialType", VNone); ("Oper", VText "<="); ("Step", VText "020"); ("Value", VText "0.186")]; VDict [("EndType", VText "Voltage"); ("SpecialType", VNone); ("Oper", VText ">="); ("Step", VText "070"); ("Value", VText "4.4")]; VDict [("EndType", VText "Voltage"); ("SpecialType", VNone); ("Oper", VText "<="); ("Step", VText "070"); ("Value", VText "2.5")]])]); ("Reports", VDict [("ReportEntry", VList [VDict [("ReportType", VText "Voltage"); ("Value", VText "0.001")]; VDict [("ReportType", VText "StepTime"); ("Value", VText "00:00:30")]])]); ("Range", VText "4"); ("Option1", VText "N"); ("Option2", VText "N"); ("Option3", VText "N"); ("StepNote", VText "RPT C/5")].
Definition driving_s17 : val := VDict [("StepType", VText "Dischrge"); ("StepMode", VText "Current"); ("StepValue", VText "0.742"); ("Limits", VNone); ("Ends", VDict [("EndEntry", VList [VDict [("EndType", VText "Voltage"); ("SpecialType", VNone); ("Oper", VText "<="); ("Step", VText "021"); ("Value", VText "2.7")]; VDict [("EndType", VText "Voltage"); ("SpecialType", VNone); ("Oper", VText ">="); ("Step", VText "070"); ("Value", VText "4.4")]; VDict [("EndType", VText "Voltage"); ("SpecialType", VNone); ("Oper", VText "<="); ("Step", VText "070"); ("Value", VText "2.5")]])]); ("Reports", VDict [("ReportEntry", VList [VDict [("ReportType", VText "Voltage"); ("Value", VText "0.001")]; VDict [("ReportType", VText "StepTime"); ("Value", VText "00:00:30")]])]); ("Range", VText "4"); ("Option1", VText "N"); ("Option2", VText "N"); ("Option3", VText "N"); ("StepNote", VNone)].
Definition driving_s18 : val := VDict [("StepType", VText "Charge"); ("StepMode", VText "Current"); ("StepValue", VText "0.742"); ("Limits", VDict [("Voltage", VText "4.2")]); ("Ends", VDict [("EndEntry", VList [VDict [("EndType", VText "Current"); ("SpecialType", VNone); ("Oper", VText "<="); ("Step", VText "023"); ("Value", VText "0.186")]; VDict [("EndType", VText "Voltage"); ("SpecialType", VNone); ("Oper", VText ">="); ("Step", VText "070"); ("Value", VText "4.4")]; VDict [("EndType", VText "Voltage"); ("SpecialType", VNone); ("Oper", VText "<="); ("Step", VText "070"); ("Value", VText "2.5")]])]); ("Reports", VDict [("ReportEntry", VList [VDict [("ReportType", VText "Voltage"); ("Value", VText "0.001")]; VDict [("ReportType", VText "StepTime"); ("Value", VText "00:00:30")]])]); ("Range", VText "4"); ("Option1", VText "N"); ("Option2", VText "N"); ("Option3", VText "N"); ("StepNote", VText "RPT 1C")].
Definition driving_s19 : val := VDict [("StepType", VText "Dischrge"); ("StepMode", VText "Current"); ("StepValue", VText "3.71"); ("Limits", VNone); ("Ends", VDict [("EndEntry", VList [VDict [("EndType", VText "Voltage"); ("SpecialType", VNone); ("Oper", VText "<="); ("Step", VText "024"); ("Value", VText "2.7")]; VDict [("EndType", VText "Voltage"); ("SpecialType", VNone); ("Oper", VText ">="); ("Step", VText "070"); ("Value", VText "4.4")]; VDict [("EndType", VText "Voltage"); ("SpecialType", VNone); ("Oper", VText "<="); ("Step", VText "070"); ("Value", VText "2.5")]])]); ("Reports", VDict [("ReportEntry", VList [VDict [("ReportType", VText "Voltage"); ("Value", VText "0.001")]; VDict [("ReportType", VText "StepTime"); ("Value", VText "00:00:30")]])]); ("Range", VText "4"); ("Option1", VText "N"); ("Option2", VText "N"); ("Option3", VText "N"); ("StepNote", VNone)].
Definition driving_s20 : val := VDict [("StepType", VText "Charge"); ("StepMode", VText "Current"); ("StepValue", VText "0.742"); ("Limits", VDict [("Voltage", VText "4.2")]); ("Ends", VDict [("EndEntry", VList [VDict [("EndType", VText "Current"); ("SpecialType", VNone); ("Oper", VText "<="); ("Step", VText "026"); ("Value", VText "0.186")]; VDict [("EndType", VText "Voltage"); ("SpecialType", VNone); ("Oper", VText ">="); ("Step", VText "070"); ("Value", VText "4.4")]; VDict [("EndType", VText "Voltage"); ("SpecialType", VNone); ("Oper", VText "<="); ("Step", VText "070"); ("Value", VText "2.5")]])]); ("Reports", VDict [("ReportEntry", VList [VDict [("ReportType", VText "Voltage"); ("Value", VText "0.001")]; VDict [("ReportType", VText "StepTime"); ("Value", VText "00:00:30")]])]); ("Range", VText "4"); ("Option1", VText "N"); ("Option2", VText "N"); ("Option3", VText "N"); ("StepNote", VText "RPT 2C")].
Definition driving_s21 : val := VDict [("StepType", VText "Dischrge"); ("StepMode", VText "Current"); ("StepValue", VText "7.42"); ("Limits", VNone); ("Ends", VDict [("EndEntry", VList [VDict [("EndType", VText "Voltage"); ("SpecialType", VNone); ("Oper", VText "<="); ("Step", VText "027"); ("Value", VText "2.7")]; VDict [("EndType", VText "Voltage"); ("SpecialType", VNone); ("Oper", VText ">="); ("Step", VText "070"); ("Value", VText "4.4")]; VDict [("EndType", VText "Voltage"); ("SpecialType", VNone); ("Oper", VText "<="); ("Step", VText "070"); ("Value", VText "2.5")]])]); ("Reports", VDict [("ReportEntry", VList [VDict [("ReportType", VText "Voltage"); ("Value", VText "0.001")]; VDict [("ReportType", VText "StepTime"); ("Value", VText "00:00:30")]])]); ("Range", VText "4"); ("Option1", VText "N"); ("Option2", VText "N"); ("Option3", VText "N"); ("StepNote", VNone)].
Definition driving_s22 : val := VDict [("StepType", VText "Do 1"); ("StepMode", VNone); ("StepValue", VNone); ("Limits", VNone); ("Ends", VNone); ("Reports", VNone); ("Range", VNone); ("Option1", VNone); ("Option2", VNone); ("Option3", VNone); ("StepNote", VText "regular cycles (first 30)")].
Definition driving_s23 : val := VDict [("StepType", VText "Charge"); ("StepMode", VText "Current"); ("StepValue", VText "3.71"); ("Limits", VNone); ("Ends", VDict [("EndEntry", VList [VDict [("EndType", VText "StepTime"); ("SpecialType", VNone); ("Oper", VText "="); ("Step", VText "030"); ("Value", VText "00:18:00")]; VDict [("EndType", VText "Voltage"); ("SpecialType", VNone); ("Oper", VText ">="); ("Step", VText "031"); ("Value", VText "4.1")]; VDict [("EndType", VText "Voltage"); ("SpecialType", VNone); ("Oper", VText ">="); ("Step", VText "070"); ("Value", VText "4.4")]; VDict [("EndType", VText "Voltage"); ("SpecialType", VNone); ("Oper", VText "<="); ("Step", VText "070"); ("Value", VText "2.5")]])]); ("Reports", VDict [("ReportEntry", VList [VDict [("ReportType", VText "Voltage"); ("Value", VText "0.005")]; VDict [("ReportType", VText "StepTime"); ("Value", VText "00:00:30")]])]); ("Range", VText "4"); ("Option1", VText "N"); ("Option2", VText "N"); ("Option3", VText "N"); ("StepNote", VNone)].
Definition driving_s24 : val := VDict [("StepType", VText "Charge"); ("StepMode", VText "Current"); ("StepValue", VText "3.71"); ("Limits", VNone); ("Ends", VDict [("EndEntry", VList [VDict [("EndType", VText "Voltage"); ("SpecialType", VNone); ("Oper", VText ">="); ("Step", VText "031"); ("Value", VText "4.1")]; VDict [("EndType", VText "Voltage"); ("SpecialType", VNone); ("Oper", VText ">="); ("Step", VText "070"); ("Value", VText "4.4")]; VDict [("EndType", VText "Voltage"); ("SpecialType", VNone); ("Oper", VText "<="); ("Step", VText "070"); ("Value", VText "2.5")]])]); ("Reports", VDict [("ReportEntry", VList [VDict [("ReportType", VText "Voltage"); ("Value", VText "0.005")]; VDict [("ReportType", VText "StepTime"); ("Value", VText "00:00:30")]])]); ("Range", VText "4"); ("Option1", VText "N"); ("Option2", VText "N"); ("Option3", VText "N"); ("StepNote", VNone)].
Definition driving_s25 : val := VDict [("StepType", VText "Charge"); ("StepMode", VText "Voltage"); ("StepValue", VText "4.1"); ("Limits", VNone); ("Ends", VDict [("EndEntry", VList [VDict [("EndType", VText "StepTime"); ("SpecialType", VNone); ("Oper", VText "="); ("Step", VText "032"); ("Value", VText "00:30:00")]; VDict [("EndType", VText "Voltage"); ("SpecialType", VNone); ("Oper", VText ">="); ("Step", VText "070"); ("Value", VText "4.4")]; VDict [("EndType", VText "Voltage"); ("SpecialType", VNone); ("Oper", VText "<="); ("Step", VText "070"); ("Value", VText "2.5")]])]); ("Reports", VDict [("ReportEntry", VDict [("ReportType", VText "StepTime"); ("Value", VText "00:00:30")])]); ("Range", VText "A"); ("Option1", VText "N"); ("Option2", VText "N"); ("Option3", VText "N"); ("StepNote", VNone)].
Definition driving_s26 : val := VDict [("StepType", VText "Rest"); ("StepMode", VNone); ("StepValue", VNone); ("Limits", VNone); ("Ends", VDict [("EndEntry", VList [VDict [("EndType", VText "StepTime"); ("SpecialType", VNone); ("Oper", VText "="); ("Step", VText "033"); ("Value", VText "00:05:00")]; VDict [("EndType", VText "Voltage"); ("SpecialType", VNone); ("Oper", VText ">="); ("Step", VText "070"); ("Value", VText "4.4")]; VDict [("EndType", VText "Voltage"); ("SpecialType", VNone); ("Oper", VText "<="); ("Step", VText "070"); ("Value", VText "2.5")]])]); ("Reports", VDict [("ReportEntry", VDict [("ReportType", VText "StepTime"); ("Value", VText "00:00:30")])]); ("Range", VText "A"); ("Option1", VText "N"); ("Option2", VText "N"); ("Option3", VText "N"); ("StepNote", VNone)].
Definition driving_s27 : val := VDict [("StepType", VText "FastWave"); ("StepMode", VNone); ("StepValue", VText "LA4_8rep_lim"); ("Limits", VNone); ("Ends", VNone); ("Reports", VNone); ("Range", VNone); ("Option1", VNone); ("Option2", VNone); ("Option3", VNone); ("StepNote", VNone)].
Definition driving_s28 : val := VDict [("StepType", VText "Rest"); ("StepMode", VNone); ("StepValue", VNone); ("Limits", VNone); ("Ends", VDict [("EndEntry", VList [VDict [("EndType", VText "StepTime"); ("SpecialType", VNone); ("Oper", VText "="); ("Step", VText "035"); ("Value", VText "00:15:00")]; VDict [("EndType", VText "Voltage"); ("SpecialType", VNone); ("Oper", VText ">="); ("Step", VText "070"); ("Value", VText "4.4")]; VDict [("EndType", VText "Voltage"); ("SpecialType", VNone); ("Oper", VText "<="); ("Step", VText "070"); ("Value", VText "2.5")]])]); ("Reports", VDict [("ReportEntry", VDict [("ReportType", VText "StepTime"); ("Value", VText "00:00:30")])]); ("Range", VText "4"); ("Option1", VText "N"); ("Option2", VText "N"); ("Option3", VText "N"); ("StepNote", VNone)].
Definition driving_s29 : val := VDict [("StepType", VText "Loop 1"); ("StepMode", VNone); ("StepValue", VNone); ("Limits", VNone); ("Ends", VDict [("EndEntry", VDict [("EndType", VText "Loop Cnt"); ("SpecialType", VNone); ("Oper", VText "="); ("Step", VText "037"); ("Value", VText "30")])]); ("Reports", VNone); ("Range", VNone); ("Option1", VNone); ("Option2", VNone); ("Option3", VNone); ("StepNote", VNone)].
Definition driving_s30 : val := VDict [("StepType", VText "Do 1"); ("StepMode", VNone); ("StepValue", VNone); ("Limits", VNone); ("Ends", VNone); ("Reports", VNone); ("Range", VNone); ("Option1", VNone); ("Option2", VNone); ("Option3", VNone); ("StepNote", VText "begin main loop (after first 30 cycles)")].
Definition driving_s31 : val := VDict [("StepType", VText "Charge"); ("StepMode", VText "Current"); ("StepValue", VText "0.5302"); ("Limits", VDict [("Voltage", VText "4.2")]); ("Ends", VDict [("EndEntry", VList [VDict [("EndType", VText "Current"); ("SpecialType", VNone); ("Oper", VText "<="); ("Step", VText "039"); ("Value", VText "0.1061")]; VDict [("EndType", VText "Voltage"); ("SpecialType", VNone); ("Oper", VText ">="); ("Step", VText "070"); ("Value", VText "4.4")]; VDict [("EndType", VText "Voltage"); ("SpecialType", VNone); ("Oper", VText "<="); ("Step", VText "070"); ("Value", VText "2.5")]])]); ("Reports", VDict [("ReportEntry", VList [VDict [("ReportType", VText "Voltage"); ("Value", VText "0.001")]; VDict [("ReportType", VText "StepTime"); ("Value", VText "00:02:00")]])]); ("Range", VText "A"); ("Option1", VText "N"); ("Option2", VText "N"); ("Option3", VText "N"); ("StepNote", VText "reset cycle")].
Definition driving_s32 : val := VDict [("StepType", VText "Dischrge"); ("StepMode", VText "Current"); ("StepValue", VText "0.5302"); ("Limits", VNone); ("Ends", VDict [("EndEntry", VList [VDict [("EndType", VText "Voltage"); ("SpecialType", VNone); ("Oper", VText "<="); ("Step", VText "040"); ("Value", VText "2.7")]; VDict [("EndType", VText "Voltage"); ("SpecialType", VNone); ("Oper", VText ">="); ("Step", VText "070"); ("Value", VText "4.4")]; VDict [("EndType", VText "Voltage"); ("SpecialType", VNone); ("Oper", VText "<="); ("Step", VText "070"); ("Value", VText "2.5")]])]); ("Reports", VDict [("ReportEntry", VList [VDict [("ReportType", VText "Voltage"); ("Value", VText "0.001")]; VDict [("ReportType", VText "StepTime"); ("Value", VText "00:02:00")]])]); ("Range", VText "A"); ("Option1", VText "N"); ("Option2", VText "N"); ("Option3", VText "N"); ("StepNote", VNone)].
Definition driving_s33 : val := VDict [("StepType", VText "Charge"); ("StepMode", VText "Current"); ("StepValue", VText "1.235"); ("Limits", VDict [("Voltage", VText "4.2")]); ("Ends", VDict [("EndEntry", VList [VDict [("EndType", VText "Current"); ("SpecialType", VNone); ("Oper", VText "<="); ("Step", VText "042"); ("Value", VText "0.186")]; VDict [("EndType", VText "Voltage"); ("SpecialType", VNone); ("Oper", VText ">="); ("Step", VText "070"); ("Value", VText "4.4")]; VDict [("EndType", VText "Voltage"); ("SpecialType", VNone); ("Oper", VText "<="); ("Step", VText "070"); ("Value", VText "2.5")]])]); ("Reports", VDict [("ReportEntry", VList [VDict [("ReportType", VText "Voltage"); ("Value", VText "0.001")]; VDict [("ReportType", VText "StepTime"); ("Value", VText "00:00:30")]])]); ("Range", VText "A"); ("Option1", VText "N"); ("Option2", VText "N"); ("Option3", VText "N"); ("StepNote", VText "charge for HPPC")].
Definition driving_s34 : val := VDict [("StepType", VText "Do 2"); ("StepMode", VNone); ("StepValue", VNone); ("Limits", VNone); ("Ends", VNone); ("Reports", VNone); ("Range", VNone); ("Option1", VNone); ("Option2", VNone); ("Option3", VNone); ("StepNote", VNone)].
Definition driving_s35 : val := VDict [("StepType", VText "Rest"); ("StepMode", VNone); ("StepValue", VNone); ("Limits", VNone); ("Ends", VDict [("EndEntry", VList [VDict [("EndType", VText "StepTime"); ("SpecialType", VNone); ("Oper", VText "="); ("Step", VText "044"); ("Value", VText "01:00:00")]; VDict [("EndType", VText "Voltage"); ("SpecialType", VNone); ("Oper", VText ">="); ("Step", VText "070"); ("Value", VText "4.4")]; VDict [("EndType", VText "Voltage"); ("SpecialType", VNone); ("Oper", VText "<="); ("Step", VText "070"); ("Value", VText "2.5")]])]); ("Reports", VDict [("ReportEntry", VList [VDict [("ReportType", VText "StepTime"); ("Value", VText "00:00:01")]; VDict [("ReportType", VText "Voltage"); ("Value", VText "1.0E-4")]])]); ("Range", VText "A"); ("Option1", VText "N"); ("Option2", VText "N"); ("Option3", VText "N"); ("StepNote", VNone)].
Definition driving_s36 : val := VDict [("StepType", VText "Dischrge"); ("StepMode", VText "Current"); ("StepValue", VText "3.71"); ("Limits", VNone); ("Ends", VDict [("EndEntry", VList [VDict [("EndType", VText "StepTime"); ("SpecialType", VNone); ("Oper", VText "="); ("Step", VText "045"); ("Value", VText "00:00:30")]; VDict [("EndType", VText "Voltage"); ("SpecialType", VNone); ("Oper", VText "<="); ("Step", VText "049"); ("Value", VText "2.7")]; VDict [("EndType", VText "Voltage"); ("SpecialType", VNone); ("Oper", VText ">="); ("Step", VText "070"); ("Value", VText "4.4")]; VDict [("EndType", VText "Voltage"); ("SpecialType", VNone); ("Oper", VText "<="); ("Step", VText "070"); ("Value", VText "2.5")]])]); ("Reports", VDict [("ReportEntry", VDict [("ReportType", VText "StepTime"); ("Value", VText "::.01")])]); ("Range", VText "A"); ("Option1", VText "N"); ("Option2", VText "N"); ("Option3", VText "N"); ("StepNote", VText "HPPC discharge with pulses")].
Definition driving_s37 : val := VDict [("StepType", VText "Rest"); ("StepMode", VNone); ("StepValue", VNone); ("Limits", VNone); ("Ends", VDict [("EndEntry", VList [VDict [("EndType", VText "StepTime"); ("SpecialType", VNone); ("Oper", VText "="); ("Step", VText "046"); ("Value", VText "00:00:40")]; VDict [("EndType", VText "Voltage"); ("SpecialType", VNone); ("Oper", VText ">="); ("Step", VText "070"); ("Value", VText "4.4")]; VDict [("EndType", VText "Voltage"); ("SpecialType", VNone); ("Oper", VText "<="); ("Step", VText "070"); ("Value", VText "2.5")]])]); ("Reports", VDict [("ReportEntry", VDict [("ReportType", VText "StepTime"); ("Value", VText "::.01")])]); ("Range", VText "A"); ("Option1", VText "N"); ("Option2", VText "N"); ("Option3", VText "N"); ("StepNote", VNone)].
Definition driving_s38 : val := VDict [("StepType", VText "Charge"); ("StepMode", VText "Current"); ("StepValue", VText "2.782"); ("Limits", VNone); ("Ends", VDict [("EndEntry", VList [VDict [("EndType", VText "StepTime"); ("SpecialType", VNone); ("Oper", VText "="); ("Step", VText "047"); ("Value", VText "00:00:10")]; VDict [("EndType", VText "Voltage"); ("SpecialType", VNone); ("Oper", VText ">="); ("Step", VText "047"); ("Value", VText "4.39")]; VDict [("EndType", VText "Voltage"); ("SpecialType", VNone); ("Oper", VText ">="); ("Step", VText "070"); ("Value", VText "4.4")]; VDict [("EndType", VText "Voltage"); ("SpecialType", VNone); ("Oper", VText "<="); ("Step", VText "070"); ("Value", VText "2.5")]])]); ("Reports", VDict [("ReportEntry", VDict [("ReportType", VText "StepTime"); ("Value", VText "::.01")])]); ("Range", VText "A"); ("Option1", VText "N"); ("Option2", VText "N"); ("Option3", VText "N"); ("StepNote", VNone)].
Definition driving_s39 : val := VDict [("StepType", VText "Dischrge"); ("StepMode", VText "Current"); ("StepValue", VText "1.235"); ("Limits", VNone); ("Ends", VDict [("EndEntry", VList [VDict [("EndType", VText "StepTime"); ("SpecialType", VNone); ("Oper", VText "="); ("Step", VText "048"); ("Value", VText "00:18:00")]; VDict [("EndType", VText "Voltage"); ("SpecialType", VNone); ("Oper", VText "<="); ("Step", VText "049"); ("Value", VText "2.7")]; VDict [("EndType", VText "Voltage"); ("SpecialType", VNone); ("Oper", VText ">="); ("Step", VText "070"); ("Value", VText "4.4")]; VDict [("EndType", VText "Voltage"); ("SpecialType", VNone); ("Oper", VText "<="); ("Step", VText "070"); ("Value", VText "2.5")]])]); ("Reports", VDict [("ReportEntry", VList [VDict [("ReportType", VText "StepTime"); ("Value", VText "00:00:30")]; VDict [("ReportType", VText "Voltage"); ("Value", VText "0.001")]])]); ("Range", VText "A"); ("Option1", VText "N"); ("Option2", VText "N"); ("Option3", VText "N"); ("StepNote", VNone)].
Definition driving_s40 : val := VDict [("StepType", VText "Loop 2"); ("StepMode", VNone); ("StepValue", VNone); ("Limits", VNone); ("Ends", VDict [("EndEntry", VDict [("EndType", VText "Loop Cnt"); ("SpecialType", VNone); ("Oper", VText "="); ("Step", VText "049"); ("Value", VText "20")])]); ("Reports", VNone); ("Range", VNone); ("Option1", VNone); ("Option2", VNone); ("Option3", VNone); ("StepNote", VNone)].
Definition driving_s41 : val := VDict [("StepType", VText "Dischrge"); ("StepMode", VText "Voltage"); ("StepValue", VText "2.7"); ("Limits", VDict [("Current", VText "1.235")]); ("Ends", VDict [("EndEntry", VList [VDict [("EndType", VText "Current"); ("SpecialType", VNone); ("Oper", VText "<="); ("Step", VText "050"); ("Value", VText "0.186")]; VDict [("EndType", VText "Voltage"); ("SpecialType", VNone); ("Oper", VText ">="); ("Step", VText "070"); ("Value", VText "4.4")]; VDict [("EndType", VText "Voltage"); ("SpecialType", VNone); ("Oper", VText "<="); ("Step", VText "070"); ("Value", VText "2.5")]])]); ("Reports", VDict [("ReportEntry", VList [VDict [("ReportType", VText "StepTime"); ("Value", VText "00:00:30")]; VDict [("ReportType", VText "Voltage"); ("Value", VText "0.001")]])]); ("Range", VText "A"); ("Option1", VText "N"); ("Option2", VText "N"); ("Option3", VText "N"); ("StepNote", VNone)].
Definition driving_s42 : val := VDict [("StepType", VText "Charge"); ("StepMode", VText "Current"); ("StepValue", VText "0.742"); ("Limits", VDict [("Voltage", VText "4.2")]); ("Ends", VDict [("EndEntry", VList [VDict [("EndType", VText "Current"); ("SpecialType", VNone); ("Oper", VText "<="); ("Step", VText "052"); ("Value", VText "0.186")]; VDict [("EndType", VText "Voltage"); ("SpecialType", VNone); ("Oper", VText ">="); ("Step", VText "070"); ("Value", VText "4.4")]; VDict [("EndType", VText "Voltage"); ("SpecialType", VNone); ("Oper", VText "<="); ("Step", VText "070"); ("Value", VText "2.5")]])]); ("Reports", VDict [("ReportEntry", VList [VDict [("ReportType", VText "Voltage"); ("Value", VText "0.001")]; VDict [("ReportType", VText "StepTime"); ("Value", VText "00:00:30")]])]); ("Range", VText "4"); ("Option1", VText "N"); ("Option2", VText "N"); ("Option3", VText "N"); ("StepNote", VText "RPT C/5")].
Definition driving_s43 : val := VDict [("StepType", VText "Dischrge"); ("StepMode", VText "Current"); ("StepValue", VText "0.742"); ("Limits", VNone); ("Ends", VDict [("EndEntry", VList [VDict [("EndType", VText "Voltage"); ("SpecialType", VNone); ("Oper", VText "<="); ("Step", VText "053"); ("Value", VText "2.7")]; VDict [("EndType", VText "Voltage"); ("SpecialType", VNone); ("Oper", VText ">="); ("Step", VText "070"); ("Value", VText "4.4")]; VDict [("EndType", VText "Voltage"); ("SpecialType", VNone); ("Oper", VText "<="); ("Step", VText "070"); ("Value", VText "2.5")]])]); ("Reports", VDict [("ReportEntry", VList [VDict [("ReportType", VText "Voltage"); ("Value", VText "0.001")]; VDict [("ReportType", VText "StepTime"); ("Value", VText "00:00:30")]])]); ("Range", VText "4"); ("Option1", VText "N"); ("Option2", VText "N"); ("Option3", VText "N"); ("StepNote", VNone)].
Definition driving_s44 : val := VDict [("StepType", VText "Charge"); ("StepMode", VText "Current"); ("StepValue", VText "0.742"); ("Limits", VDict [("Voltage", VText "4.2")]); ("Ends", VDict [("EndEntry", VList [VDict [("EndType", VText "Current"); ("SpecialType", VNone); ("Oper", VText "<="); ("Step", VText "055"); ("Value", VText "0.186")]; VDict [("EndType", VText "Voltage"); ("SpecialType", VNone); ("Oper", VText ">="); ("Step", VText "070"); ("Value", VText "4.4")]; VDict [("EndType", VText "Voltage"); ("SpecialType", VNone); ("Oper", VText "<="); ("Step", VText "070"); ("Value", VText "2.5")]])]); ("Reports", VDict [("ReportEntry", VList [VDict [("ReportType", VText "Voltage"); ("Value", VText "0.001")]; VDict [("ReportType", VText "StepTime"); ("Value", VText "00:00:30")]])]); ("Range", VText "4"); ("Option1", VText "N"); ("Option2", VText "N"); ("Option3", VText "N"); ("StepNote", VText "RPT 1C")].
Definition driving_s45 : val := VDict [("StepType", VText "Dischrge"); ("StepMode", VText "Current"); ("StepValue", VText "3.71"); ("Limits", VNone); ("Ends", VDict [("EndEntry", VList [VDict [("EndType", VText "Voltage"); ("SpecialType", VNone); ("Oper", VText "<="); ("Step", VText "056"); ("Value", VText "2.7")]; VDict [("EndType", VText "Voltage"); ("SpecialType", VNone); ("Oper", VText ">="); ("Step", VText "070"); ("Value", VText "4.4")]; VDict [("EndType", VText "Voltage"); ("SpecialType", VNone); ("Oper", VText "<="); ("Step", VText "070"); ("Value", VText "2.5")]])]); ("Reports", VDict [("ReportEntry", VList [VDict [("ReportType", VText "Voltage"); ("Value", VText "0.001")]; VDict [("ReportType", VText "StepTime"); ("Value", VText "00:00:30")]])]); ("Range", VText "4"); ("Option1", VText "N"); ("Option2", VText "N"); ("Option3", VText "N"); ("StepNote", VNone)].
Definition driving_s46 : val := VDict [("StepType", VText "Charge"); ("StepMode", VText "Current"); ("StepValue", VText "0.742"); ("Limits", VDict [("Voltage", VText "4.2")]); ("Ends", VDict [("EndEntry", VList [VDict [("EndType", VText "Current"); ("SpecialType", VNone); ("Oper", VText "<="); ("Step", VText "058"); ("Value", VText "0.186")]; VDict [("EndType", VText "Voltage"); ("SpecialType", VNone); ("Oper", VText ">="); ("Step", VText "070"); ("Value", VText "4.4")]; VDict [("EndType", VText "Voltage"); ("SpecialType", VNone); ("Oper", VText "<="); ("Step", VText "070"); ("Value", VText "2.5")]])]); ("Reports", VDict [("ReportEntry", VList [VDict [("ReportType", VText "Voltage"); ("Value", VText "0.001")]; VDict [("ReportType", VText "StepTime"); ("Value", VText "00:00:30")]])]); ("Range", VText "4"); ("Option1", VText "N"); ("Option2", VText "N"); ("Option3", VText "N"); ("StepNote", VText "RPT 2C")].
Definition driving_s47 : val := VDict [("StepType", VText "Dischrge"); ("StepMode", VText "Current"); ("StepValue", VText "7.42"); ("Limits", VNone); ("Ends", VDict [("EndEntry", VList [VDict [("EndType", VText "Voltage"); ("SpecialType", VNone); ("Oper", VText "<="); ("Step", VText "059"); ("Value", VText "2.7")]; VDict [("EndType", VText "Voltage"); ("SpecialType", VNone); ("Oper", VText ">="); ("Step", VText "070"); ("Value", VText "4.4")]; VDict [("EndType", VText "Voltage"); ("SpecialType", VNone); ("Oper", VText "<="); ("Step", VText "070"); ("Value", VText "2.5")]])]); ("Reports", VDict [("ReportEntry", VList [VDict [("ReportType", VText "Voltage"); ("Value", VText "0.001")]; VDict [("ReportType", VText "StepTime"); ("Value", VText "00:00:30")]])]); ("Range", VText "4"); ("Option1", VText "N"); ("Option2", VText "N"); ("Option3", VText "N"); ("StepNote", VNone)].
Definition driving_s48 : val := VDict [("StepType", VText "Do 2"); ("StepMode", VNone); ("StepValue", VNone); ("Limits", VNone); ("Ends", VNone); ("Reports", VNone); ("Range", VNone); ("Option1", VNone); ("Option2", VNone); ("Option3", VNone); ("StepNote", VText "regular cycles")].
Definition driving_s49 : val := VDict [("StepType", VText "Charge"); ("StepMode", VText "Current"); ("StepValue", VText "3.71"); ("Limits", VNone); ("Ends", VDict [("EndEntry", VList [VDict [("EndType", VText "StepTime"); ("SpecialType", VNone); ("Oper", VText "="); ("Step", VText "062"); ("Value", VText "00:18:00")]; VDict [("EndType", VText "Voltage"); ("SpecialType", VNone); ("Oper", VText ">="); ("Step", VText "062"); ("Value", VText "4.1")]; VDict [("EndType", VText "Voltage"); ("SpecialType", VNone); ("Oper", VText ">="); ("Step", VText "070"); ("Value", VText "4.4")]; VDict [("EndType", VText "Voltage"); ("SpecialType", VNone); ("Oper", VText "<="); ("Step", VText "070"); ("Value", VText "2.5")]])]); ("Reports", VDict [("ReportEntry", VList [VDict [("ReportType", VText "Voltage"); ("Value", VText "0.005")]; VDict [("ReportType", VText "StepTime"); ("Value", VText "00:00:30")]])]); ("Range", VText "4"); ("Option1", VText "N"); ("Option2", VText "N"); ("Option3", VText "N"); ("StepNote", VNone)].
Definition driving_s50 : val := VDict [("StepType", VText "Charge"); ("StepMode", VText "Current"); ("StepValue", VText "3.71"); ("Limits", VNone); ("Ends", VDict [("EndEntry", VList [VDict [("EndType", VText "Voltage"); ("SpecialType", VNone); ("Oper", VText ">="); ("Step", VText "063"); ("Value", VText "4.1")]; VDict [("EndType", VText "Voltage"); ("SpecialType", VNone); ("Oper", VText ">="); ("Step", VText "070"); ("Value", VText "4.4")]; VDict [("EndType", VText "Voltage"); ("SpecialType", VNone); ("Oper", VText "<="); ("Step", VText "070"); ("Value", VText "2.5")]])]); ("Reports", VDict [("ReportEntry", VList [VDict [("ReportType", VText "Voltage"); ("Value", VText "0.005")]; VDict [("ReportType", VText "StepTime"); ("Value", VText "00:00:30")]])]); ("Range", VText "4"); ("Option1", VText "N"); ("Option2", VText "N"); ("Option3", VText "N"); ("StepNote", VNone)].
Definition driving_s51 : val := VDict [("StepType", VText "Charge"); ("StepMode", VText "Voltage"); ("StepValue", VText "4.1"); ("Limits", VNone); ("Ends", VDict [("EndEntry", VList [VDict [("EndType", VText "StepTime"); ("SpecialType", VNone); ("Oper", VText "="); ("Step", VText "064"); ("Value", VText "00:30:00")]; VDict [("EndType", VText "Voltage"); ("SpecialType", VNone); ("Oper", VText ">="); ("Step", VText "070"); ("Value", VText "4.4")]; VDict [("EndType", VText "Voltage"); ("SpecialType", VNone); ("Oper", VText "<="); ("Step", VText "070"); ("Value", VText "2.5")]])]); ("Reports", VDict [("ReportEntry", VDict [("ReportType", VText "StepTime"); ("Value", VText "00:00:30")])]); ("Range", VText "A"); ("Option1", VText "N"); ("Option2", VText "N"); ("Option3", VText "N"); ("StepNote", VNone)].
Definition driving_s52 : val := VDict [("StepType", VText "Rest"); ("StepMode", VNone); ("StepValue", VNone); ("Limits", VNone); ("Ends", VDict [("EndEntry", VList [VDict [("EndType", VText "StepTime"); ("SpecialType", VNone); ("Oper", VText "="); ("Step", VText "065"); ("Value", VText "00:05:00")]; VDict [("EndType", VText "Voltage"); ("SpecialType", VNone); ("Oper", VText ">="); ("Step", VText "070"); ("Value", VText "4.4")]; VDict [("EndType", VText "Voltage"); ("SpecialType", VNone); ("Oper", VText "<="); ("Step", VText "070"); ("Value", VText "2.5")]])]); ("Reports", VDict [("ReportEntry", VDict [("ReportType", VText "StepTime"); ("Value", VText "00:00:30")])]); ("Range", VText "A"); ("Option1", VText "N"); ("Option2", VText "N"); ("Option3", VText "N"); ("StepNote", VNone)].
Definition driving_s53 : val := VDict [("StepType", VText "Rest"); ("StepMode", VNone); ("StepValue", VNone); ("Limits", VNone); ("Ends", VDict [("EndEntry", VList [VDict [("EndType", VText "StepTime"); ("SpecialType", VNone); ("Oper", VText "="); ("Step", VText "067"); ("Value", VText "00:15:00")]; VDict [("EndType", VText "Voltage"); ("SpecialType", VNone); ("Oper", VText ">="); ("Step", VText "070"); ("Value", VText "4.4")]; VDict [("EndType", VText "Voltage"); ("SpecialType", VNone); ("Oper", VText "<="); ("Step", VText "070"); ("Value", VText "2.5")]])]); ("Reports", VDict [("ReportEntry", VDict [("ReportType", VText "StepTime"); ("Value", VText "00:00:30")])]); ("Range", VText "4"); ("Option1", VText "N"); ("Option2", VText "N"); ("Option3", VText "N"); ("StepNote", VNone)].
Definition driving_s54 : val := VDict [("StepType", VText "Loop 2"); ("StepMode", VNone); ("StepValue", VNone); ("Limits", VNone); ("Ends", VDict [("EndEntry", VDict [("EndType", VText "Loop Cnt"); ("SpecialType", VNone); ("Oper", VText "="); ("Step", VText "069"); ("Value", VText "100")])]); ("Reports", VNone); ("Range", VNone); ("Option1", VNone); ("Option2", VNone); ("Option3", VNone); ("StepNote", VNone)].
Definition driving_s55 : val := VDict [("StepType", VText "Loop 1"); ("StepMode", VNone); ("StepValue", VNone); ("Limits", VNone); ("Ends", VDict [("EndEntry", VDict [("EndType", VText "Loop Cnt"); ("SpecialType", VNone); ("Oper", VText "="); ("Step", VText "070"); ("Value", VText "1000")])]); ("Reports", VNone); ("Range", VNone); ("Option1", VNone); ("Option2", VNone); ("Option3", VNone); ("StepNote", VNone)].
Definition driving_s56 : val := VDict [("StepType", VText "Do 1"); ("StepMode", VNone); ("StepValue", VNone); ("Limits", VNone); ("Ends", VNone); ("Reports", VNone); ("Range", VNone); ("Option1", VNone); ("Option2", VNone); ("Option3", VNone); ("StepNote", VText "These are the 2 reset cycles")].
Definition driving_s57 : val := VDict [("StepType", VText "Charge"); ("StepMode", VText "Current"); ("StepValue", VText "0.5302"); ("Limits", VDict [("Voltage", VText "4.2")]); ("Ends", VDict [("EndEntry", VList [VDict [("EndType", VText "Current"); ("SpecialType", VNone); ("Oper", VText "<="); ("Step", VText "072"); ("Value", VText "0.1061")]; VDict [("EndType", VText "Voltage"); ("SpecialType", VNone); ("Oper", VText ">="); ("Step", VText "070"); ("Value", VText "4.4")]; VDict [("EndType", VText "Voltage"); ("SpecialType", VNone); ("Oper", VText "<="); ("Step", VText "070"); ("Value", VText "2.5")]])]); ("Reports", VDict [("ReportEntry", VList [VDict [("ReportType", VText "Voltage"); ("Value", VText "0.001")]; VDict [("ReportType", VText "StepTime"); ("Value", VText "00:02:00")]])]); ("Range", VText "A"); ("Option1", VText "N"); ("Option2", VText "N"); ("Option3", VText "N"); ("StepNote", VNone)].
Definition driving_s58 : val := VDict [("StepType", VText "Dischrge"); ("StepMode", VText "Current"); ("StepValue", VText "0.5302"); ("Limits", VNone); ("Ends", VDict [("EndEntry", VList [VDict [("EndType", VText "Voltage"); ("SpecialType", VNone); ("Oper", VText "<="); ("Step", VText "073"); ("Value", VText "2.7")]; VDict [("EndType", VText "Voltage"); ("SpecialType", VNone); ("Oper", VText ">="); ("Step", VText "070"); ("Value", VText "4.4")]; VDict [("EndType", VText "Voltage"); ("SpecialType", VNone); ("Oper", VText "<="); ("Step", VText "070"); ("Value", VText "2.5")]])]); ("Reports", VDict [("ReportEntry", VList [VDict [("ReportType", VText "Voltage"); ("Value", VText "0.001")]; VDict [("ReportType", VText "StepTime"); ("Value", VText "00:02:00")]])]); ("Range", VText "A"); ("Option1", VText "N"); ("Option2", VText "N"); ("Option3", VText "N"); ("StepNote", VNone)].
Definition driving_s59 : val := VDict [("StepType", VText "Loop 1"); ("StepMode", VNone); ("StepValue", VNone); ("Limits", VNone); ("Ends", VDict [("EndEntry", VDict [("EndType", VText "Loop Cnt"); ("SpecialType", VNone); ("Oper", VText "="); ("Step", VText "075"); ("Value", VText "2")])]); ("Reports", VNone); ("Range", VNone); ("Option1", VNone); ("Option2", VNone); ("Option3", VNone); ("StepNote", VText "End 2 reset cycles")].
Definition driving_s60 : val := VDict [("StepType", VText "Charge"); ("StepMode", VText "Current"); ("StepValue", VText "1.235"); ("Limits", VDict [("Voltage", VText "4.2")]); ("Ends", VDict [("EndEntry", VList [VDict [("EndType", VText "Current"); ("SpecialType", VNone); ("Oper", VText "<="); ("Step", VText "076"); ("Value", VText "0.186")]; VDict [("EndType", VText "Voltage"); ("SpecialType", VNone); ("Oper", VText ">="); ("Step", VText "070"); ("Value", VText "4.4")]; VDict [("EndType", VText "Voltage"); ("SpecialType", VNone); ("Oper", VText "<="); ("Step", VText "070"); ("Value", VText "2.5")]])]); ("Reports", VDict [("ReportEntry", VList [VDict [("ReportType", VText "Voltage"); ("Value", VText "0.001")]; VDict [("ReportType", VText "StepTime"); ("Value", VText "00:00:30")]])]); ("Range", VText "A"); ("Option1", VText "N"); ("Option2", VText "N"); ("Option3", VText "N"); ("StepNote", VText "Charging it up for the HPPC")].
Definition driving_s61 : val := VDict [("StepType", VText "Do 1"); ("StepMode", VNone); ("StepValue", VNone); ("Limits", VNone); ("Ends", VNone); ("Reports", VNone); ("Range", VNone); ("Option1", VNone); ("Option2", VNone); ("Option3", VNone); ("StepNote", VText "Perform HPPC until condition reached")].
Definition driving_s62 : val := VDict [("StepType", VText "Rest"); ("StepMode", VNone); ("StepValue", VNone); ("Limits", VNone); ("Ends", VDict [("EndEntry", VList [VDict [("EndType", VText "StepTime"); ("SpecialType", VNone); ("Oper", VText "="); ("Step", VText "078"); ("Value", VText "01:00:00")]; VDict [("EndType", VText "Voltage"); ("SpecialType", VNone); ("Oper", VText ">="); ("Step", VText "070"); ("Value", VText "4.4")]; VDict [("EndType", VText "Voltage"); ("SpecialType", VNone); ("Oper", VText "<="); ("Step", VText "070"); ("Value", VText "2.5")]])]); ("Reports", VDict [("ReportEntry", VList [VDict [("ReportType", VText "StepTime"); ("Value", VText "00:00:01")]; VDict [("ReportType", VText "Voltage"); ("Value", VText "1.0E-4")]])]); ("Range", VText "A"); ("Option1", VText "N"); ("Option2", VText "N"); ("Option3", VText "N"); ("StepNote", VNone)].
Definition driving_s63 : val := VDict [("StepType", VText "Dischrge"); ("StepMode", VText "Current"); ("StepValue", VText "3.71"); ("Limits", VNone); ("Ends", VDict [("EndEntry", VList [VDict [("EndType", VText "StepTime"); ("SpecialType", VNone); ("Oper", VText "="); ("Step", VText "079"); ("Value", VText "00:00:30")]; VDict [("EndType", VText "Voltage"); ("SpecialType", VNone); ("Oper", VText "<="); ("Step", VText "083"); ("Value", VText "2.7")]; VDict [("EndType", VText "Voltage"); ("SpecialType", VNone); ("Oper", VText ">="); ("Step", VText "070"); ("Value", VText "4.4")]; VDict [("EndType", VText "Voltage"); ("SpecialType", VNone); ("Oper", VText "<="); ("Step", VText "070"); ("Value", VText "2.5")]])]); ("Reports", VDict [("ReportEntry", VDict [("ReportType", VText "StepTime"); ("Value", VText "::.01")])]); ("Range", VText "A"); ("Option1", VText "N"); ("Option2", VText "N"); ("Option3", VText "N"); ("StepNote", VNone)].
Definition driving_s64 : val := VDict [("StepType", VText "Rest"); ("StepMode", VNone); ("StepValue", VNone); ("Limits", VNone); ("Ends", VDict [("EndEntry", VList [VDict [("EndType", VText "StepTime"); ("SpecialType", VNone); ("Oper", VText "="); ("Step", VText "080"); ("Value", VText "00:00:40")]; VDict [("EndType", VText "Voltage"); ("SpecialType", VNone); ("Oper", VText ">="); ("Step", VText "070"); ("Value", VText "4.4")]; VDict [("EndType", VText "Voltage"); ("SpecialType", VNone); ("Oper", VText "<="); ("Step", VText "070"); ("Value", VText "2.5")]])]); ("Reports", VDict [("ReportEntry", VDict [("ReportType", VText "StepTime"); ("Value", VText "::.01")])]); ("Range", VText "A"); ("Option1", VText "N"); ("Option2", VText "N"); ("Option3", VText "N"); ("StepNote", VNone)].
Definition driving_s65 : val := VDict [("StepType", VText "Charge"); ("StepMode", VText "Current"); ("StepValue", VText "2.782"); ("Limits", VNone); ("Ends", VDict [("EndEntry", VList [VDict [("EndType", VText "StepTime"); ("SpecialType", VNone); ("Oper", VText "="); ("Step", VText "081"); ("Value", VText "00:00:10")]; VDict [("EndType", VText "Voltage"); ("SpecialType", VNone); ("Oper", VText ">="); ("Step", VText "081"); ("Value", VText "4.39")]; VDict [("EndType", VText "Voltage"); ("SpecialType", VNone); ("Oper", VText ">="); ("Step", VText "070"); ("Value", VText "4.4")]; VDict [("EndType", VText "Voltage"); ("SpecialType", VNone); ("Oper", VText "<="); ("Step", VText "070"); ("Value", VText "2.5")]])]); ("Reports", VDict [("ReportEntry", VDict [("ReportType", VText "StepTime"); ("Value", VText "::.01")])]); ("Range", VText "A"); ("Option1", VText "N"); ("Option2", VText "N"); ("Option3", VText "N"); ("StepNote", VNone)].
Definition driving_s66 : val := VDict [("StepType", VText "Dischrge"); ("StepMode", VText "Current"); ("StepValue", VText "1.235"); ("Limits", VNone); ("Ends", VDict [("EndEntry", VList [VDict [("EndType", VText "StepTime"); ("SpecialType", VNone); ("Oper", VText "="); ("Step", VText "082"); ("Value", VText "00:18:00")]; VDict [("EndType", VText "Voltage"); ("SpecialType", VNone); ("Oper", VText "<="); ("Step", VText "083"); ("Value", VText "2.7")]; VDict [("EndType", VText "Voltage"); ("SpecialType", VNone); ("Oper", VText ">="); ("Step", VText "070"); ("Value", VText "4.4")]; VDict [("EndType", VText "Voltage"); ("SpecialType", VNone); ("Oper", VText "<="); ("Step", VText "070"); ("Value", VText "2.5")]])]); ("Reports", VDict [("ReportEntry", VList [VDict [("ReportType", VText "StepTime"); ("Value", VText "00:00:30")]; VDict [("ReportType", VText "Voltage"); ("Value", VText "0.001")]])]); ("Range", VText "A"); ("Option1", VText "N"); ("Option2", VText "N"); ("Option3", VText "N"); ("StepNote", VNone)].
Definition driving_s67 : val := VDict [("StepType", VText "Loop 1"); ("StepMode", VNone); ("StepValue", VNone); ("Limits", VNone); ("Ends", VDict [("EndEntry", VDict [("EndType", VText "Loop Cnt"); ("SpecialType", VNone); ("Oper", VText "="); ("Step", VText "083"); ("Value", VText "20")])]); ("Reports", VNone); ("Range", VNone); ("Option1", VNone); ("Option2", VNone); ("Option3", VNone); ("StepNote", VText "End of HPPC")].
Definition driving_s68 : val := VDict [("StepType", VText "Dischrge"); ("StepMode", VText "Voltage"); ("StepValue", VText "2.7"); ("Limits", VDict [("Current", VText "1.235")]); ("Ends", VDict [("EndEntry", VList [VDict [("EndType", VText "Current"); ("SpecialType", VNone); ("Oper", VText "<="); ("Step", VText "084"); ("Value", VText "0.186")]; VDict [("EndType", VText "Voltage"); ("SpecialType", VNone); ("Oper", VText ">="); ("Step", VText "070"); ("Value", VText "4.4")]; VDict [("EndType", VText "Voltage"); ("SpecialType", VNone); ("Oper", VText "<="); ("Step", VText "070"); ("Value", VText "2.5")]])]); ("Reports", VDict [("ReportEntry", VList [VDict [("ReportType", VText "StepTime"); ("Value", VText "00:00:30")]; VDict [("ReportType", VText "Voltage"); ("Value", VText "0.001")]])]); ("Range", VText "A"); ("Option1", VText "N"); ("Option2", VText "N"); ("Option3", VText "N"); ("StepNote", VText "Discharge for rate test")].
Definition driving_s69 : val := VDict [("StepType", VText "Charge"); ("StepMode", VText "Current"); ("StepValue", VText "0.742"); ("Limits", VDict [("Voltage", VText "4.2")]); ("Ends", VDict [("EndEntry", VList [VDict [("EndType", VText "Current"); ("SpecialType", VNone); ("Oper", VText "<="); ("Step", VText "086"); ("Value", VText "0.186")]; VDict [("EndType", VText "Voltage"); ("SpecialType", VNone); ("Oper", VText ">="); ("Step", VText "070"); ("Value", VText "4.4")]; VDict [("EndType", VText "Voltage"); ("SpecialType", VNone); ("Oper", VText "<="); ("Step", VText "070"); ("Value", VText "2.5")]])]); ("Reports", VDict [("ReportEntry", VList [VDict [("ReportType", VText "Voltage"); ("Value", VText "0.001")]; VDict [("ReportType", VText "StepTime"); ("Value", VText "00:00:30")]])]); ("Range", VText "4"); ("Option1", VText "N"); ("Option2", VText "N"); ("Option3", VText "N"); ("StepNote", VText "Rate test 1")].
Definition driving_s70 : val := VDict [("StepType", VText "Dischrge"); ("StepMode", VText "Current"); ("StepValue", VText "0.742"); ("Limits", VNone); ("Ends", VDict [("EndEntry", VList [VDict [("EndType", VText "Voltage"); ("SpecialType", VNone); ("Oper", VText "<="); ("Step", VText "087"); ("Value", VText "2.7")]; VDict [("EndType", VText "Voltage"); ("SpecialType", VNone); ("Oper", VText ">="); ("Step", VText "070"); ("Value", VText "4.4")]; VDict [("EndType", VText "Voltage"); ("SpecialType", VNone); ("Oper", VText "<="); ("Step", VText "070"); ("Value", VText "2.5")]])]); ("Reports", VDict [("ReportEntry", VList [VDict [("ReportType", VText "Voltage"); ("Value", VText "0.001")]; VDict [("ReportType", VText "StepTime"); ("Value", VText "00:00:30")]])]); ("Range", VText "4"); ("Option1", VText "N"); ("Option2", VText "N"); ("Option3", VText "N"); ("StepNote", VNone)].
Definition driving_s71 : val := VDict [("StepType", VText "Charge"); ("StepMode", VText "Current"); ("StepValue", VText "0.742"); ("Limits", VDict [("Voltage", VText "4.2")]); ("Ends", VDict [("EndEntry", VList [VDict [("EndType", VText "Current"); ("SpecialType", VNone); ("Oper", VText "<="); ("Step", VText "089"); ("Value", VText "0.186")]; VDict [("EndType", VText "Voltage"); ("SpecialType", VNone); ("Oper", VText ">="); ("Step", VText "070"); ("Value", VText "4.4")]; VDict [("EndType", VText "Voltage"); ("SpecialType", VNone); ("Oper", VText "<="); ("Step", VText "070"); ("Value", VText "2.5")]])]); ("Reports", VDict [("ReportEntry", VList [VDict [("ReportType", VText "Voltage"); ("Value", VText "0.001")]; VDict [("ReportType", VText "StepTime"); ("Value", VText "00:00:30")]])]); ("Range", VText "4"); ("Option1", VText "N"); ("Option2", VText "N"); ("Option3", VText "N"); ("StepNote", VText "Rate test 2")].
Definition driving_s72 : val := VDict [("StepType", VText "Dischrge"); ("StepMode", VText "Current"); ("StepValue", VText "3.71"); ("Limits", VNone); ("Ends", VDict [("EndEntry", VList [VDict [("EndType", VText "Voltage"); ("SpecialType", VNone); ("Oper", VText "<="); ("Step", VText "090"); ("Value", VText "2.7")]; VDict [("EndType", VText "Voltage"); ("SpecialType", VNone); ("Oper", VText ">="); ("Step", VText "070"); ("Value", VText "4.4")]; VDict [("EndType", VText "Voltage"); ("SpecialType", VNone); ("Oper", VText "<="); ("Step", VText "070"); ("Value", VText "2.5")]])]); ("Reports", VDict [("ReportEntry", VList [VDict [("ReportType", VText "Voltage"); ("Value", VText "0.001")]; VDict [("ReportType", VText "StepTime"); ("Value", VText "00:00:30")]])]); ("Range", VText "4"); ("Option1", VText "N"); ("Option2", VText "N"); ("Option3", VText "N"); ("StepNote", VNone)].
Definition driving_s73 : val := VDict [("StepType", VText "Charge"); ("StepMode", VText "Current"); ("StepValue", VText "0.742"); ("Limits", VDict [("Voltage", VText "4.2")]); ("Ends", VDict [("EndEntry", VList [VDict [("EndType", VText "Current"); ("SpecialType", VNone); ("Oper", VText "<="); ("Step", VText "092"); ("Value", VText "0.186")]; VDict [("EndType", VText "Voltage"); ("SpecialType", VNone); ("Oper", VText ">="); ("Step", VText "070"); ("Value", VText "4.4")]; VDict [("EndType", VText "Voltage"); ("SpecialType", VNone); ("Oper", VText "<="); ("Step", VText "070"); ("Value", VText "2.5")]])]); ("Reports", VDict [("ReportEntry", VList [VDict [("ReportType", VText "Voltage"); ("Value", VText "0.001")]; VDict [("ReportType", VText "StepTime"); ("Value", VText "00:00:30")]])]); ("Range", VText "4"); ("Option1", VText "N"); ("Option2", VText "N"); ("Option3", VText "N"); ("StepNote", VText "Rate test 3")].
Definition driving_s74 : val := VDict [("StepType", VText "Dischrge"); ("StepMode", VText "Current"); ("StepValue", VText "7.42"); ("Limits", VNone); ("Ends", VDict [("EndEntry", VList [VDict [("EndType", VText "Voltage"); ("SpecialType", VNone); ("Oper", VText "<="); ("Step", VText "093"); ("Value", VText "2.7")]; VDict [("EndType", VText "Voltage"); ("SpecialType", VNone); ("Oper", VText ">="); ("Step", VText "070"); ("Value", VText "4.4")]; VDict [("EndType", VText "Voltage"); ("SpecialType", VNone); ("Oper", VText "<="); ("Step", VText "070"); ("Value", VText "2.5")]])]); ("Reports", VDict [("ReportEntry", VList [VDict [("ReportType", VText "Voltage"); ("Value", VText "0.001")]; VDict [("ReportType", VText "StepTime"); ("Value", VText "00:00:30")]])]); ("Range", VText "4"); ("Option1", VText "N"); ("Option2", VText "N"); ("Option3", VText "N"); ("StepNote", VNone)].
Definition driving_s75 : val := VDict [("StepType", VText "AdvCycle"); ("StepMode", VNone); ("StepValue", VNone); ("Limits", VNone); ("Ends", VNone); ("Reports", VNone); ("Range", VNone); ("Option1", VNone); ("Option2", VNone); ("Option3", VNone); ("StepNote", VText "Diagnostic cycle ends here")].
Definition driving_s76 : val := VDict [("StepType", VText "Dischrge"); ("StepMode", VText "Current"); ("StepValue", VText "1.855"); ("Limits", VDict [("Voltage", VText "2.7")]); ("Ends", VDict [("EndEntry", VList [VDict [("EndType", VText "Current"); ("SpecialType", VNone); ("Oper", VText "<="); ("Step", VText "095"); ("Value", VText "0.186")]; VDict [("EndType", VText "Voltage"); ("SpecialType", VNone); ("Oper", VText ">="); ("Step", VText "070"); ("Value", VText "4.4")]; VDict [("EndType", VText "Voltage"); ("SpecialType", VNone); ("Oper", VText "<="); ("Step", VText "070"); ("Value", VText "2.5")]])]); ("Reports", VDict [("ReportEntry", VList [VDict [("ReportType", VText "Voltage"); ("Value", VText "0.005")]; VDict [("ReportType", VText "StepTime"); ("Value", VText "00:00:30")]])]); ("Range", VText "4"); ("Option1", VText "N"); ("Option2", VText "N"); ("Option3", VText "N"); ("StepNote", VText "Discharge and charge for storage")].
Definition driving_s77 : val := VDict [("StepType", VText "Charge"); ("StepMode", VText "Current"); ("StepValue", VText "1.855"); ("Limits", VNone); ("Ends", VDict [("EndEntry", VList [VDict [("EndType", VText "StepTime"); ("SpecialType", VNone); ("Oper", VText "="); ("Step", VText "096"); ("Value", VText "00:12:00")]; VDict [("EndType", VText "Voltage"); ("SpecialType", VNone); ("Oper", VText ">="); ("Step", VText "070"); ("Value", VText "4.4")]; VDict [("EndType", VText "Voltage"); ("SpecialType", VNone); ("Oper", VText "<="); ("Step", VText "070"); ("Value", VText "2.5")]])]); ("Reports", VDict [("ReportEntry", VList [VDict [("ReportType", VText "StepTime"); ("Value", VText "00:00:30")]; VDict [("ReportType", VText "Voltage"); ("Value", VText "0.005")]])]); ("Range", VText "4"); ("Option1", VText "N"); ("Option2", VText "N"); ("Option3", VText "N"); ("StepNote", VNone)].
Definition driving_s78 : val := VDict [("StepType", VText "End"); ("StepMode", VNone); ("StepValue", VNone); ("Limits", VNone); ("Ends", VNone); ("Reports", VNone); ("Range", VNone); ("Option1", VNone); ("Option2", VNone); ("Option3", VNone); ("StepNote", VNone)].
Definition template_driving : steps :=
  [driving_s0; driving_s1; driving_s2; driving_s3; driving_s4; driving_s5; driving_s6; driving_s7; driving_s8; driving_s3; driving_s9; driving_s10; driving_s11; driving_s12; driving_s13; driving_s14; driving_s15; driving_s6; driving_s16; driving_s17; driving_s6; driving_s18; driving_s19; driving_s6; driving_s20; driving_s21; driving_s6; driving_s22; driving_s23; driving_s24; driving_s25; driving_s26; driving_s27; driving_s28; driving_s6; driving_s29; driving_s30; driving_s31; driving_s32; driving_s6; driving_s33; driving_s34; driving_s35; driving_s36; driving_s37; driving_s38; driving_s39; driving_s40; driving_s41; driving_s6; driving_s42; driving_s43; driving_s6; driving_s44; driving_s45; driving_s6; driving_s46; driving_s47; driving_s6; driving_s48; driving_s49; driving_s50; driving_s51; driving_s52; driving_s27; driving_s53; driving_s6; driving_s54; driving_s55; driving_s56; driving_s57; driving_s58; driving_s6; driving_s59; driving_s60; driving_s61; driving_s62; driving_s63; driving_s64; driving_s65; driving_s66; driving_s67; driving_s68; driving_s6; driving_s69; driving_s70; driving_s6; driving_s71; driving_s72; driving_s6; driving_s73; driving_s74; driving_s75; driving_s76; driving_s77; driving_s78].
