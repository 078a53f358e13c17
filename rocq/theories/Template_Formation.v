(** The settings file beep/protocol/biologic_templates/formationV1.mps (all 90 lines, the last one empty),
    cell by cell; bytes outside ASCII are given by their number. *)
From Verif Require Import Py Spec_Mps.
Local Open Scope string_scope.

Definition formation_v1 : file :=
  {| f_before :=
      ["BT-LAB SETTING FILE";
       "";
       "Number of linked techniques : 1";
       "";
       "Filename : C:\Users\User\Documents\BT-Lab\Data\formation_Xiao_081420.mps";
       "";
       "Device : BCS-815";
       "Ecell ctrl range : min = 0.00 V, max = 9.00 V";
       "Electrode material : ";
       "Initial state : ";
       "Electrolyte : ";
       "Comments : ";
       "Mass of active material : 0.001 mg";
       " at x = 0.000";
       "Molecular weight of active material (at x = 0) : 0.001 g/mol";
       "Atomic weight of intercalated ion : 0.001 g/mol";
       "Acquisition started at : xo = 0.000";
       "Number of e- transfered per intercalated ion : 1";
       "for DX = 1, DQ = 26.802 mA.h";
       "Battery capacity : 200.000 mA.h";
       ("Electrode surface area : 0.001 cm" ++ (String (ascii_of_nat 178) ""));
       "Characteristic mass : 0.001 g";
       "Cycle Definition : Charge/Discharge alternance";
       "Do not turn to OCV between techniques";
       ""];
     f_num := "1"; f_kind := "Modulo Bat";
     f_names :=
      ["Ns"; "ctrl_type"; "Apply I/C"; "ctrl1_val"; "ctrl1_val_unit"; "ctrl1_val_vs"; "ctrl2_val"; "ctrl2_val_unit"; "ctrl2_val_vs"; "ctrl3_val"; "ctrl3_val_unit"; "ctrl3_val_vs"; "N"; "charge/discharge"; "ctrl_seq"; "ctrl_repeat"; "ctrl_trigger"; "ctrl_TO_t"; "ctrl_TO_t_unit"; "ctrl_Nd"; "ctrl_Na"; "ctrl_corr"; "lim_nb"; "lim1_type"; "lim1_comp"; "lim1_Q"; "lim1_value"; "lim1_value_unit"; "lim1_action"; "lim1_seq"; "lim2_type"; "lim2_comp"; "lim2_Q"; "lim2_value"; "lim2_value_unit"; "lim2_action"; "lim2_seq"; "lim3_type"; "lim3_comp"; "lim3_Q"; "lim3_value"; "lim3_value_unit"; "lim3_action"; "lim3_seq"; "rec_nb"; "rec1_type"; "rec1_value"; "rec1_value_unit"; "rec2_type"; "rec2_value"; "rec2_value_unit"; "rec3_type"; "rec3_value"; "rec3_value_unit"; "E range min (V)"; "E range max (V)"; "I Range"; "I Range min"; "I Range max"; "I Range init"; "auto rest"; "Bandwidth"];
     f_seqs :=
      [["0"; "Rest"; "I"; ""; ""; ""; ""; ""; ""; ""; ""; ""; "1.00"; "Charge"; "0"; "0"; "Falling Edge"; "0.000"; "d"; "6"; "1"; "1"; "1"; "Time"; ">"; "Q limit"; "1.000"; "h"; "Next sequence"; "1"; "Time"; "<"; "Q limit"; "0.000"; "s"; "Next sequence"; "1"; "Time"; "<"; "Q limit"; "0.000"; "s"; "Next sequence"; "1"; "1"; "Time"; "1.000"; "s"; "Time"; "0.000"; "s"; "Time"; "0.000"; "s"; "0.000"; "9.000"; "10 mA"; "Unset"; "Unset"; "Unset"; "0"; "4"];
       ["1"; "CC"; "I"; "0.100"; "A"; "<None>"; ""; ""; ""; ""; ""; ""; "1.00"; "Charge"; "0"; "0"; "Falling Edge"; "0.000"; "d"; "6"; "1"; "1"; "1"; "Ecell"; ">"; "Q limit"; "3.700"; "V"; "Next sequence"; "2"; "Time"; "<"; "Q limit"; "0.000"; "s"; "Next sequence"; "2"; "Time"; "<"; "Q limit"; "0.000"; "s"; "Next sequence"; "2"; "1"; "Time"; "0.002"; "s"; "Time"; "0.000"; "s"; "Time"; "0.000"; "s"; "0.000"; "9.000"; "10 A"; "Unset"; "Unset"; "Unset"; "0"; "4"];
       ["2"; "CV"; "I"; "3.700"; "V"; "Ref"; ""; ""; ""; ""; ""; ""; "1.00"; "Charge"; "0"; "0"; "Falling Edge"; "0.000"; "d"; "6"; "1"; "1"; "1"; "Time"; ">"; "Q limit"; "60.000"; "mn"; "Next sequence"; "3"; "Time"; "<"; "Q limit"; "0.000"; "s"; "Next sequence"; "3"; "Time"; "<"; "Q limit"; "0.000"; "s"; "Next sequence"; "3"; "1"; "Time"; "0.002"; "s"; "Time"; "0.000"; "s"; "Time"; "0.000"; "s"; "0.000"; "9.000"; "10 A"; "Unset"; "Unset"; "Unset"; "0"; "4"];
       ["3"; "Rest"; "I"; ""; ""; ""; ""; ""; ""; ""; ""; ""; "1.00"; "Charge"; "0"; "0"; "Falling Edge"; "0.000"; "d"; "6"; "1"; "1"; "1"; "Time"; ">"; "Q limit"; "30.000"; "mn"; "Next sequence"; "4"; "Time"; "<"; "Q limit"; "0.000"; "s"; "Next sequence"; "4"; "Time"; "<"; "Q limit"; "0.000"; "s"; "Next sequence"; "4"; "1"; "Time"; "0.002"; "s"; "Time"; "0.000"; "s"; "Time"; "0.000"; "s"; "0.000"; "9.000"; "100 mA"; "Unset"; "Unset"; "Unset"; "0"; "4"];
       ["4"; "CC"; "I"; "0.200"; "A"; "<None>"; ""; ""; ""; ""; ""; ""; "1.00"; "Charge"; "0"; "0"; "Falling Edge"; "0.000"; "d"; "6"; "1"; "1"; "1"; "Ecell"; ">"; "Q limit"; "4.000"; "V"; "Next sequence"; "5"; "Time"; "<"; "Q limit"; "0.000"; "s"; "Next sequence"; "5"; "Time"; "<"; "Q limit"; "0.000"; "s"; "Next sequence"; "5"; "1"; "Time"; "0.010"; "s"; "Time"; "0.000"; "s"; "Time"; "0.000"; "s"; "0.000"; "9.000"; "10 A"; "Unset"; "Unset"; "Unset"; "0"; "4"];
       ["5"; "CV"; "I"; "4.000"; "V"; "Ref"; ""; ""; ""; ""; ""; ""; "1.00"; "Charge"; "0"; "0"; "Falling Edge"; "0.000"; "d"; "6"; "1"; "1"; "1"; "Time"; ">"; "Q limit"; "30.000"; "mn"; "Next sequence"; "6"; "Time"; "<"; "Q limit"; "0.000"; "s"; "Next sequence"; "6"; "Time"; "<"; "Q limit"; "0.000"; "s"; "Next sequence"; "6"; "1"; "Time"; "0.002"; "s"; "Time"; "0.000"; "s"; "Time"; "0.000"; "s"; "0.000"; "9.000"; "10 A"; "Unset"; "Unset"; "Unset"; "0"; "4"];
       ["6"; "Rest"; "I"; ""; ""; ""; ""; ""; ""; ""; ""; ""; "1.00"; "Charge"; "0"; "0"; "Falling Edge"; "0.000"; "d"; "6"; "1"; "1"; "1"; "Time"; ">"; "Q limit"; "30.000"; "mn"; "Next sequence"; "7"; "Time"; "<"; "Q limit"; "0.000"; "s"; "Next sequence"; "7"; "Time"; "<"; "Q limit"; "0.000"; "s"; "Next sequence"; "7"; "1"; "Time"; "0.002"; "s"; "Time"; "0.000"; "s"; "Time"; "0.000"; "s"; "0.000"; "9.000"; "10 mA"; "Unset"; "Unset"; "Unset"; "0"; "4"];
       ["7"; "CC"; "I"; "0.200"; "A"; "<None>"; ""; ""; ""; ""; ""; ""; "1.00"; "Discharge"; "0"; "0"; "Falling Edge"; "0.000"; "d"; "6"; "1"; "1"; "1"; "Ecell"; "<"; "Q limit"; "3.000"; "V"; "Next sequence"; "8"; "Time"; "<"; "Q limit"; "0.000"; "s"; "Next sequence"; "8"; "Time"; "<"; "Q limit"; "0.000"; "s"; "Next sequence"; "8"; "1"; "Time"; "0.002"; "s"; "Time"; "0.000"; "s"; "Time"; "0.000"; "s"; "0.000"; "9.000"; "10 A"; "Unset"; "Unset"; "Unset"; "0"; "4"];
       ["8"; "CC"; "I"; "0.500"; "A"; "<None>"; ""; ""; ""; ""; ""; ""; "1.00"; "Charge"; "0"; "0"; "Falling Edge"; "0.000"; "d"; "6"; "1"; "1"; "1"; "Ecell"; ">"; "Q limit"; "4.100"; "V"; "Next sequence"; "9"; "Time"; "<"; "Q limit"; "0.000"; "s"; "Next sequence"; "9"; "Time"; "<"; "Q limit"; "0.000"; "s"; "Next sequence"; "9"; "1"; "Time"; "0.002"; "s"; "Time"; "0.000"; "s"; "Time"; "0.000"; "s"; "0.000"; "9.000"; "10 A"; "Unset"; "Unset"; "Unset"; "0"; "4"];
       ["9"; "CC"; "I"; "0.500"; "A"; "<None>"; ""; ""; ""; ""; ""; ""; "1.00"; "Discharge"; "0"; "0"; "Falling Edge"; "0.000"; "d"; "6"; "1"; "1"; "1"; "Ecell"; "<"; "Q limit"; "3.800"; "V"; "Next sequence"; "10"; "Time"; "<"; "Q limit"; "0.000"; "s"; "Next sequence"; "10"; "Time"; "<"; "Q limit"; "0.000"; "s"; "Next sequence"; "10"; "1"; "Time"; "0.002"; "s"; "Time"; "0.000"; "s"; "Time"; "0.000"; "s"; "0.000"; "9.000"; "10 A"; "Unset"; "Unset"; "Unset"; "0"; "4"];
       ["10"; "Loop"; "I"; "0.500"; ""; ""; ""; ""; ""; ""; ""; ""; "1.00"; "Discharge"; "8"; "1"; "Falling Edge"; "0.000"; "d"; "6"; "1"; "1"; "0"; "Ecell"; "<"; "Q limit"; "3.800"; "V"; "Next sequence"; "11"; "Time"; "<"; "Q limit"; "0.000"; "s"; "Next sequence"; "11"; "Time"; "<"; "Q limit"; "0.000"; "s"; "Next sequence"; "11"; "0"; "Time"; "0.001"; "s"; "Time"; "0.000"; "s"; "Time"; "0.000"; "s"; "0.000"; "9.000"; "10 mA"; "Unset"; "Unset"; "Unset"; "0"; "4"];
       ["11"; "CC"; "I"; "1.000"; "A"; "<None>"; ""; ""; ""; ""; ""; ""; "1.00"; "Charge"; "8"; "1"; "Falling Edge"; "0.000"; "d"; "6"; "1"; "1"; "1"; "Ecell"; ">"; "Q limit"; "4.200"; "V"; "Next sequence"; "12"; "Time"; "<"; "Q limit"; "0.000"; "s"; "Next sequence"; "12"; "Time"; "<"; "Q limit"; "0.000"; "s"; "Next sequence"; "12"; "1"; "Time"; "0.002"; "s"; "Time"; "0.000"; "s"; "Time"; "0.000"; "s"; "0.000"; "9.000"; "10 A"; "Unset"; "Unset"; "Unset"; "0"; "4"];
       ["12"; "CC"; "I"; "1.000"; "A"; "<None>"; ""; ""; ""; ""; ""; ""; "1.00"; "Discharge"; "8"; "1"; "Falling Edge"; "0.000"; "d"; "6"; "1"; "1"; "1"; "Ecell"; "<"; "Q limit"; "3.500"; "V"; "Next sequence"; "13"; "Time"; "<"; "Q limit"; "0.000"; "s"; "Next sequence"; "13"; "Time"; "<"; "Q limit"; "0.000"; "s"; "Next sequence"; "13"; "1"; "Time"; "0.002"; "s"; "Time"; "0.000"; "s"; "Time"; "0.000"; "s"; "0.000"; "9.000"; "10 A"; "Unset"; "Unset"; "Unset"; "0"; "4"];
       ["13"; "CV"; "I"; "3.500"; "V"; "Ref"; ""; ""; ""; ""; ""; ""; "1.00"; "Discharge"; "8"; "1"; "Falling Edge"; "0.000"; "d"; "6"; "1"; "1"; "1"; "Time"; ">"; "Q limit"; "5.000"; "mn"; "Stop"; "9999"; "Time"; "<"; "Q limit"; "0.000"; "s"; "Next sequence"; "14"; "Time"; "<"; "Q limit"; "0.000"; "s"; "Next sequence"; "14"; "1"; "Time"; "0.002"; "s"; "Time"; "0.000"; "s"; "Time"; "0.000"; "s"; "0.000"; "9.000"; "10 A"; "Unset"; "Unset"; "Unset"; "0"; "4"]];
     f_after := [""] |}.
