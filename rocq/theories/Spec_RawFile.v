(** What is expected of the readers of raw Maccor and Arbin files. *)
From Verif Require Import Py Spec_Numeral Spec_Maccor Spec_Cmd Model_Stamp Spec_Stamp Model_RawFile.

(** ** Header line of a Maccor file *)
Definition blank_char (c : ascii) : Prop := In (nat_of_ascii c) [9; 10; 11; 12; 13; 28; 29; 30; 31; 32; 133; 160]%nat.
Definition all_blank (s : string) : Prop := forall c, In c (list_ascii_of_string s) -> blank_char c.
(** No blank at either end. *)
Definition tidy (v : string) : Prop :=
  (forall c r, v = String c r -> ~ blank_char c) /\ (forall a c, v = (a ++ String c "")%string -> ~ blank_char c).
(** [t] is the value [v] with blanks around it. *)
Definition holds (t v : string) : Prop := tidy v /\ exists a b, all_blank a /\ all_blank b /\ t = (a ++ v ++ b)%string.
Definition header_line (today test filename procedure barcode : string) : list (string * string) :=
  [("Today's Date", today); ("Date of Test:", test); ("Filename:", filename); ("Procedure:", procedure); ("Comment/Barcode:", barcode)]%string.
(** A file name with an extension. *)
Definition file_name (dir stem ext : string) : string := (dir ++ "/" ++ stem ++ "." ++ ext)%string.
Definition good_name (stem ext : string) : Prop :=
  slash_free stem /\ slash_free ext /\ dot_free ext /\ exists c, In c (list_ascii_of_string stem) /\ c <> "."%char.

(** ** Validation schema *)
Definition arbin_schema_file (project : string) : string :=
  if existsb (String.eqb project) ["Iris"; "xIris"]%string then "schema-arbin-nmc-phev.yaml"
  else if existsb (String.eqb project) ["Talos"; "PriorLAMVal"; "LAMVal"]%string then "schema-arbin-18650-2170.yaml"
  else "schema-arbin-lfp.yaml".
Definition plain_project (p : string) : Prop := contains "_" p = false /\ slash_free p.

(** ** Columns *)
(** The name of a column of the file in the result. *)
Definition result_name (columns : list (string * string)) (k : string) : string :=
  match find (fun p => String.eqb (fst p) (lower k)) columns with Some (_, n) => n | None => lower k end.
(** [c'] is the column [c] as the type of the column has it. *)
Definition converted {V} (cast : string -> list V -> result (list V)) (types : list (string * string)) (k : string) (c c' : list V) : Prop :=
  match sget types k with Some ty => cast ty c = Ok c' | None => c' = c end.
Definition added : list string :=
  ["charge_capacity"; "discharge_capacity"; "charge_energy"; "discharge_energy"; "date_time_iso"]%string.

(** ** Spectra *)
(** The files next to [stem].[ext] that belong to it. *)
Definition spectrum_of (stem ext name : string) : Prop := exists mid, name = (stem ++ "." ++ mid ++ "." ++ ext)%string.
Definition no_wildcard (s : string) : Prop := forall c, In c (list_ascii_of_string s) -> c <> "*"%char /\ c <> "?"%char /\ c <> "["%char.
(** A date as a spectrum file has it. *)
Definition month_name (m : Z) : string :=
  nth (Z.to_nat (m - 1)) ["January"; "February"; "March"; "April"; "May"; "June"; "July"; "August"; "September"; "October"; "November"; "December"]%string ""%string.
Definition weekdays : list string := ["Monday"; "Tuesday"; "Wednesday"; "Thursday"; "Friday"; "Saturday"; "Sunday"]%string.
(** Numbers below 32 without a leading zero. *)
Definition short (n : Z) : string := if (n <? 10)%Z then String (figure n) "" else two n.
Definition eis_date (weekday : string) (st : stamp) : string :=
  (weekday ++ ", " ++ month_name (mo st) ++ " " ++ short (dy st) ++ ", " ++ four (yr st))%string.
Definition eis_time (st : stamp) : string := (two (hh st) ++ ":" ++ two (mi st))%string.
Definition local_text (st : stamp) : string :=
  (four (yr st) ++ "-" ++ two (mo st) ++ "-" ++ two (dy st) ++ "T" ++ two (hh st) ++ ":" ++ two (mi st) ++ ":" ++ two (ss st))%string.
Definition eol : string := String (ascii_of_nat 10) "".
Definition one_line (s : string) : Prop := contains eol s = false.
Definition tab : string := String (ascii_of_nat 9) "".
(** The cells of a line of a table, and whether it has anything but spaces on it. *)
Definition cells_of (l : string) : list string := str_split tab l.
Definition shown_line (l : string) : bool := existsb (fun c => negb (Ascii.eqb c " ")) (list_ascii_of_string l).
(** A line as it is read, with or without its end. *)
Definition line_as_read (r l : string) : Prop := l = r \/ l = (r ++ eol)%string.
(** "Circut" spelled right everywhere. *)
Inductive corrected : string -> string -> Prop :=
| corrected_none v : contains "Circut" v = false -> corrected v v
| corrected_one x y y' : contains "Circut" x = false -> corrected y y' -> corrected (x ++ "Circut" ++ y) (x ++ "Circuit" ++ y').
(** The words of a text with blanks between them. *)
Definition blank_free (w : string) : Prop := forall c, In c (list_ascii_of_string w) -> ~ blank_char c.
Inductive has_words : string -> list string -> Prop :=
| no_words s : all_blank s -> has_words s []
| some_word b w r ws : all_blank b -> w <> ""%string -> blank_free w -> (r = ""%string \/ exists c r', r = String c r' /\ blank_char c) ->
    has_words r ws -> has_words (b ++ w ++ r) (w :: ws).
(** Line with a label on it once. *)
Definition labelled (label before after : string) : Prop := contains label before = false /\ contains label after = false.

(** ** Standard columns *)
(** Name in the file, name in the structured data, type. *)
Definition maccor_standard : list (string * string * string) :=
  [("Rec#", "data_point", "int32"); ("Cyc#", "cycle_index", "int32"); ("Step", "step_index", "int16");
   ("Test (Sec)", "test_time", "float64"); ("Step (Sec)", "step_time", "float32"); ("Amp-hr", "_capacity", "float64");
   ("Watt-hr", "_energy", "float64"); ("Amps", "current", "float32"); ("Volts", "voltage", "float32");
   ("ES", "_ending_status", "category"); ("DPt Time", "date_time", "str"); ("ACImp/Ohms", "ac_impedence", "float32");
   ("DCIR/Ohms", "internal_resistance", "float32"); ("WF Chg Cap", "_wf_chg_cap", "float32"); ("WF Dis Cap", "_wf_dis_cap", "float32");
   ("WF Chg E", "_wf_chg_e", "float32"); ("WF Dis E", "_wf_dis_e", "float32")]%string.
Definition arbin_standard : list (string * string * string) :=
  [("Data_Point", "data_point", "int32"); ("Test_Time", "test_time", "float64"); ("DateTime", "date_time", "float32");
   ("Step_Time", "step_time", "float32"); ("Step_Index", "step_index", "int16"); ("Cycle_Index", "cycle_index", "int32");
   ("Current", "current", "float32"); ("Voltage", "voltage", "float32"); ("Charge_Capacity", "charge_capacity", "float64");
   ("Discharge_Capacity", "discharge_capacity", "float64"); ("Charge_Energy", "charge_energy", "float64");
   ("Discharge_Energy", "discharge_energy", "float64"); ("Internal_Resistance", "internal_resistance", "float32");
   ("Temperature", "temperature", "float32")]%string.
(** The quantities summed over the steps of a cycle, and the columns they are kept in. *)
Definition summed : list (string * string * string) :=
  [("capacity", "charge", "charge_capacity"); ("capacity", "discharge", "discharge_capacity");
   ("energy", "charge", "charge_energy"); ("energy", "discharge", "discharge_energy")]%string.
(** Columns of a file under different names of the result, none of them one of [names]. *)
Definition distinct_columns {V} (columns : list (string * string)) (names : list string) (raw : list (string * list V)) : Prop :=
  NoDup (map (fun kc => result_name columns (fst kc)) raw) /\ forall k c, In (k, c) raw -> ~ In (result_name columns k) names.
(** Every path is absolute or empty. *)
Definition absolute (p : pathval) : Prop := match p with OnePath s => s = ""%string \/ prefix "/" s = true | _ => True end.
Definition single (p : pathval) : Prop := match p with ManyPaths l => l = [] | _ => True end.
Definition plain_name (stem ext : string) : Prop := no_wildcard stem /\ no_wildcard ext /\ slash_free stem /\ slash_free ext /\ dot_free ext.
(** Metadata known under its standard name. *)
Definition arbin_named : list (string * string) :=
  [("test_id", "test_id"); ("device_id", "device_id"); ("IV_Ch_ID", "channel_id"); ("First_Start_DateTime", "start_datetime");
   ("Schedule_File_Name", "protocol"); ("Item_ID", "barcode")]%string.
