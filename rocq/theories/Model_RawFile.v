(** Model of the readers of raw Maccor and Arbin files around their number columns:
    MaccorDatapath.from_file, parse_metadata, load_eis and MaccorEIS.from_file
    (beep/structure/maccor.py:32-170, 246-272), ArbinDatapath.from_file
    (beep/structure/arbin.py:34-92), EIS.as_dict and from_dict (beep/structure/base_eis.py:53-81)
    and the check of paths when a datapath is loaded again (beep/structure/base.py:190-197).
    Simplifications: texts are ASCII; int() of blanks and underscores is not modelled; pd.read_csv
    is a parameter for the number columns; column names of a file are distinct. *)
From Verif Require Import Py Num Model_Text Model_Arbin Model_Maccor Model_Cmd Model_Stamp.

(** text.replace(old, new) for a non-empty [old] (for [parse_metadata], beep/structure/maccor.py:268-271) *)
Definition replace_text (old new s : string) : string := join new (str_split old s).

(** ** Metadata *)

(** for [parse_metadata], beep/structure/maccor.py:246-272 *)
Inductive mval := MText (s : string) | MNum (z : Z) | MNone.
(** beep/structure/maccor.py:259-265 *)
Definition header_fields : list string :=
  ["Today's Date"; "Date of Test:"; "Filename:"; "Procedure:"; "Comment/Barcode:"]%string.
(** beep/structure/maccor.py:246-272 parse_metadata; the lists of one value are the rows of the
    table made from them (106) *)
Definition parse_metadata (line : string) : result (list (string * mval)) :=
  let! vs := split_string_by_fields line header_fields in
  Ok (map (fun kv => (replace_text ":" "" (fst kv), MText (strip (snd kv)))) (combine header_fields vs)).
(** beep/conversion_schemas/maccor_conversion.yaml:7-12 metadata_fields *)
Definition maccor_metadata_fields : list (string * string) :=
  [("today's date", "_today_datetime"); ("date of test", "start_datetime"); ("filename", "filename");
   ("procedure", "protocol"); ("comment/barcode", "barcode")]%string.
(** DataFrame.rename(columns) (for [named], beep/structure/maccor.py:115-116) *)
Definition renamed (table : list (string * string)) (k : string) : string :=
  match sget table k with Some k' => k' | None => k end.
(** the two renamings (beep/structure/maccor.py:115-116, beep/structure/arbin.py:60-62) *)
Definition named {V} (table : list (string * string)) (d : list (string * V)) : list (string * V) :=
  map (fun kv => (renamed table (lower (fst kv)), snd kv)) d.
(** beep/structure/maccor.py:108-113: a number from the extension; otherwise the value None is kept under
    "channnel_id" *)
Definition with_channel (path : string) (d : list (string * mval)) : list (string * mval) :=
  match parse_int (replace_text "." "" (snd (splitext (basename path)))) with
  | Some z => sset d "channel_id" (MNum z)
  | None => sset d "channnel_id" MNone
  end.
(** beep/structure/maccor.py:81-82, 105-118 *)
Definition maccor_metadata (path first_line : string) : result (list (string * mval)) :=
  let! d := parse_metadata (strip first_line) in
  Ok (named maccor_metadata_fields (with_channel path d)).

(** ** Validation schema *)

(** beep/validation_schemas/schema-projects.yaml (for [schema_of], beep/structure/maccor.py:129-136) *)
Definition project_schema : list (string * list (string * string)) :=
  [("Iris", [("arbin", "schema-arbin-nmc-phev.yaml")]);
   ("xIris", [("arbin", "schema-arbin-nmc-phev.yaml")]);
   ("PreDiag", [("maccor", "schema-maccor-2170.yaml")]);
   ("PredictionDiagnostics", [("maccor", "schema-maccor-2170.yaml")]);
   ("FastCharge", [("arbin", "schema-arbin-lfp.yaml")]);
   ("ClosedLoopOED", [("arbin", "schema-arbin-lfp.yaml")]);
   ("Talos", [("arbin", "schema-arbin-18650-2170.yaml"); ("maccor", "schema-maccor-2170.yaml")]);
   ("PriorLAMVal", [("arbin", "schema-arbin-18650-2170.yaml")]);
   ("LAMVal", [("arbin", "schema-arbin-18650-2170.yaml")])]%string.
(** beep/structure/maccor.py:129-136 and beep/structure/arbin.py:83-90 *)
Definition schema_of (dir cycler default path : string) : string :=
  let special := match sget project_schema (hd ""%string (str_split "_" (basename path))) with
                 | Some d => sget d cycler
                 | None => None
                 end in
  path_join dir (match special with
                 | Some f => if String.eqb f "" then default else f
                 | None => default
                 end).
(** beep/structure/maccor.py:129-136 *)
Definition maccor_schema (dir path : string) : string := schema_of dir "maccor" "schema-maccor-2170.yaml" path.
(** beep/structure/arbin.py:83-90 *)
Definition arbin_schema (dir path : string) : string := schema_of dir "arbin" "schema-arbin-lfp.yaml" path.

(** ** Number columns *)

Section Columns.
  (** cells of a table; a missing one is NaN (for [astype], beep/structure/maccor.py:85-102) *)
  Context {V : Type} (missing : V -> bool).
  (** Series.astype (for [astype], beep/structure/maccor.py:87) *)
  Variable cast : string -> list V -> result (list V).
  (** quantity_sum of a quantity and a state, C18 (for [maccor_table], beep/structure/maccor.py:93-102) *)
  Variable quantity : string -> string -> list (string * list V) -> result (list V).
  (** the stamps of a column, C120 and C121 (beep/structure/maccor.py:121, beep/structure/arbin.py:72-75) *)
  Variable stamps : list V -> result (list V).

  (** for [astype], beep/structure/maccor.py:87 *)
  Fixpoint cast_columns (types : list (string * string)) (t : list (string * list V)) : result (list (string * list V)) :=
    match t with
    | [] => Ok []
    | (k, c) :: r =>
        let! c := match sget types k with Some ty => cast ty c | None => Ok c end in
        let! r := cast_columns types r in Ok ((k, c) :: r)
    end.
  (** DataFrame.astype of a dictionary: every key must be a column (beep/structure/maccor.py:87) *)
  Definition astype (types : list (string * string)) (t : list (string * list V)) : result (list (string * list V)) :=
    if forallb (fun ky => smem t (fst ky)) types then cast_columns types t else Err KeyError.
  (** beep/structure/maccor.py:86 *)
  Definition lowered (t : list (string * list V)) : list (string * list V) := map (fun kc => (lower (fst kc), snd kc)) t.
  (** beep/structure/maccor.py:88 *)
  Definition rename (table : list (string * string)) (t : list (string * list V)) : list (string * list V) :=
    map (fun kc => (renamed table (fst kc), snd kc)) t.
  (** beep/structure/maccor.py:93-102 *)
  Definition add_quantity (q s name : string) (t : list (string * list V)) : result (list (string * list V)) :=
    let! c := quantity q s t in Ok (sset t name c).
  (** beep/structure/maccor.py:85-102, 121.  [types] and [columns] are data_types and data_columns of
      beep/conversion_schemas/maccor_conversion.yaml *)
  Definition maccor_table (types columns : list (string * string)) (raw : list (string * list V)) : result (list (string * list V)) :=
    let! t := astype types (lowered raw) in
    let t := rename columns t in
    let! t := match sget t "_state" with
              | Some c => let! c := cast "str" c in Ok (sset t "_state" c)
              | None => Err KeyError
              end in
    let! t := add_quantity "capacity" "charge" "charge_capacity" t in
    let! t := add_quantity "capacity" "discharge" "discharge_capacity" t in
    let! t := add_quantity "energy" "charge" "charge_energy" t in
    let! t := add_quantity "energy" "discharge" "discharge_energy" t in
    match sget t "date_time" with
    | Some c => let! c := stamps c in Ok (sset t "date_time_iso" c)
    | None => Err KeyError
    end.

  (** beep/structure/arbin.py:48-51: a column without missing values is converted *)
  Definition cast_if_complete (types : list (string * string)) (t : list (string * list V)) : result (list (string * list V)) :=
    mapM (fun kc => match sget types (fst kc) with
                    | Some ty => if existsb missing (snd kc) then Ok kc
                                 else let! c := cast ty (snd kc) in Ok (fst kc, c)
                    | None => Ok kc
                    end) t.
  (** beep/structure/arbin.py:45-53, 72-75 *)
  Definition arbin_table (types columns : list (string * string)) (raw : list (string * list V)) : result (list (string * list V)) :=
    let! t := cast_if_complete types (lowered raw) in
    let t := rename columns t in
    match sget t "date_time" with
    | Some c => let! c := stamps c in Ok (sset t "date_time_iso" c)
    | None => Err KeyError
    end.
End Columns.

(** beep/conversion_schemas/maccor_conversion.yaml:50-84 data_types *)
Definition maccor_types : list (string * string) :=
  [("rec#", "int32"); ("cyc#", "int32"); ("step", "int16"); ("test (sec)", "float64"); ("step (sec)", "float32");
   ("amp-hr", "float64"); ("watt-hr", "float64"); ("amps", "float32"); ("volts", "float32"); ("state", "category");
   ("es", "category"); ("acimp/ohms", "float32"); ("dcir/ohms", "float32"); ("wf chg cap", "float32");
   ("wf dis cap", "float32"); ("wf chg e", "float32"); ("wf dis e", "float32"); ("range", "uint8");
   ("var1", "float16"); ("var2", "float16"); ("var3", "float16"); ("var4", "float16"); ("var5", "float16");
   ("var6", "float16"); ("var7", "float16"); ("var8", "float16"); ("var9", "float16"); ("var10", "float16");
   ("var11", "float16"); ("var12", "float16"); ("var13", "float16"); ("var14", "float16"); ("var15", "float16");
   ("dpt time", "str")]%string.
(** beep/conversion_schemas/maccor_conversion.yaml:13-49 data_columns *)
Definition maccor_columns : list (string * string) :=
  [("rec#", "data_point"); ("cyc#", "cycle_index"); ("step", "step_index"); ("test (sec)", "test_time");
   ("step (sec)", "step_time"); ("amp-hr", "_capacity"); ("watt-hr", "_energy"); ("amps", "current");
   ("volts", "voltage"); ("state", "_state"); ("es", "_ending_status"); ("dpt time", "date_time");
   ("acimp/ohms", "ac_impedence"); ("dcir/ohms", "internal_resistance"); ("wf chg cap", "_wf_chg_cap");
   ("wf dis cap", "_wf_dis_cap"); ("wf chg e", "_wf_chg_e"); ("wf dis e", "_wf_dis_e"); ("range", "_range");
   ("var1", "_var1"); ("var2", "_var2"); ("var3", "_var3"); ("var4", "_var4"); ("var5", "_var5");
   ("var6", "_var6"); ("var7", "_var7"); ("var8", "_var8"); ("var9", "_var9"); ("var10", "_var10");
   ("var11", "_var11"); ("var12", "_var12"); ("var13", "_var13"); ("var14", "_var14"); ("var15", "_var15")]%string.
(** beep/conversion_schemas/arbin_conversion.yaml:39-54 data_types *)
Definition arbin_types : list (string * string) :=
  [("data_point", "int32"); ("test_time", "float64"); ("datetime", "float32"); ("step_time", "float32");
   ("step_index", "int16"); ("cycle_index", "int32"); ("current", "float32"); ("voltage", "float32");
   ("charge_capacity", "float64"); ("discharge_capacity", "float64"); ("charge_energy", "float64");
   ("discharge_energy", "float64"); ("dv/dt", "float32"); ("internal_resistance", "float32"); ("temperature", "float32")]%string.
(** beep/conversion_schemas/arbin_conversion.yaml:23-38 data_columns *)
Definition arbin_columns : list (string * string) :=
  [("data_point", "data_point"); ("test_time", "test_time"); ("datetime", "date_time"); ("step_time", "step_time");
   ("step_index", "step_index"); ("cycle_index", "cycle_index"); ("current", "current"); ("voltage", "voltage");
   ("charge_capacity", "charge_capacity"); ("discharge_capacity", "discharge_capacity");
   ("charge_energy", "charge_energy"); ("discharge_energy", "discharge_energy"); ("dv/dt", "_dv/dt");
   ("internal_resistance", "internal_resistance"); ("temperature", "temperature")]%string.

(** ** Metadata of Arbin files *)

(** beep/conversion_schemas/arbin_conversion.yaml:2-22 metadata_fields *)
Definition arbin_metadata_fields : list (string * string) :=
  [("test_id", "test_id"); ("device_id", "device_id"); ("iv_ch_id", "channel_id");
   ("first_start_datetime", "start_datetime"); ("schedule_file_name", "protocol"); ("item_id", "barcode");
   ("resumed_times", "_resumed_times"); ("last_end_datetime", "_last_end_datetime"); ("databases", "_databases");
   ("grade_id", "_grade_id"); ("has_aux", "_has_aux"); ("has_special", "_has_special");
   ("schedule_version", "_schedule_version"); ("log_aux_data_flag", "_log_aux_data_flag");
   ("log_special_data_flag", "_log_special_data_flag"); ("rowstate", "_rowstate");
   ("canconfig_filename", "_canconfig_filename"); ("m_ncanconfigmd5", "_m_ncanconfigmd5");
   ("value", "_value"); ("value2", "_value2")]%string.
Section ArbinMetadata.
  (** the tables of the files there are; [None]: no such file (for [arbin_metadata], beep/structure/arbin.py:58-59) *)
  Variable csv_at : string -> option (list (string * list mval)).
  (** beep/structure/arbin.py:55-56 *)
  Definition arbin_metadata_path (path : string) (given : option string) : string :=
    match given with
    | Some m => if String.eqb m "" then replace_text ".csv" "_Metadata.csv" path else m
    | None => replace_text ".csv" "_Metadata.csv" path
    end.
  (** item[0] of every column (beep/structure/arbin.py:64-65) *)
  Definition first_values (t : list (string * list mval)) : result (list (string * mval)) :=
    mapM (fun kc => match snd kc with v :: _ => Ok (fst kc, v) | [] => Err IndexError end) t.
  (** beep/structure/arbin.py:55-69, 77-80: the metadata and the path kept for it *)
  Definition arbin_metadata (path : string) (given : option string) : result (list (string * mval) * option string) :=
    let m := arbin_metadata_path path given in
    match csv_at m with
    | Some t => let! d := first_values (named arbin_metadata_fields t) in
                Ok (d, match d with [] => None | _ => Some m end)
    | None => Ok ([], None)
    end.
End ArbinMetadata.

(** ** Impedance spectra *)

(** for [eis_from_file], beep/structure/maccor.py:50-54 *)
Definition month_names : list string :=
  ["january"; "february"; "march"; "april"; "may"; "june"; "july"; "august"; "september"; "october"; "november"; "december"]%string.
(** for [eis_from_file], beep/structure/maccor.py:50-54 *)
Definition day_names : list string :=
  ["monday"; "tuesday"; "wednesday"; "thursday"; "friday"; "saturday"; "sunday"]%string.
(** position of a name, from 1 (for [strptime_eis], beep/structure/maccor.py:50-54) *)
Fixpoint position (l : list string) (s : string) (n : Z) : option Z :=
  match l with
  | [] => None
  | x :: r => if String.eqb x s then Some n else position r s (n + 1)%Z
  end.
(** a blank is required and as many as there are are passed (for [strptime_eis], beep/structure/maccor.py:50-54) *)
Definition blanks (s : string) : option string :=
  match s with String c r => if is_space c then Some (lstrip r) else None | EmptyString => None end.
(** letters up to a blank (for [strptime_eis], beep/structure/maccor.py:50-54) *)
Fixpoint word (s : string) : string * string :=
  match s with
  | EmptyString => (""%string, ""%string)
  | String c r => if is_space c then (""%string, s) else let (a, b) := word r in (String c a, b)
  end.
(** four digits (for [strptime_eis], beep/structure/maccor.py:50-54) *)
Definition year_only (s : string) : option Z :=
  match span_digits s with
  | (ds, EmptyString) => if (length ds =? 4)%nat then Some (digits_val ds) else None
  | _ => None
  end.
(** datetime.strptime(x, "%A, %B %d, %Y,%H:%M"); the name of the day is not compared with the date
    (beep/structure/maccor.py:53) *)
Definition strptime_eis (x : string) : option stamp :=
  match str_split "," x with
  | [a; b; c; t] =>
      match position day_names (lower a) 1, blanks b, blanks c, str_split ":" t with
      | Some _, Some b, Some c, [h; n] =>
          let (m, d) := word b in
          match position month_names (lower m) 1, blanks d, year_only c, field 0 23 h, field 0 59 n with
          | Some m, Some d, Some y, Some h, Some n =>
              match day_field d with
              | Some d => if (1 <=? y)%Z && (d <=? days_in_month y m)%Z
                          then Some {| yr := y; mo := m; dy := d; hh := h; mi := n; ss := 0 |} else None
              | None => None
              end
          | _, _, _, _, _ => None
          end
      | _, _, _, _ => None
      end
  | _ => None
  end.
(** datetime.isoformat without a time zone (beep/structure/maccor.py:54) *)
Definition isoformat_local (st : stamp) : string :=
  (padded 4 (yr st) ++ "-" ++ padded 2 (mo st) ++ "-" ++ padded 2 (dy st) ++ "T"
   ++ padded 2 (hh st) ++ ":" ++ padded 2 (mi st) ++ ":" ++ padded 2 (ss st))%string.
(** text.split(): the words between blanks (beep/structure/maccor.py:56) *)
Fixpoint words (s : string) (cur : string) : list string :=
  match s with
  | EmptyString => if String.eqb cur "" then [] else [rev_string cur ""]
  | String c r => if is_space c then (if String.eqb cur "" then [] else [rev_string cur ""%string]) ++ words r ""
                  else words r (String c cur)
  end.
(** for [eis_from_file], beep/structure/maccor.py:59-65 *)
Record eis_meta := { em_sweep : string; em_method : string; em_filename : string; em_start : string; em_line8 : list string }.
(** l[i], IndexError beyond the end (for [eis_from_file], beep/structure/maccor.py:44-56) *)
Definition item {A} (l : list A) (i : nat) : result A := match nth_error l i with Some x => Ok x | None => Err IndexError end.
(** pd.read_csv passes over lines of nothing but blanks (for [eis_rows], beep/structure/maccor.py:68) *)
Fixpoint only_blanks (l : string) : bool := match l with EmptyString => true | String c r => Ascii.eqb c " " && only_blanks r end.
(** pd.read_csv with a tab as delimiter; the first row names the columns; numbers are left as texts, quotation marks are
    not modelled (beep/structure/maccor.py:68) *)
Definition eis_rows (text : string) : list (list string) :=
  map (str_split (String (ascii_of_nat 9) "")) (filter (fun l => negb (only_blanks l)) (str_split (String nl "") text)).
(** beep/structure/maccor.py:32-69 MaccorEIS.from_file, on the lines of the file, each with its line end *)
Definition eis_from_file (lines : list string) : result (eis_meta * list (list string)) :=
  let! l1 := item lines 1 in
  let! sweep := item (str_split "Frequency Sweep:" l1) 1 in
  let! method := item lines 2 in
  let! filename := item lines 3 in
  let! l6 := item lines 6 in
  let! start := item (str_split "Start Date:" l6) 1 in
  match str_split "Start Time:" (strip start) with
  | [date; time] =>
      match strptime_eis (strip date ++ "," ++ strip time) with
      | Some st =>
          let! l8 := item lines 8 in
          match eis_rows (join (String nl "") (skipn 10 lines)) with
          | [] => Err (OtherError "EmptyDataError")
          | rows => Ok ({| em_sweep := replace_text "Circut" "Circuit" (strip sweep); em_method := method;
                           em_filename := filename; em_start := isoformat_local st; em_line8 := words l8 "" |}, rows)
          end
      | None => Err ValueError
      end
  | _ => Err ValueError
  end.

(** for [glob1], beep/structure/maccor.py:161-162 *)
Definition is_magic (c : ascii) : bool := Ascii.eqb c "*" || Ascii.eqb c "?" || Ascii.eqb c "[".
(** for [glob], beep/structure/maccor.py:161-162 *)
Fixpoint has_magic (s : string) : bool := match s with EmptyString => false | String c r => is_magic c || has_magic r end.
(** fnmatch of one name, without brackets (for [glob], beep/structure/maccor.py:161-162) *)
Fixpoint fnmatch (pat name : string) : bool :=
  match pat with
  | EmptyString => String.eqb name ""
  | String c p =>
      if Ascii.eqb c "*" then
        (fix any (n : string) : bool := fnmatch p n || match n with EmptyString => false | String _ r => any r end) name
      else match name with
           | EmptyString => false
           | String d n => (Ascii.eqb c "?" || Ascii.eqb c d) && fnmatch p n
           end
  end.
(** text.rsplit(".", 1) (for [eis_pattern], beep/structure/maccor.py:161): the text before the last point, and after it *)
Definition rsplit_dot (s : string) : list string :=
  match last_dot s with Some (a, String _ b) => [a; b] | _ => [s] end.
(** beep/structure/maccor.py:161 *)
Definition eis_pattern (raw : string) : string := join ".*." (rsplit_dot raw).
(** os.path.split on a path with a slash: up to and with the last slash (for [glob], beep/structure/maccor.py:162) *)
Fixpoint last_slash (s : string) : string * string :=
  match s with
  | EmptyString => (""%string, ""%string)
  | String c r =>
      let (d, b) := last_slash r in
      if String.eqb d "" then if Ascii.eqb c "/" then (String c "", r) else (""%string, s) else (String c d, b)
  end.
Section Eis.
  (** names in a directory, in the order of the file system (for [glob], beep/structure/maccor.py:162) *)
  Variable listing : string -> list string.
  (** lines of a file; [None]: no such file (for [load_eis], beep/structure/maccor.py:164-167) *)
  Variable lines_of : string -> option (list string).
  (** glob of patterns with magic characters in the directory or brackets in the name (beep/structure/maccor.py:162) *)
  Variable other_glob : string -> list string.
  (** glob.glob (beep/structure/maccor.py:162): names starting with a point are passed over *)
  Definition glob (pattern : string) : list string :=
    let (d, b) := last_slash pattern in
    if has_magic d || contains "[" b then other_glob pattern
    else if has_magic b
    then map (fun n => (d ++ n)%string) (filter (fun n => negb (prefix "." n && negb (prefix "." b)) && fnmatch b n) (listing d))
    else if existsb (String.eqb b) (listing d) then [pattern] else [].
  (** beep/structure/maccor.py:164-167 *)
  Definition read_eis (p : string) : result (eis_meta * list (list string)) :=
    match lines_of p with Some ls => eis_from_file ls | None => Err FileNotFoundError end.
  (** beep/structure/maccor.py:140-170 load_eis: the spectra and the paths kept under "eis" *)
  Definition load_eis (raw : string) (paths : list string) : result (list (eis_meta * list (list string)) * list string) :=
    let paths := match paths with [] => glob (eis_pattern raw) | _ => paths end in
    let! runs := mapM read_eis paths in Ok (runs, paths).
End Eis.

(** ** Loading a datapath again *)

(** what [paths] maps to (for [check_paths], beep/structure/base.py:190-197) *)
Inductive pathval := NoPath | OnePath (s : string) | ManyPaths (l : list string).
(** beep/structure/base.py:190-197: os.path.isabs of a list raises TypeError *)
Fixpoint check_paths (paths : list (string * pathval)) : result unit :=
  match paths with
  | [] => Ok tt
  | (_, p) :: r =>
      let! _ := match p with
                | NoPath => Ok tt
                | OnePath s => if String.eqb s "" || prefix "/" s then Ok tt else Err ValueError
                | ManyPaths [] => Ok tt
                | ManyPaths _ => Err TypeError
                end in
      check_paths r
  end.
(** the paths of a datapath saved with to_json_file and read with from_json_file
    (beep/structure/base.py:331-336, 389, 430, 444) *)
Definition reload_paths (filename : string) (paths : list (string * pathval)) : result (list (string * pathval)) :=
  let paths := sset paths "structured" (OnePath filename) in
  let! _ := check_paths paths in Ok paths.

(** ** EIS objects *)

Section EisObject.
  (** cells (for [eis_as_dict], beep/structure/base_eis.py:53-65) *)
  Context {V : Type}.
  (** a table: row labels and columns (for [eis_as_dict], beep/structure/base_eis.py:53-65) *)
  Record etable := { et_index : list Z; et_cols : list (string * list V) }.
  (** metadata: a table, or the dictionary MaccorEIS.from_file makes (beep/structure/maccor.py:59-65, 69) *)
  Inductive emeta := MetaTable (t : etable) | MetaDict (d : list (string * V)).
  (** beep/structure/base_eis.py:32-39 __init__ *)
  Record eis := { e_data : etable; e_meta : emeta }.
  (** beep/structure/base_eis.py:60-65: to_dict("list") and to_dict() *)
  Record edict := { ed_data : list (string * list V); ed_meta : list (string * list (Z * V)) }.
  (** to_dict(): a column as a dictionary; a repeated label keeps its last value (for [eis_as_dict],
      beep/structure/base_eis.py:64) *)
  Definition column_dict (index : list Z) (c : list V) : list (Z * V) :=
    fold_left (fun d kv => d_set Z.eqb d (fst kv) (snd kv)) (combine index c) [].
  (** beep/structure/base_eis.py:53-65 as_dict; a dictionary has no to_dict *)
  Definition eis_as_dict (e : eis) : result edict :=
    match e_meta e with
    | MetaDict _ => Err AttributeError
    | MetaTable m => Ok {| ed_data := et_cols (e_data e);
                           ed_meta := map (fun kc => (fst kc, column_dict (et_index m) (snd kc))) (et_cols m) |}
    end.
  (** beep/structure/base_eis.py:68-81 from_dict, for columns with the same labels *)
  Definition eis_from_dict (d : edict) : eis :=
    {| e_data := {| et_index := map Z.of_nat (seq 0 (match ed_data d with [] => 0 | (_, c) :: _ => length c end)); et_cols := ed_data d |};
       e_meta := MetaTable {| et_index := match ed_meta d with [] => [] | (_, c) :: _ => map fst c end;
                              et_cols := map (fun kc => (fst kc, map snd (snd kc))) (ed_meta d) |} |}.
End EisObject.
Arguments etable : clear implicits.
Arguments emeta : clear implicits.
Arguments eis : clear implicits.
Arguments edict : clear implicits.
