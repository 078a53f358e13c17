(** Model of the column types of structured data: BEEPDatapath._cast_dtypes, and the types given when a datapath is loaded
    (beep/structure/base.py:424-428, 1236-1254).  Simplifications: numbers are exact, NaN is [Missing]; the
    smallest and largest numbers of float32 are not modelled; a text in a column of numbers is refused even if
    it spells a number; a number outside of the range of an integer type keeps its last bits, as integers do. *)
From Verif Require Import Py Num Model_Stamp Model_Text.

(** a cell of a frame (for [cast_cell], beep/structure/base.py:1254) *)
Inductive cell := Num (q : Q) | Missing | Words (s : string).
(** a frame: columns by name (for [cast_dtypes], beep/structure/base.py:1254) *)
Definition frame := list (string * list cell).
(** beep/conversion_schemas/structured_dtypes.yaml:1-69 *)
Definition structure_dtypes : list (string * list (string * string)) :=
  [("cycles_interpolated",
     [("test_time", "float64"); ("cycle_index", "int32"); ("current", "float32"); ("voltage", "float32"); ("temperature", "float32"); ("internal_resistance", "float32");
      ("charge_capacity", "float32"); ("discharge_capacity", "float32"); ("charge_energy", "float32"); ("discharge_energy", "float32"); ("step_type", "category"); ("step_index", "int16")]);
   ("summary",
     [("cycle_index", "int32"); ("discharge_capacity", "float64"); ("charge_capacity", "float64"); ("discharge_energy", "float64"); ("charge_energy", "float64");
      ("dc_internal_resistance", "float32"); ("temperature_maximum", "float32"); ("temperature_average", "float32"); ("temperature_minimum", "float32"); ("date_time_iso", "object");
      ("energy_efficiency", "float32"); ("charge_throughput", "float32"); ("energy_throughput", "float32"); ("charge_duration", "float32"); ("time_temperature_integrated", "float64");
      ("paused", "int32"); ("CV_time", "float32"); ("CV_current", "float32"); ("CV_capacity", "float32")]);
   ("diagnostic_summary",
     [("discharge_capacity", "float64"); ("charge_capacity", "float64"); ("discharge_energy", "float64"); ("charge_energy", "float64");
      ("temperature_maximum", "float32"); ("temperature_average", "float32"); ("temperature_minimum", "float32"); ("date_time_iso", "object"); ("cycle_index", "int32");
      ("coulombic_efficiency", "float64"); ("paused", "int32"); ("cycle_type", "category"); ("CV_time", "float32"); ("CV_current", "float32"); ("CV_capacity", "float32")]);
   ("diagnostic_interpolated",
     [("voltage", "float32"); ("current", "float32"); ("charge_capacity", "float64"); ("discharge_capacity", "float64"); ("charge_energy", "float64"); ("discharge_energy", "float64");
      ("internal_resistance", "float32"); ("temperature", "float32"); ("test_time", "float64"); ("cycle_index", "int32"); ("cycle_type", "category"); ("step_index", "int16");
      ("step_index_counter", "int16"); ("step_type", "category"); ("discharge_dQdV", "float32"); ("charge_dQdV", "float32")])]%string.

(** towards zero (for [cast_cell], beep/structure/base.py:1254) *)
Definition truncated (q : Q) : Z := if Qle_bool 0 q then Qfloor q else (- Qfloor (- q))%Z.
(** the last bits of an integer, with sign (for [cast_cell], beep/structure/base.py:1254) *)
Definition wrapped (bits z : Z) : Z := ((z + 2 ^ (bits - 1)) mod 2 ^ bits - 2 ^ (bits - 1))%Z.
(** the bits of an integer type (for [cast_cell], beep/structure/base.py:1254) *)
Definition int_bits (ty : string) : option Z := if String.eqb ty "int32" then Some 32%Z else if String.eqb ty "int16" then Some 16%Z else None.
(** one cell of DataFrame.astype (beep/structure/base.py:1254) *)
Definition cast_cell (ty : string) (c : cell) : result cell :=
  match int_bits ty with
  | Some bits => match c with Num q => Ok (Num (inject_Z (wrapped bits (truncated q)))) | _ => Err ValueError end
  | None =>
      if String.eqb ty "float32" then match c with Num q => Ok (Num (float32 q)) | Missing => Ok Missing | Words _ => Err ValueError end
      else if String.eqb ty "float64" then match c with Words _ => Err ValueError | _ => Ok c end
      else Ok c
  end.
(** beep/structure/base.py:1236-1254 _cast_dtypes *)
Definition cast_dtypes (key : string) (f : frame) : result frame :=
  match sget structure_dtypes key with
  | None => Err KeyError
  | Some types =>
      mapM (fun nc : string * list cell =>
              match sget types (fst nc) with
              | Some ty => let! c := mapM (cast_cell ty) (snd nc) in Ok (fst nc, c)
              | None => Ok nc
              end) f
  end.
(** one cell of pd.Series(values, dtype): numbers that are no whole numbers of the type are refused (beep/structure/base.py:428) *)
Definition series_cell (ty : string) (c : cell) : result cell :=
  match int_bits ty, c with
  | Some bits, Num q =>
      if Qeq_bool (inject_Z (truncated q)) q && (- 2 ^ (bits - 1) <=? truncated q)%Z && (truncated q <? 2 ^ (bits - 1))%Z
      then Ok (Num (inject_Z (truncated q))) else Err ValueError
  | _, _ => cast_cell ty c
  end.
(** beep/structure/base.py:424-428 from_dict, one of the four frames *)
Definition load_dtypes (key : string) (f : frame) : result frame :=
  match sget structure_dtypes key with
  | None => Ok f
  | Some types =>
      mapM (fun nc : string * list cell =>
              match sget types (fst nc) with
              | Some ty => let! c := mapM (series_cell ty) (snd nc) in Ok (fst nc, c)
              | None => Ok nc
              end) f
  end.
