(** Generation of protocol files from a table of parameters.
    Models beep/protocol/generate_protocol.py:69-242.
    Simplifications: the file system is a dictionary from paths to contents; paths are joined with
    "/"; project names and templates are texts and sequence numbers are not negative; a template file
    that exists is a procedure; directories always exist. *)
From Verif Require Import Py Num Model_Text Model_Procedure Model_Waveform.

(** for [world], beep/protocol/generate_protocol.py:152-172 *)
Inductive content := CProcedure (p : steps) | CSettings (text : string) | CWave (l : list segment) | CNames (l : list string).
(** One row of the table, the values its columns provide. (for [drive_of], beep/protocol/generate_protocol.py:152-172) *)
Record row := {
  project_name : string; seq_num : nat; template : string;
  cutoff_voltage : val; charge_rate : val; discharge_rate : val;                 (* from_exp *)
  reg : reg_param; diagnostic_parameter_set : string;
  charge_type_1 : string; charge_current_param_4 : Q; charge_fast_soc_limit : Q; (* RapidC *)
  discharge_profile : string; row_power : Q; row_scaling : Q; row_limit : Q; row_repeats : Z  (* Drive *) }.
(** for [long_procedure], beep/protocol/generate_protocol.py:152-172 *)
Definition drive_of (r : row) : driving_params :=
  {| max_profile_power := row_power r; power_scaling := row_scaling r; profile_charge_limit := row_limit r;
     drive_cutoff := discharge_cutoff_voltage (reg r); n_repeats := row_repeats r |}.
(** int(x) (for [driving_name], beep/protocol/maccor.py:1366-1367, 1430) *)
Definition py_int (x : Q) : Z := if Qlt_bool x 0 then (- Qfloor (- x))%Z else Qfloor x.

(** The files and the module's waveform configuration. (for [write], beep/protocol/generate_protocol.py:152-172) *)
Record world := { files : list (string * content); config : mwf_config }.
(** for [long_procedure], beep/protocol/generate_protocol.py:152-172 *)
Definition write (w : world) (path : string) (c : content) : world := {| files := sset (files w) path c; config := config w |}.

(** for [not_found], beep/protocol/generate_protocol.py:117-209 *)
Inductive outcome := Made (file : string) | Failed (comment error : string) | Raised (e : exn).
(** for [generate_protocol_files_from_csv], beep/protocol/generate_protocol.py:89-242 *)
Record report := { made_files : list string; failures : list (string * string); res : string; comment : string; error : string }.

Section Generate.
  (** the template directory; templates of Biologic with the formation inserted; the table of
      diagnostic parameters and whether the rows have a column for it; the power profiles
      (maccor.py:1346-1349); the charging waveform of a row (maccor.py:1395-1436) *)
  Variables (templates : string -> option steps) (formation : row -> result string).
  Variables (with_diagnostics : bool) (diagnostics : list (string * diag_param)).
  Variables (profiles : string -> result (list (Q * Q))) (charging_wave : row -> result (list segment)).
  Variables (out : string) (names_file : string).

  (** for [wave_path], beep/protocol/generate_protocol.py:152-172 *)
  Definition under (dir name : string) : string := (out ++ "/" ++ dir ++ "/" ++ name)%string.
  (** beep/protocol/generate_protocol.py:121-126 *)
  Definition filename_prefix (r : row) : string := (project_name r ++ "_" ++ zfill 6 (str_int (Z.of_nat (seq_num r))))%string.
  (** beep/protocol/generate_protocol.py:130-137 and its uses: UnboundLocalError without the column; if not exactly one row
      matches it stays a table, of which no value can be made a float *)
  Definition diagnostic_params (r : row) : result diag_param :=
    if with_diagnostics then
      match filter (fun d => String.eqb (fst d) (diagnostic_parameter_set r)) diagnostics with
      | [d] => Ok (snd d)
      | _ => Err TypeError
      end
    else Err UnboundLocalError.
  (** for [do_row], beep/protocol/generate_protocol.py:117-209 *)
  Definition load (name : string) : result steps := match templates name with Some p => Ok p | None => Err FileNotFoundError end.
  (** for [with_diag], beep/protocol/generate_protocol.py:149-151, 170-172 *)
  Definition done (x : steps * option exn) : result steps := match x with (p, None) => Ok p | (_, Some e) => Err e end.
  (** beep/protocol/maccor.py:1366-1367, 1430 *)
  Definition driving_name (r : row) : string :=
    (discharge_profile r ++ "_x" ++ str_int (row_repeats r) ++ "_" ++ str_int (py_int (row_power r * row_scaling r)) ++ "W")%string.
  (** for [long_procedure], beep/protocol/generate_protocol.py:152-172 *)
  Definition charging_name (r : row) : string := (project_name r ++ "_" ++ charge_type_1 r ++ "_" ++ str_int (Z.of_nat (seq_num r)))%string.
  (** for [long_procedure], beep/protocol/generate_protocol.py:152-172 *)
  Definition wave_path (name : string) : string := under "mwf_files" (name ++ ".MWF").
  (** beep/protocol/generate_protocol.py:149-151, 170-172: the diagnostics go in after the regular cycles *)
  Definition with_diag (add : Q -> diag_param -> steps -> steps * option exn) (r : row) (p : steps) : result steps :=
    let! d := diagnostic_params r in done (add (capacity_nominal (reg r)) d p).
  (** beep/protocol/generate_protocol.py:152-172 *)
  Definition long_procedure (i : Z) (r : row) (w : world) (t : steps) : world * result steps :=
    if String.eqb (project_name r) "RapidC" then
      match charging_wave r with
      | Err e => (w, Err e)
      | Ok segs =>
          let path := wave_path (charging_name r) in
          if (String.length (charging_name r) <? 25)%nat then
            (write w path (CWave segs),
             let! p := done (generate_procedure_chargingv1 i (reg r) (charge_current_param_4 r) (charge_fast_soc_limit r) path (map sg_limit_value segs) t) in
             with_diag generate_procedure_diagcyclev3 r p)
          else (w, Err AssertionError)
      end
    else if String.eqb (project_name r) "Drive" then
      match profiles (discharge_profile r) with
      | Err e => (w, Err e)
      | Ok profile =>
          let path := wave_path (driving_name r) in
          let '(cfg, x) := insert_driving_parametersv1 (config w) profile (drive_of r) in
          let w := {| files := files w; config := cfg |} in
          match x with
          | Err e => (w, Err e)
          | Ok segs =>
              (write w path (CWave segs),
               let! p := done (generate_procedure_drivingv1 i (reg r) path t) in
               with_diag generate_procedure_diagcyclev3 r p)
          end
      end
    else (w, let! p := done (generate_procedure_regcyclev3 i (reg r) t) in with_diag generate_procedure_diagcyclev3 r p).
  (** for [do_row], beep/protocol/generate_protocol.py:117-209 *)
  Definition not_found (r : row) : outcome := Failed ("Unable to find template: " ++ template r) "Not Found".
  (** for [do_row], beep/protocol/generate_protocol.py:117-209 *)
  Definition finish (w : world) (path : string) (x : result content) : world * outcome :=
    match x with Err e => (w, Raised e) | Ok c => (write w path c, Made path) end.
  (** beep/protocol/generate_protocol.py:117-209, one row *)
  Definition do_row (i : Z) (r : row) (w : world) : world * outcome :=
    if contains ".000" (template r) then
      let path := under "procedures" (filename_prefix r ++ ".000") in
      let length := match templates (template r) with Some t => Some (List.length t) | None => None end in
      let is n := match length with Some k => Nat.eqb k n | None => false end in
      if is 23%nat && String.eqb (template r) "EXP.000" then
        finish w path (let! t := load "EXP.000" in let! p := from_exp (cutoff_voltage r) (charge_rate r) (discharge_rate r) t in Ok (CProcedure p))
      else if is 72%nat then
        finish w path (let! t := load "diagnosticV2.000" in
                       let! p := done (from_regcyclev2 (reg r) t) in
                       let! p := with_diag add_procedure_diagcyclev2 r p in Ok (CProcedure p))
      else if is 96%nat then
        let '(w, p) := match templates (template r) with Some t => long_procedure i r w t | None => (w, Err FileNotFoundError) end in
        finish w path (let! p := p in Ok (CProcedure p))
      else (w, not_found r)
    else if contains ".mps" (template r) && String.eqb (template r) "formationV1.mps" then
      finish w (under "settings" (filename_prefix r ++ ".mps")) (let! t := formation r in Ok (CSettings t))
    else if contains ".sdu" (template r) then (w, Failed "Schedule file generation is not yet implemented" "Not Implemented")
    else (w, not_found r).
  (** beep/protocol/generate_protocol.py:117-209, the loop; an exception leaves everything written so far *)
  Fixpoint do_rows (i : Z) (l : list row) (w : world) : world * result (list (row * outcome)) :=
    match l with
    | [] => (w, Ok [])
    | r :: l =>
        match do_row i r w with
        | (w, Raised e) => (w, Err e)
        | (w, o) => let '(w, x) := do_rows (i + 1) l w in (w, let! os := x in Ok ((r, o) :: os))
        end
    end.
  (** for [generate_protocol_files_from_csv], beep/protocol/generate_protocol.py:89-242 *)
  Definition made (l : list (row * outcome)) : list string := flat_map (fun x => match snd x with Made f => [f] | _ => [] end) l.
  (** for [generate_protocol_files_from_csv], beep/protocol/generate_protocol.py:89-242 *)
  Definition failed (l : list (row * outcome)) : list (string * string) := flat_map (fun x => match snd x with Failed c e => [(c, e)] | _ => [] end) l.
  (** for [generate_protocol_files_from_csv], beep/protocol/generate_protocol.py:89-242 *)
  Definition names (l : list (row * outcome)) : list string := flat_map (fun x => match snd x with Made _ => [(filename_prefix (fst x) ++ "_")%string] | _ => [] end) l.
  (** for [generate_protocol_files_from_csv], beep/protocol/generate_protocol.py:89-242 *)
  Definition nat_text (n : nat) : string := str_int (Z.of_nat n).
  (** beep/protocol/generate_protocol.py:89-242 generate_protocol_files_from_csv *)
  Definition generate_protocol_files_from_csv (l : list row) (w : world) : world * result report :=
    let '(w, x) := do_rows 0 l w in
    match x with
    | Err e => (w, Err e)
    | Ok os =>
        let ok := made os in let bad := failed os in let n := (List.length ok + List.length bad)%nat in
        (write w (under "names" names_file) (CNames (names os)),
         Ok {| made_files := ok; failures := bad;
               res := if match bad with [] => true | _ => false end then "success" else "error";
               comment := "Generated " ++ nat_text (List.length ok) ++ " of " ++ nat_text n ++ " protocols";
               error := if match bad with [] => true | _ => false end then "" else "Failed to generate " ++ nat_text (List.length bad) ++ " of " ++ nat_text n ++ " protocols" |}%string)
    end.
End Generate.
