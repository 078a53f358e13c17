(** Finding the parameters of a run by the name of its file, and what is decided with them.
    Models beep/deprecated/parameters_lookup.py:14-210, beep/features/core.py:1176-1232
    (ChargingProtocol) and beep/features/featurizer_helpers.py:522-530, 548-640.
    Simplifications: paths are joined with "/"; a parameter file that is read has a column seq_num of
    whole numbers, and project names have no wildcard characters; a quotient by zero is missing. *)
From Verif Require Import Py Num Model_Text Model_Cmd Model_Diagnostic Model_Summary Model_Features.

(** The names of the columns other than seq_num and, for every row, its number and its values.
    (for [ptable], beep/deprecated/parameters_lookup.py:31-62 get_protocol_parameters) *)
Record prow := { p_seq : Z; p_cells : list cell }.
(** for [directory], beep/deprecated/parameters_lookup.py:31-62 get_protocol_parameters *)
Record ptable := { p_columns : list string; p_rows : list prow }.
(** A directory of parameter files; an entry that is itself a directory has no table.
    (for [glob], beep/deprecated/parameters_lookup.py:31-62 get_protocol_parameters) *)
Definition directory := list (string * option ptable).

(** beep/deprecated/parameters_lookup.py:14-28 *)
Definition get_project_sequence (path : string) : list string :=
  str_split "_" (hd ""%string (str_split "." (basename path))).
(** beep/deprecated/parameters_lookup.py:47, 84-86 glob(name + "*"): hidden files only match a name that begins with a dot *)
Definition matches (name file : string) : bool := prefix name file && (negb (prefix "." file) || prefix "." name).
(** beep/deprecated/parameters_lookup.py:31-62 get_protocol_parameters *)
Definition glob (dir : directory) (name : string) : directory := filter (fun e => matches name (fst e)) dir.
(** for [get_protocol_parameters], beep/deprecated/parameters_lookup.py:31-62 *)
Definition read_csv (content : option ptable) : result ptable :=
  match content with Some t => Ok t | None => Err (OtherError "IsADirectoryError") end.
(** beep/deprecated/parameters_lookup.py:31-62 *)
Definition get_protocol_parameters (dir : directory) (filepath : string) : result (option (list prow * ptable)) :=
  let parts := get_project_sequence filepath in
  match glob dir (hd ""%string parts) with
  | [] => Ok None
  | [(_, content)] =>
      let! t := read_csv content in
      match parts with
      | _ :: n :: _ =>
          let! k := py_int n in
          match filter (fun r => Z.eqb (p_seq r) k) (p_rows t) with
          | [] => Ok None
          | rows => Ok (Some (rows, t))
          end
      | _ => Err IndexError
      end
  | _ => Err AssertionError
  end.

(** A value of a row; KeyError when there is no such column.
    (for [first_value], beep/deprecated/parameters_lookup.py:64-104) *)
Definition value (t : ptable) (c : string) (r : prow) : result cell :=
  if String.eqb c "seq_num" then Ok (Number (inject_Z (p_seq r)))
  else match sget (combine (p_columns t) (p_cells r)) c with Some v => Ok v | None => Err KeyError end.
(** for [charging_features], beep/features/core.py:1219-1232 *)
Definition has_column (t : ptable) (c : string) : bool := String.eqb c "seq_num" || str_in c (p_columns t).
(** for [determine_structuring_parameters], beep/deprecated/parameters_lookup.py:107-210 determine_structuring_parameters *)
Definition cell_num (v : cell) : num := match v with Number x => Some x | _ => None end.
(** rows[c].iloc[0] (for [get_diagnostic_parameters], beep/deprecated/parameters_lookup.py:64-104) *)
Definition first_value (rows : list prow) (t : ptable) (c : string) : result cell :=
  match rows with r :: _ => value t c r | [] => Err IndexError end.

(** beep/deprecated/parameters_lookup.py:64-104 *)
Definition get_diagnostic_parameters (dir : directory) (set : string) (project : string) : result (cell * cell) :=
  match glob dir project with
  | [] => Ok (Number (27 # 10), Number (42 # 10))
  | [(_, content)] =>
      let! t := read_csv content in
      let! sets := mapM (value t "diagnostic_parameter_set") (p_rows t) in
      let rows := map fst (filter (fun p => match snd p with Text s => String.eqb s set | _ => false end) (combine (p_rows t) sets)) in
      let! lo := first_value rows t "diagnostic_discharge_cutoff_voltage" in
      let! hi := first_value rows t "diagnostic_charge_cutoff_voltage" in
      Ok (lo, hi)
  | _ => Err AssertionError
  end.

(** ** core.py:1176-1232 ChargingProtocol *)
(** beep/features/featurizer_helpers.py:630-640; the summary of the run is absent, None, or has a number of rows *)
Definition check_diagnostic_validation (has_both : bool) (summary : option nat) : bool :=
  has_both && match summary with Some (S _) => true | _ => false end.
(** beep/features/core.py:1200-1217 ChargingProtocol.validate *)
Definition charging_validate (paths : list (string * string)) (has_both : bool) (summary : option nat) : bool :=
  if negb (smem paths "raw" || smem paths "structured") then false else check_diagnostic_validation has_both summary.
(** beep/features/core.py:1219-1232: the columns of the features and, for each row, its values *)
Definition charging_features (dir : directory) (quantities : list string) (paths : list (string * string)) : result (list (list cell)) :=
  let! path := match sget paths "raw" with
               | Some p => Ok p
               | None => match sget paths "structured" with Some p => Ok p | None => Err KeyError end
               end in
  let! found := get_protocol_parameters dir path in
  match found with
  | None => Err TypeError
  | Some (rows, t) =>
      if forallb (has_column t) quantities then mapM (fun r => mapM (fun c => value t c r) quantities) rows else Err KeyError
  end.

(** ** beep/deprecated/parameters_lookup.py:107-210 determine_structuring_parameters *)
Definition steps_of (raw : list rawrow) (c : Z) : list Z := uniq (map w_step (filter (fun r => Z.eqb (w_cycle r) c) raw)).
(** for [diagnostic_starts], beep/deprecated/parameters_lookup.py:157-194 *)
Definition same_set (a b : list Z) : bool := forallb (fun x => mem_z x b) a && forallb (fun x => mem_z x a) b.
(** beep/deprecated/parameters_lookup.py:162-171, 183-186 the number of steps of each of five cycles *)
Definition pattern (raw : list rawrow) (c : Z) : list nat :=
  map (fun k => length (steps_of raw (c + k)%Z)) [0; 1; 2; 3; 4]%Z.
(** for [diagnostic_starts], beep/deprecated/parameters_lookup.py:157-194 *)
Fixpoint pattern_eqb (a b : list nat) : bool :=
  match a, b with [], [] => true | x :: a, y :: b => Nat.eqb x y && pattern_eqb a b | _, _ => false end.
(** for [diagnostic_starts], beep/deprecated/parameters_lookup.py:157-194 *)
Definition last_cycle (raw : list rawrow) : Z := fold_right (fun r m => Z.max (w_cycle r) m) (match raw with r :: _ => w_cycle r | [] => 0%Z end) raw.
(** beep/deprecated/parameters_lookup.py:157-194 *)
Definition diagnostic_starts (raw : list rawrow) (start : Z) : list Z :=
  let second := (1 + start + 5)%Z in
  filter (fun c =>
    if same_set (steps_of raw c) (steps_of raw 1%Z) || same_set (steps_of raw c) (steps_of raw second) then true
    else (last_cycle raw - 5 - 1 <=? c)%Z
         && (pattern_eqb (pattern raw c) (pattern raw 1%Z) || pattern_eqb (pattern raw c) (pattern raw second)))
    (uniq (map w_cycle raw)).

(** for [structuring], beep/deprecated/parameters_lookup.py:107-210 determine_structuring_parameters *)
Record available := { av_set : cell; av_types : list string; av_length : nat; av_starts : list Z }.
(** for [determine_structuring_parameters], beep/deprecated/parameters_lookup.py:107-210 determine_structuring_parameters *)
Record structuring := { sp_v_range : option (num * num); sp_resolution : Z; sp_nominal : num; sp_full : Q; sp_diag : option available }.
(** for [determine_structuring_parameters], beep/deprecated/parameters_lookup.py:107-210 determine_structuring_parameters *)
Definition hppc_rpt : list string := ["reset"; "hppc"; "rpt_0.2C"; "rpt_1C"; "rpt_2C"]%string.
(** range() of a float is a TypeError
    (for [determine_structuring_parameters], beep/deprecated/parameters_lookup.py:107-210 determine_structuring_parameters) *)
Definition whole (v : cell) : result Z :=
  match v with Number x => if Qeq_bool (inject_Z (Qfloor x)) x then Ok (Qfloor x) else Err TypeError | _ => Err TypeError end.
(** beep/deprecated/parameters_lookup.py:107-210 determine_structuring_parameters *)
Definition determine_structuring_parameters (dir : option directory) (raw_path : string) (raw : list rawrow)
    (v_range : option (num * num)) (resolution : Z) (nominal : num) (full : Q) : result structuring :=
  match dir with
  | None => Err FileNotFoundError
  | Some dir =>
      let! found := get_protocol_parameters dir raw_path in
      match found with
      | None => Ok {| sp_v_range := v_range; sp_resolution := resolution; sp_nominal := nominal; sp_full := full; sp_diag := None |}
      | Some (rows, t) =>
          let! nominal := if has_column t "capacity_nominal" then let! v := first_value rows t "capacity_nominal" in Ok (cell_num v) else Ok nominal in
          let! v_range :=
            if has_column t "discharge_cutoff_voltage" && has_column t "charge_cutoff_voltage" then
              let! lo := mapM (value t "discharge_cutoff_voltage") (p_rows t) in
              let! hi := mapM (value t "charge_cutoff_voltage") (p_rows t) in
              Ok (Some (col_min (map cell_num lo), col_max (map cell_num hi)))
            else Ok v_range in
          let! diag :=
            if has_column t "diagnostic_type" && has_column t "diagnostic_start_cycle" && has_column t "diagnostic_interval" then
              let! ty := first_value rows t "diagnostic_type" in
              match ty with
              | Text s =>
                  if String.eqb s "HPPC+RPT" then
                    let! v := first_value rows t "diagnostic_start_cycle" in
                    let! start := whole v in
                    let! set := first_value rows t "diagnostic_parameter_set" in
                    Ok (Some {| av_set := set; av_types := hppc_rpt; av_length := 5; av_starts := diagnostic_starts raw start |})
                  else Ok None
              | _ => Ok None
              end
            else Ok None in
          Ok {| sp_v_range := v_range; sp_resolution := resolution; sp_nominal := nominal; sp_full := full; sp_diag := diag |}
      end
  end.

(** ** featurizer_helpers.py:548-627 get_step_index *)
(** A record of the diagnostic cycles. (for [of_step], beep/features/featurizer_helpers.py:548-627 get_step_index) *)
Record hrow := { h_cycle : Z; h_type : string; h_step : Z; h_counter : Z; h_current : num; h_time : num }.
(** beep/features/featurizer_helpers.py:566-569 *)
Definition protocol_name (protocol : string) : string :=
  if contains "\" protocol then last (str_split "\" protocol) ""%string else basename protocol.
(** for [measure], beep/features/featurizer_helpers.py:548-627 get_step_index *)
Definition of_step (cycle : list hrow) (s : Z) : list hrow := filter (fun r => Z.eqb (h_step r) s) cycle.
(** Series.median() skips missing values (for [measure], beep/features/featurizer_helpers.py:548-627 get_step_index) *)
Definition median_of (l : list num) : num := median (map Some (dropna l)).
(** np.round(x / capacity_nominal, 2) (for [measure], beep/features/featurizer_helpers.py:548-627 get_step_index) *)
Definition c_rate (nominal x : num) : num :=
  match x, nominal with
  | Some x, Some n => if Qeq_bool n 0 then None else Some (around2 (x / n))
  | _, _ => None
  end.
(** for [measure], beep/features/featurizer_helpers.py:548-627 get_step_index *)
Definition spread (l : list num) : num := nsub (col_max l) (col_min l).
(** beep/features/featurizer_helpers.py:581-590 *)
Record measures := { m_median : num; m_mean : num; m_remaining : num; m_recurring : bool; m_duration : num }.
(** for [get_step_index], beep/features/featurizer_helpers.py:548-627 get_step_index *)
Definition measure (nominal : num) (cycle : list hrow) (s : Z) : measures :=
  let rows := of_step cycle s in
  let counters := uniq (map h_counter rows) in
  let durations := map (fun k => spread (map h_time (filter (fun r => Z.eqb (h_counter r) k) rows))) counters in
  {| m_median := c_rate nominal (median_of (map h_current rows));
     m_mean := c_rate nominal (mean (map h_current rows));
     m_remaining := nsub (col_max (map h_time cycle)) (col_max (map h_time rows));
     m_recurring := (1 <? length counters)%nat;
     m_duration := option_map (fun d => inject_Z (round_half_even d)) (median durations) |}.
(** comparisons with a missing value are false, except "different"
    (for [hppc_label], beep/features/featurizer_helpers.py:592-610) *)
Definition is (p : Q -> bool) (x : num) : bool := match x with Some v => p v | None => false end.
(** for [hppc_label], beep/features/featurizer_helpers.py:592-610 *)
Definition nequal (a b : num) : bool := match a, b with Some x, Some y => Qeq_bool x y | _, _ => false end.
(** beep/features/featurizer_helpers.py:592-610: the annotation of one step of an hppc cycle, if any *)
Definition hppc_label (m : measures) : result (option string) :=
  let rate := m_median m in
  let time := m_duration m in
  if is (fun x => Qeq_bool x 0) rate then
    if is (Qlt_bool 600) time then Ok (Some "hppc_long_rest"%string)
    else if is (fun d => Qle_bool d 600) time && is (Qlt_bool 0) time then Ok (Some "hppc_short_rest"%string)
    else Err ValueError
  else if is (fun x => Qle_bool x (- (1 # 2))) rate && is (fun d => Qlt_bool d 120) time then Ok (Some "hppc_discharge_pulse"%string)
  else if is (Qle_bool (1 # 2)) rate && is (fun d => Qlt_bool d 120) time then Ok (Some "hppc_charge_pulse"%string)
  else if negb (nequal (m_mean m) rate) && is (fun x => Qlt_bool x 0) rate && is (fun d => Qeq_bool d 0) (m_remaining m) && negb (m_recurring m)
       then Ok (Some "hppc_final_discharge"%string)
  else if nequal (m_mean m) rate && is (fun x => Qlt_bool x 0) rate && is (fun d => Qeq_bool d 0) (m_remaining m) && negb (m_recurring m)
       then Ok (Some "hppc_final_discharge"%string)
  else if nequal (m_mean m) rate && is (fun x => Qlt_bool x 0) rate
          && match m_mean m, time with Some x, Some d => Qlt_bool (5 # 100) (Qabs (x * d / 3600)) | _, _ => false end
       then Ok (Some "hppc_discharge_to_next_soc"%string)
  else if is (Qlt_bool 0) rate && is (Qlt_bool 120) time then Ok (Some "hppc_charge_to_soc"%string)
  else Ok None.
(** beep/features/featurizer_helpers.py:614-621 *)
Definition rpt_label (type : string) (m : measures) : result (option string) :=
  if is (Qlt_bool 0) (m_median m) then Ok (Some (type ++ "_charge")%string)
  else if is (fun x => Qlt_bool x 0) (m_median m) then Ok (Some (type ++ "_discharge")%string)
  else Err ValueError.
(** for [get_step_index], beep/features/featurizer_helpers.py:548-627 get_step_index *)
Fixpoint annotate (label : Z -> result (option string)) (steps : list Z) (d : list (string * Z)) : result (list (string * Z)) :=
  match steps with
  | [] => Ok d
  | s :: r =>
      let! l := label s in
      annotate label r (match l with Some k => sset d k s | None => d end)
  end.
(** beep/features/featurizer_helpers.py:581 parameter_row["capacity_nominal"].iloc[0]; there is no item of None *)
Definition nominal_of (found : option (list prow * ptable)) : result num :=
  match found with
  | None => Err TypeError
  | Some (rows, t) => let! v := first_value rows t "capacity_nominal" in Ok (cell_num v)
  end.
(** beep/features/featurizer_helpers.py:548-627 get_step_index *)
Definition get_step_index (dir : directory) (protocol : string) (data : list hrow) (type : string) (pos : Z) : result (list (string * Z)) :=
  let! found := get_protocol_parameters dir (protocol_name protocol) in
  let cycles := filter (fun r => String.eqb (h_type r) type) data in
  match py_nth (uniq (map h_cycle cycles)) pos with
  | None => Err IndexError
  | Some c =>
      let cycle := filter (fun r => Z.eqb (h_cycle r) c) cycles in
      let steps := uniq (map h_step cycle) in
      let! d :=
        if String.eqb type "hppc" then annotate (fun s => let! n := nominal_of found in hppc_label (measure n cycle s)) steps []
        else if str_in type ["rpt_0.2C"; "rpt_1C"; "rpt_2C"; "reset"]%string
             then annotate (fun s => let! n := nominal_of found in rpt_label type (measure n cycle s)) steps []
        else Err NotImplementedError in
      if Nat.eqb (length steps) (length d) then Ok d else Err AssertionError
  end.
