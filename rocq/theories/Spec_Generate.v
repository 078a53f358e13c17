(** Vocabulary for C45. *)
From Verif Require Import Py Num Model_Text Model_Procedure Model_Waveform Model_Generate.

Definition has (piece s : string) : Prop := exists a b, s = (a ++ piece ++ b)%string.
Fixpoint nulls (k : nat) : string := match k with O => ""%string | S k => String "0" (nulls k) end.
(** the number, padded with zeros to six digits *)
Definition padded (n : nat) (s : string) : Prop :=
  exists k, s = (nulls k ++ str_int (Z.of_nat n))%string /\ String.length s = Nat.max 6 (String.length (str_int (Z.of_nat n))).
Section Spec.
  Variables (templates : string -> option steps) (formation : row -> result string).
  Variables (with_diagnostics : bool) (diagnostics : list (string * diag_param)).
  Variables (profiles : string -> result (list (Q * Q))) (charging_wave : row -> result (list segment)).
  Variables (out : string).

  Definition run_name (r : row) (s : string) : Prop := exists n, s = (project_name r ++ "_" ++ n)%string /\ padded (seq_num r) n.
  Definition has_steps (r : row) (n : nat) : Prop := has ".000" (template r) /\ exists t, templates (template r) = Some t /\ length t = n.
  (** the templates for which there is a generator *)
  Definition is_settings (r : row) : Prop := template r = "formationV1.mps"%string.
  Definition supported (r : row) : Prop :=
    has_steps r 23 /\ template r = "EXP.000"%string \/ has_steps r 72 \/ has_steps r 96 \/ is_settings r.
  (** where the file of a row goes *)
  Definition file_for (r : row) (f : string) : Prop :=
    exists s, run_name r s /\
      (is_settings r /\ f = (out ++ "/settings/" ++ s ++ ".mps")%string \/ ~ is_settings r /\ f = (out ++ "/procedures/" ++ s ++ ".000")%string).
  Definition reason (r : row) (c e : string) : Prop :=
    (has ".sdu" (template r) /\ ~ has ".000" (template r) /\ c = "Schedule file generation is not yet implemented"%string /\ e = "Not Implemented"%string) \/
    (~ (has ".sdu" (template r) /\ ~ has ".000" (template r)) /\ c = ("Unable to find template: " ++ template r)%string /\ e = "Not Found"%string).
  (** each row is reported once, in order *)
  Inductive reported : list row -> list string -> list (string * string) -> list string -> Prop :=
  | reported_none : reported [] [] [] []
  | reported_made r l f s ok bad names : supported r -> file_for r f -> run_name r s -> reported l ok bad names ->
      reported (r :: l) (f :: ok) bad ((s ++ "_")%string :: names)
  | reported_failed r l c e ok bad names : ~ supported r -> reason r c e -> reported l ok bad names -> reported (r :: l) ok ((c, e) :: bad) names.

  (** the one set of diagnostic parameters with the name in the row *)
  Definition diagnostics_of (r : row) (d : diag_param) : Prop :=
    with_diagnostics = true /\ exists l l', diagnostics = l ++ (diagnostic_parameter_set r, d) :: l' /\
      ~ In (diagnostic_parameter_set r) (map fst l) /\ ~ In (diagnostic_parameter_set r) (map fst l').
  Definition rapid (r : row) : Prop := project_name r = "RapidC"%string.
  Definition drive (r : row) : Prop := project_name r = "Drive"%string.
  Definition wave_file_of (r : row) (path : string) : Prop :=
    rapid r /\ path = (out ++ "/mwf_files/" ++ project_name r ++ "_" ++ charge_type_1 r ++ "_" ++ str_int (Z.of_nat (seq_num r)) ++ ".MWF")%string \/
    drive r /\ path = (out ++ "/mwf_files/" ++ discharge_profile r ++ "_x" ++ str_int (row_repeats r) ++ "_" ++ str_int (py_int (row_power r * row_scaling r)) ++ "W.MWF")%string.
  (** the waveform a row asks for, whatever the configuration says elsewhere *)
  Definition wave_for (g : mwf_config) (r : row) (segs : list segment) : Prop :=
    rapid r /\ charging_wave r = Ok segs \/
    drive r /\ exists profile, profiles (discharge_profile r) = Ok profile /\ snd (insert_driving_parametersv1 g profile (drive_of r)) = Ok segs.
  (** the file that row [i] asks for: nothing but that row decides *)
  Inductive asks_for (i : Z) (r : row) : content -> Prop :=
  | asks_exp t p : template r = "EXP.000"%string -> templates "EXP.000"%string = Some t -> length t = 23%nat ->
      from_exp (cutoff_voltage r) (charge_rate r) (discharge_rate r) t = Ok p -> asks_for i r (CProcedure p)
  | asks_v2 t d p0 p : has_steps r 72 -> templates "diagnosticV2.000"%string = Some t -> diagnostics_of r d ->
      from_regcyclev2 (reg r) t = (p0, None) -> add_procedure_diagcyclev2 (capacity_nominal (reg r)) d p0 = (p, None) -> asks_for i r (CProcedure p)
  | asks_v3 t d p0 p : has_steps r 96 -> templates (template r) = Some t -> ~ rapid r -> ~ drive r -> diagnostics_of r d ->
      generate_procedure_regcyclev3 i (reg r) t = (p0, None) -> generate_procedure_diagcyclev3 (capacity_nominal (reg r)) d p0 = (p, None) -> asks_for i r (CProcedure p)
  | asks_drive t d path p0 p : has_steps r 96 -> templates (template r) = Some t -> drive r -> diagnostics_of r d -> wave_file_of r path ->
      generate_procedure_drivingv1 i (reg r) path t = (p0, None) -> generate_procedure_diagcyclev3 (capacity_nominal (reg r)) d p0 = (p, None) -> asks_for i r (CProcedure p)
  | asks_rapid t d path segs p0 p : has_steps r 96 -> templates (template r) = Some t -> rapid r -> diagnostics_of r d -> wave_file_of r path -> charging_wave r = Ok segs ->
      generate_procedure_chargingv1 i (reg r) (charge_current_param_4 r) (charge_fast_soc_limit r) path (map sg_limit_value segs) t = (p0, None) ->
      generate_procedure_diagcyclev3 (capacity_nominal (reg r)) d p0 = (p, None) -> asks_for i r (CProcedure p)
  | asks_formation s : is_settings r -> formation r = Ok s -> asks_for i r (CSettings s).
  (** no two rows have the same project and number *)
  Definition distinct_runs (l : list row) : Prop := NoDup (map (fun r => (project_name r, seq_num r)) l).
  (** row [k] is the only one with its waveform file *)
  Definition own_wave (l : list row) (k : nat) (r : row) : Prop :=
    forall k' r' path, k' <> k -> nth_error l k' = Some r' -> has_steps r' 96 -> wave_file_of r path -> ~ wave_file_of r' path.
End Spec.
