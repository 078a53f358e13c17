(** Maccor waveform files, driving profiles and multistep charging currents.
    Models beep/protocol/maccor.py:1334-1371, 1454-1556 and beep/utils/waveform.py.
    Simplifications: numbers are exact; power, current and velocity are never missing (times may
    be); the text of the file is given as a list of segments. *)
From Verif Require Import Py Num Model_Text Model_Interp.

(** beep/conversion_schemas/maccor_waveform_conversion.yaml, MACCOR_WAVEFORM_CONFIG *)
Record mwf_config :=
  { control_mode : string; value_scale : Q;
    charge_limit_mode : string; charge_limit_value : Q; discharge_limit_mode : string; discharge_limit_value : Q;
    charge_end_mode : string; charge_end_operation : string; charge_end_mode_value : Q;
    discharge_end_mode : string; discharge_end_operation : string; discharge_end_mode_value : Q;
    report_mode : string; report_value : Q; range : string }.
(** One line of the file, 1536-1551. (for [to_segment], beep/protocol/maccor.py:1481-1534) *)
Record segment :=
  { sg_state : string; sg_control : string; sg_value : num; sg_limit_mode : string; sg_limit_value : Q; sg_duration : nat;
    sg_end_mode : string; sg_operation : string; sg_end_value : Q; sg_report_mode : string; sg_report_value : Q; sg_range : string }.
(** The columns of the frame that is given. (for [generate_maccor_waveform_file], beep/protocol/maccor.py:1454-1556) *)
Record wave := { wv_time : list num; wv_power : option (list Q); wv_current : option (list Q) }.

(** max(abs(series)): the built-in max, ValueError if there is nothing
    (for [peak_of], beep/protocol/maccor.py:1454-1556 generate_maccor_waveform_file) *)
Fixpoint largest (m : Q) (l : list Q) : Q := match l with [] => m | x :: r => largest (if Qlt_bool m x then x else m) r end.
(** for [segments_of], beep/protocol/maccor.py:1454-1556 generate_maccor_waveform_file *)
Definition peak_of (l : list Q) : result Q := match map Qabs l with [] => Err ValueError | x :: r => Ok (largest x r) end.
(** beep/protocol/maccor.py:1476, 1490: series / max * scale; zero divided by zero is NaN *)
Definition scaled (peak scale x : Q) : num := if Qeq_bool peak 0 then None else Some (x / peak * scale).
(** beep/protocol/maccor.py:1477: diff().fillna(0).ne(0).cumsum() *)
Definition changed (d : num) : bool := match d with None => false | Some x => negb (Qeq_bool x 0) end.
(** for [step_counter], beep/protocol/maccor.py:1454-1556 generate_maccor_waveform_file *)
Fixpoint counters_from (c : nat) (l : list bool) : list nat := match l with [] => [] | b :: r => let c' := if b then S c else c in c' :: counters_from c' r end.
(** beep/protocol/maccor.py:1454-1556 generate_maccor_waveform_file *)
Definition step_counter (l : list num) : list nat := counters_from 0 (map changed (diff l)).
(** beep/protocol/maccor.py:1478: groupby(step_counter).agg({time: count, value: first}); the counters go up by one,
    so the groups are those numbered from 0 to the last; "first" is the first value present *)
Fixpoint first_present (l : list num) : num := match l with [] => None | Some x :: _ => Some x | None :: r => first_present r end.
(** beep/protocol/maccor.py:1454-1556 generate_maccor_waveform_file *)
Definition agg (rows : list (nat * (num * num))) (k : nat) : nat * num :=
  let g := filter (fun r => Nat.eqb (fst r) k) rows in
  (length (dropna (map (fun r => fst (snd r)) g)), first_present (map (fun r => snd (snd r)) g)).
(** for [segments_of], beep/protocol/maccor.py:1454-1556 generate_maccor_waveform_file *)
Definition groups (times values : list num) : list (nat * num) :=
  let cs := step_counter values in
  map (agg (combine cs (combine times values))) (match cs with [] => [] | _ => seq 0 (S (last cs 0%nat)) end).
(** np.round(abs(x), 5) (for [to_segment], beep/protocol/maccor.py:1481-1534) *)
Definition magnitude (v : num) : num := match v with None => None | Some x => Some (inject_Z (round_even (Qabs x * inject_Z (10 ^ 5))) / inject_Z (10 ^ 5)) end.
(** beep/protocol/maccor.py:1481-1534: control mode ([power]: the column is "power"), direction, limits *)
Definition to_segment (cfg : mwf_config) (power : bool) (g : nat * num) : segment :=
  let '(d, v) := g in
  let zero := match v with Some x => Qeq_bool x 0 | None => false end in
  let down := match v with Some x => Qle_bool x 0 | None => false end in
  {| sg_state := if down then "D" else "C";
     sg_control := if power && String.eqb (control_mode cfg) "P" && zero then "I" else control_mode cfg;
     sg_value := magnitude v;
     sg_limit_mode := if down then discharge_limit_mode cfg else charge_limit_mode cfg;
     sg_limit_value := if down then discharge_limit_value cfg else charge_limit_value cfg;
     sg_duration := d;
     sg_end_mode := if down then discharge_end_mode cfg else charge_end_mode cfg;
     sg_operation := if down then discharge_end_operation cfg else charge_end_operation cfg;
     sg_end_value := if down then discharge_end_mode_value cfg else charge_end_mode_value cfg;
     sg_report_mode := report_mode cfg; sg_report_value := report_value cfg; sg_range := range cfg |}.
(** beep/protocol/maccor.py:1454-1556 generate_maccor_waveform_file *)
Definition segments_of (cfg : mwf_config) (power : bool) (times : list num) (values : list Q) : result (list segment) :=
  let! peak := peak_of values in
  Ok (map (to_segment cfg power) (groups times (map (scaled peak (value_scale cfg)) values))).
(** beep/protocol/maccor.py:1454-1556 generate_maccor_waveform_file: without either column [mask] is not bound *)
Definition generate_maccor_waveform_file (cfg : mwf_config) (w : wave) : result (list segment) :=
  match wv_power w, wv_current w with
  | Some p, _ => segments_of cfg true (wv_time w) p
  | None, Some c => segments_of cfg false (wv_time w) c
  | None, None => Err UnboundLocalError
  end.

(** beep/protocol/maccor.py:1334-1371 insert_driving_parametersv1, given the profile; the first component is the
    module's configuration after the call, which it changes.  Not modelled: the name of
    the file and the directory. *)
Record driving_params := { max_profile_power : Q; power_scaling : Q; profile_charge_limit : Q; drive_cutoff : Q; n_repeats : Z }.
(** for [insert_driving_parametersv1], beep/protocol/maccor.py:1334-1370 insert_driving_parametersv1 *)
Definition driving_config (g : mwf_config) (d : driving_params) : mwf_config :=
  {| control_mode := control_mode g; value_scale := max_profile_power d * power_scaling d;
     charge_limit_mode := charge_limit_mode g; charge_limit_value := profile_charge_limit d;
     discharge_limit_mode := discharge_limit_mode g; discharge_limit_value := discharge_limit_value g;
     charge_end_mode := charge_end_mode g; charge_end_operation := charge_end_operation g; charge_end_mode_value := profile_charge_limit d + (5 # 100);
     discharge_end_mode := discharge_end_mode g; discharge_end_operation := discharge_end_operation g; discharge_end_mode_value := drive_cutoff d - (1 # 10);
     report_mode := report_mode g; report_value := report_value g; range := range g |}.
(** time_axis + [time_axis[-1] + el for el in time]
    (for [insert_driving_parametersv1], beep/protocol/maccor.py:1334-1370 insert_driving_parametersv1) *)
Fixpoint time_axis (base acc : list Q) (k : nat) : list Q :=
  match k with O => acc | S k => time_axis base (acc ++ map (fun el => last acc 0 + el) base) k end.
(** for [insert_driving_parametersv1], beep/protocol/maccor.py:1334-1370 insert_driving_parametersv1 *)
Fixpoint times_over {A} (l : list A) (k : nat) : list A := match k with O => [] | S k => l ++ times_over l k end.
(** beep/protocol/maccor.py:1334-1370 insert_driving_parametersv1 *)
Definition insert_driving_parametersv1 (g : mwf_config) (profile : list (Q * Q)) (d : driving_params) : mwf_config * result (list segment) :=
  let g' := driving_config g d in
  let times := time_axis (map fst profile) (map fst profile) (Z.to_nat (n_repeats d - 1)) in
  let power := times_over (map snd profile) (Z.to_nat (n_repeats d)) in
  (g', if (length times =? length power)%nat
       then generate_maccor_waveform_file g' {| wv_time := map Some times; wv_power := Some power; wv_current := None |}
       else Err ValueError).

(** ** beep/utils/waveform.py *)
(** beep/utils/waveform.py:10-60 convert_velocity_to_power_waveform, after reading the file.  np.gradient with
    coordinates: one-sided differences at the ends, weighted central differences inside. *)
Definition central (a b c : Q * Q) : Q :=
  let hd := fst c - fst b in let hs := fst b - fst a in
  (hs * hs * snd c + (hd * hd - hs * hs) * snd b - hd * hd * snd a) / (hs * hd * (hd + hs)).
(** for [inner_gradient], beep/utils/waveform.py:10-60 convert_velocity_to_power_waveform *)
Definition slope (a b : Q * Q) : Q := (snd b - snd a) / (fst b - fst a).
(** beep/utils/waveform.py:10-60 convert_velocity_to_power_waveform *)
Fixpoint inner_gradient (l : list (Q * Q)) : list Q :=
  match l with
  | a :: ((b :: c :: _) as r) => central a b c :: inner_gradient r
  | [a; b] => [slope a b]
  | _ => []
  end.
(** for [convert_velocity_to_power_waveform], beep/utils/waveform.py:10-60 convert_velocity_to_power_waveform *)
Definition gradient (l : list (Q * Q)) : result (list Q) :=
  match l with a :: b :: _ => Ok (slope a b :: inner_gradient l) | _ => Err ValueError end.
(** for [convert_velocity_to_power_waveform], beep/utils/waveform.py:10-60 convert_velocity_to_power_waveform *)
Definition velocity_scale (units : string) : result Q :=
  if String.eqb units "mph" then Ok (1600 / 3600) else if String.eqb units "kmph" then Ok (1000 / 3600) else if String.eqb units "mps" then Ok 1
  else Err (OtherError "NotImplementedError").
(** theta is 0, its cosine 1; the wind stands still
    (for [convert_velocity_to_power_waveform], beep/utils/waveform.py:10-60 convert_velocity_to_power_waveform) *)
Definition power_at (g v : Q) : Q :=
  - (1500 * g + (1 # 100) * 1500 * (98 # 10) + (1 # 2) * (1225 # 1000) * (34 # 100) * (175 # 100) * ((v - 0) * (v - 0))) * v.
(** beep/utils/waveform.py:10-60 convert_velocity_to_power_waveform *)
Definition convert_velocity_to_power_waveform (units : string) (l : list (Q * Q)) : result (list (Q * Q)) :=
  let! s := velocity_scale units in
  let l := map (fun tv => (fst tv, snd tv * s)) l in
  let! g := gradient l in
  Ok (map (fun '((t, v), g) => (t, power_at g v)) (combine l g)).

(** np.heaviside(x, 0.5) (for [windows], beep/utils/waveform.py:188-220) *)
Definition heaviside (x : Q) : Q := if Qlt_bool x 0 then 0 else if Qeq_bool x 0 then 1 # 2 else 1.
(** beep/utils/waveform.py:188-220 get_input_current_multistep_soc_as_x *)
Fixpoint windows (rates mesh : list Q) (soc : Q) {struct mesh} : result Q :=
  match mesh with
  | a :: ((b :: _) as r) =>
      match rates with
      | [] => Err IndexError
      | c :: rates => let! w := windows rates r soc in Ok (c * heaviside (soc - a) * heaviside (b - soc) + w)
      end
  | _ => Ok 0
  end.
(** for [get_input_current_multistep_soc_as_x], beep/utils/waveform.py:187-217 get_input_current_multistep_soc_as_x *)
Definition soc_points : nat := 1000.
(** beep/utils/waveform.py:188-220 *)
Definition multistep_at (final soc_f : Q) (rates mesh : list Q) (soc : Q) : result Q :=
  let! w := windows rates mesh soc in
  Ok (w + final * heaviside (soc - last mesh 0) * heaviside (soc_f - soc)).
(** beep/utils/waveform.py:187-217 get_input_current_multistep_soc_as_x *)
Definition get_input_current_multistep_soc_as_x (final soc_i soc_f : Q) (rates mesh : list Q) : result (list Q * list Q) :=
  match mesh with
  | [] => Err ValueError            (* np.zeros of a negative size *)
  | [_] => Err UnboundLocalError    (* the loop is not entered *)
  | _ => let socs := linspace soc_i soc_f soc_points in
         let! cs := mapM (multistep_at final soc_f rates mesh) socs in Ok (cs, socs)
  end.
(** beep/utils/waveform.py:276-290 get_time_vector_from_c_vs_soc, for currents other than zero *)
Fixpoint unit_inner (l : list Q) : list Q :=
  match l with
  | a :: ((b :: c :: _) as r) => (c - a) / 2 :: unit_inner r
  | [a; b] => [b - a]
  | _ => []
  end.
(** beep/utils/waveform.py:276-290 *)
Definition unit_gradient (l : list Q) : list Q := match l with a :: b :: _ => (b - a) :: unit_inner l | _ => [] end.
(** for [get_time_vector_from_c_vs_soc], beep/utils/waveform.py:292-304 get_time_vector_from_c_vs_soc *)
Fixpoint running (t : Q) (l : list Q) : list Q := match l with [] => [] | x :: r => (t + x) :: running (t + x) r end.
(** beep/utils/waveform.py:292-304 get_time_vector_from_c_vs_soc *)
Definition get_time_vector_from_c_vs_soc (socs currents : list Q) : list Q :=
  map (fun t => t * 3600) (running 0 (map (fun '(c, g) => 1 / c * g) (combine currents (unit_gradient socs)))).
(** beep/utils/waveform.py:107: assert np.all(np.diff(mesh_points)) > 0: true if no difference is zero *)
Definition mesh_accepted (mesh : list Q) : bool := forallb (fun d => negb (Qeq_bool d 0)) (dropna (diff (map Some mesh))).
