(** Model of the charging waveforms: RapidChargeWave (beep/utils/waveform.py:92-266) and
    insert_charging_parametersv1 (beep/protocol/maccor.py:1373-1451).
    Simplifications: numbers are exact; no rate is zero where it is divided by.  The interpolation by
    scipy's PchipInterpolator and the root found by fsolve are parameters.  The mesh is given as floats
    (np.copy of integers would cut the middles).  Not modelled: the directory. *)
From Verif Require Import Py Num Model_Text Model_Interp Model_Waveform.

(** AssertionError (for [uniform_currents], beep/utils/waveform.py:113) *)
Definition assertion : exn := OtherError "AssertionError".
(** np.clip (for [smooth_currents], beep/utils/waveform.py:245, 257) *)
Definition clip (lo hi x : Q) : Q := if Qlt_bool hi (if Qlt_bool x lo then lo else x) then hi else if Qlt_bool x lo then lo else x.
(** beep/utils/waveform.py:233-236: the middles of the windows; the last point stays *)
Fixpoint middles (mesh : list Q) : list Q :=
  match mesh with
  | a :: ((b :: _) as r) => (a + b) / 2 :: middles r
  | _ => mesh
  end.
(** np.max of two numbers (for [smooth_currents], beep/utils/waveform.py:253) *)
Definition qmax (a b : Q) : Q := if Qlt_bool a b then b else a.
(** np.min of two numbers (for [smooth_currents], beep/utils/waveform.py:255) *)
Definition qmin (a b : Q) : Q := if Qlt_bool b a then b else a.
(** np.max of an array, ValueError without numbers (for [uniform_currents], beep/utils/waveform.py:111-112) *)
Definition top (l : list Q) : result Q := match l with [] => Err ValueError | x :: r => Ok (largest x r) end.
(** interp1d(xs, ys, bounds_error=False, fill_value=(first, last)), linear between points in order
    (beep/utils/waveform.py:118-128) *)
Fixpoint segment_at (pts : list (Q * Q)) (x : Q) : option Q :=
  match pts with
  | a :: ((b :: _) as r) => if Qle_bool x (fst b) then Some (snd a + (x - fst a) * ((snd b - snd a) / (fst b - fst a))) else segment_at r x
  | _ => None
  end.
(** beep/utils/waveform.py:116-128 *)
Definition resample (xs ys : list Q) (x : Q) : Q :=
  if Qlt_bool x (hd 0 xs) then hd 0 ys
  else if Qlt_bool (last xs 0) x then last ys 0
  else match segment_at (combine xs ys) x with Some y => y | None => last ys 0 end.

Section RapidCharge.
  (** PchipInterpolator(xs, ys, extrapolate=0)(x) (for [smooth_currents], beep/utils/waveform.py:249, 261-263) *)
  Variable pchip : list Q -> list Q -> Q -> num.
  (** fsolve (for [both_currents], beep/utils/waveform.py:154-159) *)
  Variable fsolve : (Q -> Q) -> Q.
  (** beep/utils/waveform.py:85-89 *)
  Variables final soc_i soc_f max_rate min_rate : Q.

  (** beep/utils/waveform.py:241-243, for points that PchipInterpolator takes *)
  Definition nodes (mesh : list Q) : list Q := soc_i :: middles mesh ++ [soc_f * (101 # 100)].
  (** beep/utils/waveform.py:245-247, 257-259 *)
  Definition clipped (start : Q) (rates : list Q) : list Q := map (clip min_rate max_rate) (start :: rates ++ [last rates 0]).
  (** beep/utils/waveform.py:219-266 get_input_current_smooth_soc_as_x *)
  Definition smooth_currents (rates mesh : list Q) : result (list Q * list Q) :=
    match rates with
    | [] => Err IndexError
    | c0 :: _ =>
        if negb (length (clipped c0 rates) =? length (nodes mesh))%nat then Err ValueError else
        match mesh with
        | _ :: m1 :: _ =>
            match pchip (nodes mesh) (clipped c0 rates) m1 with
            | None => Err ValueError
            | Some e =>
                let start := qmin max_rate (qmax (c0 - (e - c0)) c0) in
                let socs := linspace soc_i soc_f soc_points in
                Ok (map (fun s => match pchip (nodes mesh) (clipped start rates) s with Some c => c | None => 0 end) socs, socs)
            end
        | _ => Err IndexError
        end
    end.
  (** beep/utils/waveform.py:161-162, 282: all rates but the first and the last are moved *)
  Definition shifted (rates : list Q) (offset : Q) : list Q :=
    match rates with
    | [] => []
    | [c] => [c; c]
    | c :: r => c :: map (fun x => x + offset) (removelast r) ++ [last r 0]
    end.
  (** the time at which the final state of charge is reached (beep/utils/waveform.py:152, 183-185) *)
  Definition end_time (socs times : list Q) : result Q :=
    match filter (fun st => Qle_bool soc_f (fst st)) (combine socs times) with [] => Err IndexError | (_, t) :: _ => Ok t end.
  (** beep/utils/waveform.py:169-185 offset_value *)
  Definition offset_value (t_end : Q) (rates mesh : list Q) (offset : Q) : result Q :=
    let! cs := smooth_currents (shifted rates offset) mesh in
    let! t := end_time (snd cs) (get_time_vector_from_c_vs_soc (snd cs) (fst cs)) in Ok (t_end - t).
  (** beep/utils/waveform.py:132-167 get_input_currents_both_to_final_soc: the smooth currents with their times, then the
      steps with theirs.  Simplification: an exception while fsolve runs is met again afterwards, as the shape of its
      argument does not depend on the offset. *)
  Definition both_currents (rates mesh : list Q) : result (list Q * list Q * list Q * list Q) :=
    let! ms := get_input_current_multistep_soc_as_x final soc_i soc_f rates mesh in
    let step_times := get_time_vector_from_c_vs_soc (snd ms) (fst ms) in
    let! t := end_time (snd ms) step_times in
    let offset := fsolve (fun o => match offset_value t rates mesh o with Ok d => d | Err _ => 0 end) in
    let! sm := smooth_currents (shifted rates offset) mesh in
    Ok (fst sm, get_time_vector_from_c_vs_soc (snd sm) (fst sm), fst ms, step_times).
  (** beep/utils/waveform.py:92-130 get_currents_with_uniform_time_basis *)
  Definition uniform_currents (rates mesh : list Q) : result (list Q * list Q * list Q) :=
    if negb (mesh_accepted mesh) then Err assertion else
    let! b := both_currents rates mesh in
    let '(smooth, smooth_t, steps, steps_t) := b in
    let! ts := top smooth_t in
    let! tm := top steps_t in
    let n := round_even ts in
    if negb (n =? round_even tm)%Z then Err assertion else
    let seconds := map (fun k => inject_Z (Z.of_nat k)) (seq 0 (Z.to_nat n)) in
    Ok (map (resample smooth_t smooth) seconds, map (resample steps_t steps) seconds, seconds).
End RapidCharge.

(** the parameters of a charge (for [insert_charging_parametersv1], beep/protocol/maccor.py:1381-1391) *)
Record charge_params :=
  { ch_type : string; start_soc : Q; rate_1 : Q; rate_2 : Q; rate_3 : Q; rate_4 : Q; soc_1 : Q; soc_2 : Q; fast_soc_limit : Q;
    cutoff_voltage : Q; voltage_offset : Q; nominal_capacity : Q; wave_name : string }.
(** beep/protocol/maccor.py:1396-1412, 1438-1439 *)
Definition charge_config (p : charge_params) (largest_rate : Q) : mwf_config :=
  {| control_mode := "I"; value_scale := nominal_capacity p * largest_rate;
     charge_limit_mode := "V"; charge_limit_value := cutoff_voltage p - voltage_offset p;
     discharge_limit_mode := "V"; discharge_limit_value := 27 # 10;
     charge_end_mode := "V"; charge_end_operation := ">="; charge_end_mode_value := 425 # 100;
     discharge_end_mode := "V"; discharge_end_operation := "<="; discharge_end_mode_value := 25 # 10;
     report_mode := "T"; report_value := 3; range := "A" |}.
(** beep/protocol/maccor.py:1373-1451 insert_charging_parametersv1.  Simplification: the name of the file, made of the
    project, the type and the number, is given. *)
Definition insert_charging_parametersv1 (pchip : list Q -> list Q -> Q -> num) (fsolve : (Q -> Q) -> Q) (max_rate min_rate : Q) (p : charge_params) : result (list segment) :=
  let rates := [rate_1 p; rate_2 p; rate_3 p; rate_4 p] in
  let mesh := [start_soc p; soc_1 p; soc_2 p; fast_soc_limit p] in
  let! u := uniform_currents pchip fsolve (rate_4 p) (start_soc p) (fast_soc_limit p) max_rate min_rate rates mesh in
  let '(smooth, steps, seconds) := u in
  let! ts := top smooth in
  if Qlt_bool max_rate ts then Err assertion else
  let! tm := top steps in
  if Qlt_bool max_rate tm then Err assertion else
  let! current := if String.eqb (ch_type p) "smooth" then Ok smooth
                  else if String.eqb (ch_type p) "step" then Ok steps
                  else Err (OtherError "NotImplementedError") in
  let! peak := top current in
  if (25 <=? String.length (wave_name p))%nat then Err assertion else
  generate_maccor_waveform_file (charge_config p peak) {| wv_time := map Some seconds; wv_power := None; wv_current := Some current |}.
