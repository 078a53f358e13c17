(** Statistics of the change between two cycles, and the fast charge features.
    Models beep/features/core.py:91-246 (CycleSummaryStats) and 476-668 (DeltaQFastCharge).
    Simplifications: the structured data has the columns the code reads; skewness, kurtosis, the
    decimal logarithm and the linear fit are parameters; an array of one statistic is not spread over
    the seven places it is assigned to. *)
From Verif Require Import Py Num Model_Summary Model_Features.

(** One row of the structured data. (for [block], beep/features/core.py:146-160) *)
Record irow := { r_cycle : Z; r_step : string; r_qc : num; r_qd : num; r_ec : num; r_ed : num }.
(** One row of the structured summary; its position is its index. (for [delta_valid], beep/features/core.py:493-520) *)
Record urow := { u_qd : num; u_tti : num; u_duration : num; u_tmax : num; u_tmin : num; u_ir : num }.

(** a - b of two numpy arrays: of the same length, or one of them of length 1
    (for [block], beep/features/core.py:146-160) *)
Definition np_sub (a b : list num) : result (list num) :=
  match a, b with
  | _, [y] => Ok (map (fun x => nsub x y) a)
  | [x], _ => Ok (map (fun y => nsub x y) b)
  | _, _ => if (length a =? length b)%nat then Ok (map (fun p => nsub (fst p) (snd p)) (combine a b)) else Err ValueError
  end.
(** sum of squared deviations from the mean over the number of values (for [statistic], beep/features/core.py:231-245) *)
Definition variance (l : list Q) : num :=
  match mean (map Some l) with
  | None => None
  | Some m => mean (map (fun x => Some ((x - m) * (x - m))) l)
  end.

Section Stats.
  (** np.log10 of a number that is not negative, minus infinity for zero; scipy's skew and
      kurtosis(fisher=False, bias=False), kurtosis() *)
  Variables (log10 : Q -> cell) (skew kurtosis kurtosis_fisher : list num -> num).
  (** for [delta_features], beep/features/core.py:522-668 *)
  Definition cell_of (x : num) : cell := match x with Some x => Number x | None => NaN end.
  (** np.log10(np.absolute(x)) (for [statistic], beep/features/core.py:231-245) *)
  Definition log_abs (x : num) : cell := match x with Some x => log10 (Qabs x) | None => NaN end.

  (** ** CycleSummaryStats *)
  (** beep/features/core.py:94 *)
  Definition supported : list string := ["var"; "min"; "mean"; "skew"; "kurtosis"; "abs"; "square"]%string.
  (** beep/features/core.py:231-245 *)
  Definition statistic (s : string) (l : list Q) : result cell :=
    if String.eqb s "var" then Ok (log_abs (variance l))
    else if String.eqb s "min" then match l with [] => Err ValueError | _ => Ok (log_abs (col_min (map Some l))) end
    else if String.eqb s "mean" then Ok (log_abs (mean (map Some l)))
    else if String.eqb s "skew" then Ok (log_abs (skew (map Some l)))
    else if String.eqb s "kurtosis" then Ok (log_abs (kurtosis (map Some l)))
    else if String.eqb s "abs" then Ok (log10 (qsum (map Qabs l)))
    else Ok (log10 (qsum (map (fun x => x * x) l))).
  (** beep/features/core.py:203-246 get_summary_statistics: in the order of the tests, whatever the order of the names *)
  Definition get_summary_statistics (names : list string) (l : list Q) : result (list cell) :=
    if existsb (fun s => negb (str_in s supported)) names then Err ValueError
    else mapM (fun s => statistic s l) (filter (fun s => str_in s names) supported).
  (** X.loc[0, a:b] = ..., seven places (for [block], beep/features/core.py:146-160) *)
  Definition seven (l : list cell) : result (list cell) := if (length l =? 7)%nat then Ok l else Err ValueError.
  (** beep/features/core.py:146-160: [first], [second] are the two cycles of cycle_comp_num *)
  Definition block (names : list string) (first second : Z) (step : string) (f : irow -> num) (data : list irow) : result (list cell) :=
    let part c := map f (filter (fun r => String.eqb (r_step r) step) (filter (fun r => Z.eqb (r_cycle r) c) data)) in
    let! d := np_sub (part second) (part first) in
    let! s := get_summary_statistics names (dropna d) in
    seven s.
  (** for [cycle_summary_stats], beep/features/core.py:127-201 *)
  Definition quantities : list string := ["charging_capacity"; "discharging_capacity"; "charging_energy"; "discharging_energy"]%string.
  (** beep/features/core.py:127-201 create_features *)
  Definition cycle_summary_stats (names : list string) (first second : Z) (data : list irow) : result (list (string * cell)) :=
    let! a := block names first second "charge" r_qc data in
    let! b := block names first second "discharge" r_qd data in
    let! c := block names first second "charge" r_ec data in
    let! d := block names first second "charge" r_ed data in
    let labels := flat_map (fun x => map (fun y => (y ++ "_" ++ x)%string) names) quantities in
    if (length labels =? 28)%nat then Ok (combine labels (a ++ b ++ c ++ d)) else Err ValueError.
  (** beep/features/core.py:98-125 validate, the columns being there *)
  Definition cycle_summary_valid (first second : Z) (data : list irow) : bool :=
    let rows c := filter (fun r => Z.eqb (r_cycle r) c) data in
    negb ((length (rows first) =? 0)%nat || (length (rows second) =? 0)%nat).

  (** ** DeltaQFastCharge (for [delta_defaults], beep/features/core.py:487-492 DeltaQFastCharge.DEFAULT_HYPERPARAMETERS) *)
  Record delta_hyper := { init_pred : Z; mid_pred : nat; final_pred : nat; n_nominal : nat }.
  (** beep/features/core.py:487-492 DeltaQFastCharge.DEFAULT_HYPERPARAMETERS *)
  Definition delta_defaults : delta_hyper := {| init_pred := 10; mid_pred := 91; final_pred := 100; n_nominal := 40 |}.
  (** np.polyfit(x, y, 1): slope and intercept (for [fit], beep/features/core.py:522-668) *)
  Variable polyfit : list (nat * num) -> result (cell * cell).
  (** beep/features/core.py:493-520 validate: the index goes from 0 on *)
  Definition delta_valid (h : delta_hyper) (summary : list urow) : bool :=
    match summary with
    | [] => false
    | _ => (final_pred h <? length summary - 1)%nat && Z.leb 0 (init_pred h) && (10 <? mid_pred h)%nat && (mid_pred h <? final_pred h)%nat
    end.
  (** series.iloc[[a, ..., b - 1]] (for [fit], beep/features/core.py:522-668) *)
  Definition positions (a b : nat) (l : list num) : result (list num) :=
    if (b <=? a)%nat then Ok [] else if (b <=? length l)%nat then Ok (firstn (b - a) (skipn a l)) else Err IndexError.
  (** for [delta_features], beep/features/core.py:522-668 *)
  Definition at_pos (i : nat) (l : list num) : result num := match nth_error l i with Some x => Ok x | None => Err IndexError end.
  (** the built-in max: a missing value is not above anything and nothing is above it
      (for [delta_features], beep/features/core.py:522-668) *)
  Definition py_max (l : list num) : result num :=
    match l with
    | [] => Err ValueError
    | x :: r => Ok (fold_left (fun m x => match m, x with Some a, Some b => if Qlt_bool a b then x else m | _, _ => m end) r x)
    end.
  (** for [delta_features], beep/features/core.py:522-668 *)
  Definition fit (a b : nat) (l : list num) : result (cell * cell) := let! p := positions a b l in polyfit (combine (seq a (b - a)) p).
  (** beep/features/core.py:572-588: the assignment of NaN is to rows 5 to 10, which do not exist *)
  Definition difference_features (d : list num) : list cell :=
    match d with
    | [] => [Number 0; Number 0; Number 0; Number 0; Number 0; Number 0]
    | x :: _ => [log_abs (col_min d); log_abs (mean d); log_abs (variance (dropna d)); log_abs (skew d); log_abs (kurtosis_fisher d); log_abs x]
    end.
  (** for [delta_features], beep/features/core.py:522-668 *)
  Definition delta_labels : list string :=
    ["discharge_capacity_cycle_2"; "max_discharge_capacity_difference"; "discharge_capacity_cycle_100";
     "integrated_time_temperature_cycles_1:100"; "charge_time_cycles_1:5";
     "abs_min_discharge_capacity_difference_cycles_2:100"; "abs_mean_discharge_capacity_difference_cycles_2:100";
     "abs_variance_discharge_capacity_difference_cycles_2:100"; "abs_skew_discharge_capacity_difference_cycles_2:100";
     "abs_kurtosis_discharge_capacity_difference_cycles_2:100"; "abs_first_discharge_capacity_difference_cycles_2:100";
     "max_temperature_cycles_1:100"; "min_temperature_cycles_1:100";
     "slope_discharge_capacity_cycle_number_2:100"; "intercept_discharge_capacity_cycle_number_2:100";
     "slope_discharge_capacity_cycle_number_91:100"; "intercept_discharge_capacity_cycle_number_91:100";
     "min_internal_resistance_cycles_2:100"; "internal_resistance_cycle_2"; "internal_resistance_difference_cycles_2:100";
     "nominal_capacity_by_median"]%string.
  (** beep/features/core.py:522-668 create_features; the hyperparameters, which it changes, are given back.
      Simplification: final_pred_cycle and mid_pred_cycle are at least 1. *)
  Definition delta_features (h : delta_hyper) (summary : list urow) (data : list irow) : delta_hyper * result (list (string * cell)) :=
    let i_final := (final_pred h - 1)%nat in
    let i_mid := (mid_pred h - 1)%nat in
    let h := {| init_pred := init_pred h; mid_pred := mid_pred h; final_pred := final_pred h; n_nominal := 40 |} in
    (h,
     let qd := map u_qd summary in
     let discharge := filter (fun r => String.eqb (r_step r) "discharge") data in
     let! q2 := at_pos 1 qd in
     let! first := positions 0 (i_final + 1) qd in
     let! largest := py_max (map (fun q => nsub q q2) first) in
     let! qn := at_pos i_final qd in
     let! tti := positions 0 (i_final + 1) (map u_tti summary) in
     let charge_time := mean (firstn 5 (skipn 1 (map u_duration summary))) in
     let curve c := map r_qd (filter (fun r => Z.eqb (r_cycle r) c) discharge) in
     let! d := np_sub (curve (Z.of_nat i_final)) (curve 9%Z) in
     let! tmax := positions 1 (i_final + 1) (map u_tmax summary) in
     let! tmin := positions 1 (i_final + 1) (map u_tmin summary) in
     let! f1 := fit 1 (i_final + 1) qd in
     let! f2 := fit i_mid (i_final + 1) qd in
     let! ir := positions 1 (i_final + 1) (map u_ir summary) in
     let ir := map (fun x => match x with Some v => if Qeq_bool v 0 then None else x | None => None end) ir in
     let! ir_min := match ir with [] => Err ValueError | _ => Ok (col_min ir) end in
     let! ir2 := at_pos 1 (map u_ir summary) in
     let! irn := at_pos i_final (map u_ir summary) in
     Ok (combine delta_labels
           ([cell_of q2; cell_of largest; cell_of qn; Number (qsum (dropna tti)); cell_of charge_time] ++ difference_features d ++
            [cell_of (col_max tmax); cell_of (col_min tmin); fst f1; snd f1; fst f2; snd f2; cell_of ir_min; cell_of ir2; cell_of (nsub irn ir2);
             cell_of (median (firstn (n_nominal h) qd))]))).
End Stats.
