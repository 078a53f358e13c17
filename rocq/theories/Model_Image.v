(** The interpolated diagnostic data as images, and the cycles at which a cell reaches capacities.
    Models beep/features/core.py:662-715 (TrajectoryFastCharge) and 1078-1173 (RawInterpolatedData).
    Simplifications: the diagnostic data has the columns of [drec] and no others that could be a metric;
    a quotient by zero is infinite or missing as in IEEE arithmetic, but is only compared. *)
From Verif Require Import Py Num Model_Text Model_Diagnostic Model_Summary Model_Features Model_Stats Model_Degrade Model_Lookup Model_Hppc.

(** ** core.py:1078-1173 RawInterpolatedData *)
(** beep/features/core.py:1101-1114 validate *)
Definition image_valid (has_both : bool) (summary : option nat) : bool := check_diagnostic_validation has_both summary.

(** np.minimum and a sum: missing if one of the two is (for [image], beep/features/core.py:1144-1168) *)
Definition nmin (a b : num) : num := match a, b with Some x, Some y => Some (if Qle_bool x y then x else y) | _, _ => None end.
(** for [image], beep/features/core.py:1144-1168 *)
Definition nplus (a b : num) : num := match a, b with Some x, Some y => Some (x + y) | _, _ => None end.
(** Series.fillna(method="bfill") (for [image], beep/features/core.py:1144-1168) *)
Fixpoint bfill (l : list num) : list num :=
  match l with
  | [] => []
  | Some x :: r => Some x :: bfill r
  | None :: r => match bfill r with [] => [None] | y :: t => y :: y :: t end
  end.
(** np.nan_to_num (for [image], beep/features/core.py:1144-1168) *)
Definition nan_to_num (x : num) : num := Some (fill0 x).
(** df1[metric] (for [image], beep/features/core.py:1144-1168) *)
Definition data_column (m : string) : result (drec -> num) :=
  match sget [("voltage", q_voltage); ("test_time", q_time); ("current", q_current); ("charge_capacity", q_qc); ("discharge_capacity", q_qd);
              ("charge_energy", q_ec); ("discharge_energy", q_ed); ("charge_dQdV", q_dqc); ("discharge_dQdV", q_dqd)]%string m with
  | Some f => Ok f
  | None => Err KeyError
  end.
(** beep/features/core.py:1144-1168: the values of a metric over the records of a step *)
Definition image (impute : bool) (metric : string) (df1 : list drec) : result (list num) :=
  if String.eqb metric "capacity" || String.eqb metric "energy" then
    let! c := data_column ("charge_" ++ metric) in
    let! d := data_column ("discharge_" ++ metric) in
    let top := col_max (map c df1) in
    let series := map (fun r => nmin (c r) (nsub top (d r))) df1 in
    Ok (if impute then bfill (ffill series) else series)
  else if String.eqb metric "test_time" then
    let times := map (fun r => nsub (q_time r) (col_min (map q_time df1))) df1 in
    Ok (if impute then map nan_to_num times else times)
  else if String.eqb metric "dQdV" then
    let! c := data_column ("charge_" ++ metric) in
    let! d := data_column ("discharge_" ++ metric) in
    let sums := map (fun r => nplus (c r) (d r)) df1 in
    Ok (if impute then map nan_to_num sums else sums)
  else let! f := data_column metric in Ok (map f df1).
(** beep/features/core.py:1138 *)
Definition channel (pos : Z) (type metric : string) (i : nat) : string :=
  ("diag_cycle_" ++ str_int pos ++ "_" ++ type ++ "_" ++ metric ++ "_step_" ++ str_int (Z.of_nat i))%string.
(** beep/features/core.py:1140-1141: the records of a step of a diagnostic *)
Definition channel_rows (rows : list drec) (cycles : list Z) (pos : Z) (i : nat) : result (list drec) :=
  let! c := at_pos cycles pos in
  let df1 := in_cycle c rows in
  let! s := at_pos (uniq (map q_step df1)) (Z.of_nat i) in
  Ok (in_step s df1).
(** beep/features/core.py:1129-1168: the name and the values of each channel of a type *)
Definition type_channels (metrics : list string) (positions : list Z) (impute : bool) (data : list drec) (type : string) : result (list (string * list num)) :=
  let rows := of_type type data in
  let cycles := uniq (map q_cycle rows) in
  let! c0 := at_pos cycles 0 in
  let n_steps := length (uniq (map q_step (in_cycle c0 rows))) in
  if negb (n_steps =? 2)%nat then Ok []
  else
    let! per_metric := mapM (fun metric =>
      let! per_step := mapM (fun i =>
        mapM (fun pos =>
          let! df1 := channel_rows rows cycles pos i in
          let! v := image impute metric df1 in
          Ok (channel pos type metric i, v)) positions) (seq 0 n_steps) in
      Ok (concat per_step)) metrics in
    Ok (concat per_metric).
(** beep/features/core.py:1116-1173 create_features *)
Definition images (metrics types : list string) (positions : list Z) (impute : bool) (data : list drec) : result (list (string * list num)) :=
  let! parts := mapM (type_channels metrics positions impute data) types in
  match concat parts with
  | [] => Err ValueError                                             (* 1172: a row for a frame without columns *)
  | cs => Ok cs
  end.

(** ** core.py:662-715 TrajectoryFastCharge *)
(** cap.min() / cap.max() < k (for [trajectory_valid], beep/features/core.py:677-696) *)
Definition ratio_lt (a b : num) (k : Q) : bool :=
  match a, b with
  | Some x, Some y => if Qeq_bool y 0 then Qlt_bool x 0 else Qlt_bool (x / y) k
  | _, _ => false
  end.
(** beep/features/core.py:677-696 validate *)
Definition trajectory_valid (tmax : Q) (summary : list (Z * num)) : bool :=
  ratio_lt (col_min (map snd summary)) (col_max (map snd summary)) tmax.
Section Trajectory.
  (** str of a threshold (for [trajectory], beep/features/core.py:698-715) *)
  Variable show : Q -> string.
  (** beep/features/core.py:698-715 create_features, with the names of the columns (beep/structure/base.py:1218-1220) *)
  Definition trajectory (tmax tmin interval : Q) (summary : list (Z * num)) : result (list (string * Z)) :=
    let! cycles := capacities_to_cycles summary tmax tmin interval in
    Ok (combine (map (fun t => ("capacity_" ++ show t)%string) (thresholds tmax tmin interval)) cycles).
End Trajectory.
