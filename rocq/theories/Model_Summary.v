(** Model of the cycle summary (beep/structure/base.py:752-901), cycle life
    (1129-1221), paused time (1224-1227, 1426-1451) and the constant-voltage
    segment (1454-1529).  Not modelled: time_temperature_integrated, dtype casts
    and rounding to 2 decimals of whole seconds. *)
From Verif Require Import Py Num Model_Raw Model_Diagnostic Model_Structure.

(** groupby(...).agg("first") / agg("last"): first / last value that is not null.
    (for [last_valid], beep/structure/base.py:785-877) *)
Fixpoint first_valid {A} (l : list (option A)) : option A :=
  match l with [] => None | Some x :: _ => Some x | None :: r => first_valid r end.
(** for [summary_row], beep/structure/base.py:785-877 *)
Definition last_valid {A} (l : list (option A)) : option A := first_valid (rev l).

(** a / b with a non-finite result replaced by NaN (beep/structure/base.py:799-804). *)
Definition ndiv_finite (a b : num) : num :=
  match a, b with
  | Some x, Some y => if Qeq_bool y 0 then None else Some (x / y)
  | _, _ => None
  end.
(** beep/structure/base.py:806-807: |x| > error_threshold becomes NaN. *)
Definition clean (threshold : Q) (x : num) : num :=
  match x with Some v => if Qlt_bool threshold (Qabs v) then None else Some v | None => None end.

(** ** beep/structure/base.py:1426-1451 get_max_paused_over_threshold (times in whole seconds) *)
Definition max_paused (times : list (option Z)) (threshold : Q) : Q :=
  match col_max (diff (map (option_map inject_Z) times)) with
  | Some m => if Qlt_bool threshold m then m else 0
  | None => 0
  end.

(** ** beep/structure/base.py:1454-1483 get_CV_segment_from_charge *)
Definition nlt (a : num) (b : Q) : bool := match a with Some x => Qlt_bool x b | None => false end.
(** for [not_cv], beep/structure/base.py:1479 *)
Definition ngt (a : num) (b : Q) : bool := match a with Some x => Qlt_bool b x | None => false end.
(** abs(x[i] / dt[i]); only evaluated when dt[i] >= dt_tol. (for [not_cv], beep/structure/base.py:1479) *)
Definition abs_rate (x dt : num) : num :=
  match x, dt with Some a, Some t => Some (Qabs (a / t)) | _, _ => None end.
(** beep/structure/base.py:1479 – the loop continues at the pair of rows (p, r). *)
Definition not_cv (dt_tol dv_tol di_tol : Q) (p r : row) : bool :=
  let dt := nsub (test_time r) (test_time p) in
  nlt dt dt_tol || ngt (abs_rate (nsub (voltage r) (voltage p)) dt) dv_tol
  || nlt (abs_rate (nsub (current r) (current p)) dt) di_tol.
(** beep/structure/base.py:1478-1480 – value of [i] when the loop stops. *)
Fixpoint cv_index (dt_tol dv_tol di_tol : Q) (l : list row) : nat :=
  match l with
  | p :: (r :: _) as t => if not_cv dt_tol dv_tol di_tol p r then S (cv_index dt_tol dv_tol di_tol t) else O
  | _ => O
  end.
(** for [cv_segment], beep/structure/base.py:1483 *)
Definition nge (a b : num) : bool :=
  match a, b with Some x, Some y => Qle_bool y x | _, _ => false end.
(** beep/structure/base.py:1483 – rows with test_time >= test_time.iat[i - 1]; iat[-1] is the
    last row. *)
Definition cv_segment (dt_tol dv_tol di_tol : Q) (charge : list row) : result (list row) :=
  match charge with
  | [] => Ok []
  | _ =>
      match py_nth charge (Z.of_nat (cv_index dt_tol dv_tol di_tol charge) - 1) with
      | Some r0 => Ok (filter (fun r => nge (test_time r) (test_time r0)) charge)
      | None => Err IndexError
      end
  end.
(** default tolerances, beep/structure/base.py:1454 *)
Definition cv_default := cv_segment 1 (1 # 100000) (1 # 10000).
(** beep/structure/base.py:1486-1529; [None] for an empty segment *)
Definition cv_time (cv : list row) : num :=
  match cv, last_error cv with r0 :: _, Some r1 => nsub (test_time r1) (test_time r0) | _, _ => None end.
(** for [summary_row], beep/structure/base.py:785-877 *)
Definition cv_current (cv : list row) : num :=
  match last_error cv with Some r1 => current r1 | None => None end.
(** for [summary_row], beep/structure/base.py:785-877 *)
Definition cv_capacity (cv : list row) : num :=
  match cv, last_error cv with r0 :: _, Some r1 => nsub (charge_capacity r1) (charge_capacity r0) | _, _ => None end.

(** ** beep/structure/base.py:752-901 summarize_cycles *)
Record srow := {
  s_cycle : Z;                                   (* index label and cycle_index column *)
  s_dis : num; s_chg : num; s_dis_en : num; s_chg_en : num;
  s_eff : num; s_res : num; s_tmax : num; s_tavg : num; s_tmin : num; s_tti : num; s_date : option Z;
  s_chg_thr : num; s_en_thr : num;
  s_duration : option Z; s_paused : Q;
  s_cv_time : num; s_cv_current : num; s_cv_cap : num }.

(** for [charge_durations], beep/structure/base.py:814-842 *)
Definition cycle_rows (raw : list row) (c : Z) : list row := filter (fun r => Z.eqb (cycle_index r) c) raw.
(** groupby keys: the cycles of a frame in ascending order. (for [summary_cycles], beep/structure/base.py:786-796) *)
Definition cycles_of (raw : list row) : list Z := sort_z (uniq (map cycle_index raw)).

(** beep/structure/base.py:786-796: the cycles of the summary. *)
Definition summary_cycles (raw : list row) (diag : option (list Z)) : list Z :=
  let reg := match diag with
             | Some ix => filter (fun r => negb (mem_z (cycle_index r) ix)) raw
             | None => raw
             end in
  filter (fun c => mem_z c (uniq (map cycle_index reg))) (cycles_of raw).

(** beep/structure/base.py:814-842: the charge durations in the order of all cycles of the raw
    data; the series has the positional index 0, 1, 2, ... *)
Definition charge_durations (raw : list row) (nominal full : Q) : list (option Z) :=
  map (fun c =>
         let rows := cycle_rows raw c in
         let start := first_valid (map date_time rows) in
         let finish := first_valid (map date_time
                         (filter (fun r => nge (charge_capacity r) (Some (nominal * full))) rows)) in
         match finish, start with Some f, Some s => Some (f - s)%Z | _, _ => None end)
      (cycles_of raw).
(** beep/structure/base.py:841: assignment of a series to a frame aligns on index labels. *)
Definition aligned {A} (s : list (option A)) (label : Z) : option A :=
  if (0 <=? label)%Z then match nth_error s (Z.to_nat label) with Some (Some v) => Some v | _ => None end else None.

(** beep/structure/base.py:837-851 integrate.trapz of the temperature over the minutes since the
    first time stamp of the cycle; NaN spreads. *)
Definition nadd (a b : num) : num := match a, b with Some x, Some y => Some (x + y) | _, _ => None end.
(** for [trapz], beep/structure/base.py:752-901 summarize_cycles *)
Definition trapezium (a b : num * num) : num :=
  match a, b with
  | (Some x0, Some y0), (Some x1, Some y1) => Some ((x1 - x0) * (y1 + y0) / 2)
  | _, _ => None
  end.
(** beep/structure/base.py:752-901 summarize_cycles *)
Fixpoint trapz (l : list (num * num)) : num :=
  match l with
  | a :: l' => match l' with b :: _ => nadd (trapezium a b) (trapz l') | [] => Some 0 end
  | [] => Some 0
  end.
(** for [time_temperature], beep/structure/base.py:785-877 *)
Definition minutes_since (start : option Z) (r : row) : num :=
  match date_time r, start with Some t, Some s => Some (inject_Z (t - s) / 60) | _, _ => None end.
(** for [summary_row], beep/structure/base.py:785-877 *)
Definition time_temperature (rows : list row) : num :=
  let start := first_valid (map date_time rows) in
  trapz (map (fun r => (minutes_since start r, temperature r)) rows).

(** Everything of a summary row that depends on its own cycle only. (for [summary_all], beep/structure/base.py:785-877) *)
Definition summary_row (raw : list row) (err_thr : Q) (durations : list (option Z)) (c : Z)
    (thr en_thr : num) : result srow :=
  let rows := cycle_rows raw c in
  let dis := col_max (map discharge_capacity rows) in
  let chg := col_max (map charge_capacity rows) in
  let dis_en := col_max (map discharge_energy rows) in
  let chg_en := col_max (map charge_energy rows) in
  let! cv := cv_default (filter (fun r => ngt (current r) 0) rows) in
  Ok {| s_cycle := c; s_dis := dis; s_chg := chg;
        s_dis_en := clean err_thr dis_en; s_chg_en := clean err_thr chg_en;
        s_eff := ndiv_finite dis_en chg_en;
        s_res := last_valid (map internal_resistance rows);
        s_tmax := col_max (map temperature rows); s_tavg := mean (map temperature rows);
        s_tmin := col_min (map temperature rows);
        s_tti := time_temperature rows;
        s_date := first_valid (map date_time rows);
        s_chg_thr := thr; s_en_thr := en_thr;
        s_duration := aligned durations c;
        s_paused := max_paused (map date_time rows) 3600;
        s_cv_time := cv_time cv; s_cv_current := cv_current cv; s_cv_cap := cv_capacity cv |}.

(** zip of the cycles with the two running totals (for [summary_all], beep/structure/base.py:785-877) *)
Fixpoint zip3 {A B C} (a : list A) (b : list B) (c : list C) : list (A * (B * C)) :=
  match a, b, c with
  | x :: a', y :: b', z :: c' => (x, (y, z)) :: zip3 a' b' c'
  | _, _, _ => []
  end.

(** The summary before the last-cycle rule, beep/structure/base.py:785-877. *)
Definition summary_all (raw : list row) (diag : option (list Z)) (nominal full err_thr : Q)
  : result (list srow) :=
  let cs := summary_cycles raw diag in
  let chgs := map (fun c => col_max (map charge_capacity (cycle_rows raw c))) cs in
  let ens := map (fun c => clean err_thr (col_max (map charge_energy (cycle_rows raw c)))) cs in
  let durations := charge_durations raw nominal full in
  mapM (fun k => summary_row raw err_thr durations (fst k) (fst (snd k)) (snd (snd k)))
       (zip3 cs (cumsum chgs) (cumsum ens)).

(** for [drop_last_rule], beep/structure/base.py:752-901 summarize_cycles *)
Definition max_z (l : list Z) : Z := match l with [] => 0 | x :: r => fold_left Z.max r x end.

(** beep/structure/base.py:879-901: the last-cycle rule. *)
Definition ratio_gt (a : num) (k : Q) (b : num) : bool :=
  match a, b with Some x, Some y => Qlt_bool (k * y) x | _, _ => false end.
(** beep/structure/base.py:752-901 summarize_cycles *)
Definition drop_last_rule (raw : list row) (ratio vmin vmax : Q) (summary : list srow) : result (list srow) :=
  if (length summary =? 1)%nat then Ok summary
  else
    let last_voltage := map voltage (cycle_rows raw (max_z (map cycle_index raw))) in
    if nlt (col_min last_voltage) vmin && ngt (col_max last_voltage) vmax then
      match last_error summary with
      | None => Err IndexError
      | Some s => if ratio_gt (s_dis s) ratio (s_chg s) then Ok summary else Ok (removelast summary)
      end
    else Ok (removelast summary).

(** beep/structure/base.py:752-901 summarize_cycles *)
Definition summarize_cycles (raw : list row) (diag : option (list Z))
    (nominal full ratio vmin vmax err_thr : Q) : result (list srow) :=
  let! all := summary_all raw diag nominal full err_thr in
  drop_last_rule raw ratio vmin vmax all.

(** ** beep/structure/base.py:1129-1162 get_cycle_life *)
Fixpoint insert_q (x : Q) (l : list Q) : list Q :=
  match l with [] => [x] | y :: r => if Qle_bool x y then x :: l else y :: insert_q x r end.
(** beep/structure/base.py:1129-1162 get_cycle_life *)
Fixpoint sort_q (l : list Q) : list Q := match l with [] => [] | x :: r => insert_q x (sort_q r) end.
(** for [median], beep/structure/base.py:1129-1162 get_cycle_life *)
Fixpoint all_some {A} (l : list (option A)) : option (list A) :=
  match l with
  | [] => Some []
  | Some x :: r => option_map (cons x) (all_some r)
  | None :: _ => None
  end.
(** np.median: NaN if a value is NaN or there is none.
    (for [max_capacity], beep/structure/base.py:1129-1162 get_cycle_life) *)
Definition median (l : list num) : num :=
  match all_some l with
  | None => None
  | Some xs =>
      let s := sort_q xs in
      let n := length s in
      match nth_error s (n / 2), nth_error s ((n - 1) / 2) with
      | Some a, Some b => Some ((a + b) / 2)
      | _, _ => None
      end
  end.
(** last / max <= threshold with IEEE division (for [get_cycle_life], beep/structure/base.py:1129-1162 get_cycle_life) *)
Definition ratio_le (a b : num) (k : Q) : bool :=
  match a, b with
  | Some x, Some y => if Qeq_bool y 0 then Qlt_bool x 0 else Qle_bool (x / y) k
  | _, _ => false
  end.
(** for [get_cycle_life], beep/structure/base.py:1129-1162 get_cycle_life *)
Definition max_capacity (summary : list (Z * num)) (cutoff : nat) : num :=
  if (cutoff <? length summary)%nat then median (firstn cutoff (map snd summary)) else Some (11 # 10).
(** [summary]: index label and discharge_capacity of every row of the summary.
    (beep/structure/base.py:1129-1162 get_cycle_life) *)
Definition get_cycle_life (summary : list (Z * num)) (cutoff : nat) (threshold : Q) : result Z :=
  let mc := max_capacity summary cutoff in
  match last_error summary with
  | None => Err IndexError
  | Some (_, last) =>
      if ratio_le last mc threshold then
        match find (fun r => match snd r, mc with
                             | Some q, Some m => Qlt_bool q (threshold * m)
                             | _, _ => false
                             end) summary with
        | Some (label, _) => Ok label
        | None => Err IndexError
        end
      else Ok (Z.of_nat (length summary) + 1)%Z
  end.

(** ** base.py:1196-1221 capacities_to_cycles *)
(** np.around to 2 decimals: ties to even. (for [around2], beep/structure/base.py:1196-1221 capacities_to_cycles) *)
Definition round_half_even (q : Q) : Z :=
  let f := Qfloor q in
  let d := q - inject_Z f in
  if Qlt_bool d (1 # 2) then f
  else if Qlt_bool (1 # 2) d then (f + 1)%Z
  else if Z.even f then f else (f + 1)%Z.
(** for [thresholds], beep/structure/base.py:1196-1221 capacities_to_cycles *)
Definition around2 (q : Q) : Q := inject_Z (round_half_even (q * 100)) / 100.
(** np.arange(start, stop, step): ceil((stop - start) / step) values.
    (for [thresholds], beep/structure/base.py:1196-1221 capacities_to_cycles) *)
Definition arange (start stop step : Q) : list Q :=
  map (fun i => start + inject_Z (Z.of_nat i) * step)
      (seq 0 (Z.to_nat (Qceiling ((stop - start) / step)))).
(** for [capacities_to_cycles], beep/structure/base.py:1196-1221 capacities_to_cycles *)
Definition thresholds (tmax tmin interval : Q) : list Q := map around2 (arange tmax tmin (- interval)).
(** beep/structure/base.py:1196-1221 capacities_to_cycles *)
Definition capacities_to_cycles (summary : list (Z * num)) (tmax tmin interval : Q) : result (list Z) :=
  mapM (get_cycle_life summary 40) (thresholds tmax tmin interval).

(** ** beep/structure/base.py:1165-1193 cycles_to_capacities, integer arguments with
    cycle_min >= 0 and cycle_interval > 0.  A column that is never assigned
    keeps 0.0; columns beyond the preallocated ones appear on assignment, and
    a wrong number of columns makes the renaming raise ValueError. *)
Definition cycles_to_capacities (caps : list num) (cmin cmax interval : nat) : result (list (nat * num)) :=
  let ncols := ((cmax - cmin) / interval)%nat in
  let idx := map (fun i => cmin + i * interval)%nat (seq 0 ((cmax - cmin + interval - 1) / interval)) in
  let cols := filter (fun k => (fst k <? ncols)%nat || (snd k <? length caps)%nat)
                     (combine (seq 0 (length idx)) idx) in
  if (length cols =? length idx)%nat then
    Ok (map (fun c => (c, match nth_error caps c with Some q => q | None => Some 0 end)) idx)
  else Err ValueError.

(** beep/structure/base.py:1224-1227 paused_intervals *)
Definition paused_intervals (raw : list row) : list (Z * Q) :=
  map (fun c => (c, max_paused (map date_time (cycle_rows raw c)) 3600)) (cycles_of raw).
