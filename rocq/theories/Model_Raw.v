(** Raw cycler rows and the step classification of beep/structure/base.py. *)
From Verif Require Import Py Num.

(** One row of [BEEPDatapath.raw_data]: the standard columns
    (beep/structure/base.py:617-627, 216-223, 243-256, 1404-1407).  [date_time] is
    date_time_iso in seconds since the epoch, [None] for NaT.
    Simplification: cycle_index and step_index are integers without NaN. *)
Record row := {
  cycle_index : Z; step_index : Z;
  test_time : num; voltage : num; current : num;
  charge_capacity : num; discharge_capacity : num;
  charge_energy : num; discharge_energy : num;
  internal_resistance : num; temperature : num;
  date_time : option Z;
  wf_chg_cap : num; wf_dis_cap : num }.

(** beep/structure/base.py:1347-1350 – total_cap_diffs of one column. *)
Definition total_diff (l : list num) : num := nsub (col_max l) (col_min l).
(** beep/structure/base.py:1351 – (cdiff / total) > 0.99; x/0 is +inf, NaN or -inf. *)
Definition flagged (total : num) (d : num) : bool :=
  match d, total with
  | Some d, Some t => if Qeq_bool t 0 then Qlt_bool 0 d else Qlt_bool (99 # 100) (d / t)
  | _, _ => false
  end.
(** beep/structure/base.py:1350-1355 – mean of the unflagged differences of one column. *)
Definition avg_delta (l : list num) : num :=
  mean (map (fun d => if flagged (total_diff l) d then None else d) (diff l)).

(** beep/structure/base.py:1357-1369 *)
Definition charging_of (avg_chg avg_dchg : num) : option bool :=
  match avg_chg, avg_dchg with
  | None, None => None
  | None, Some d => Some (Qlt_bool 0 d)
  | Some c, None => Some (Qlt_bool 0 c)
  | Some c, Some d =>
      if Qlt_bool d c && Qlt_bool 0 c then Some true
      else if Qlt_bool c d && Qlt_bool 0 d then Some false
      else None
  end.
(** beep/structure/base.py:1323-1372 step_is_chg_state *)
Definition is_charging (s : list row) : option bool :=
  charging_of (avg_delta (map charge_capacity s)) (avg_delta (map discharge_capacity s)).

(** beep/structure/base.py:1323-1372 step_is_chg_state *)
Definition step_is_chg_state (s : list row) (chg indeterminate : bool) : bool :=
  match is_charging s with
  | None => Bool.eqb chg indeterminate
  | Some b => Bool.eqb chg b
  end.
(** beep/structure/base.py:1375-1380 *)
Definition step_is_dchg (s : list row) (indeterminate : bool) := step_is_chg_state s false indeterminate.
(** beep/structure/base.py:1379-1380 step_is_chg *)
Definition step_is_chg (s : list row) (indeterminate : bool) := step_is_chg_state s true indeterminate.

(** beep/structure/base.py:1383-1415 step_is_waveform; [has_wf] says whether the frame has
    "_wf_" columns.  The [chg_filter] is called with its default
    indeterminate_step_charge=True. *)
Definition notna (x : num) : bool := match x with Some _ => true | None => false end.
(** beep/structure/base.py:1383-1415 step_is_waveform *)
Definition step_is_waveform (has_wf : bool) (s : list row) (chg : bool) : bool :=
  if has_wf then
    step_is_chg_state s chg true &&
    (existsb (fun r => notna (wf_chg_cap r)) s || existsb (fun r => notna (wf_dis_cap r)) s)
  else false.
