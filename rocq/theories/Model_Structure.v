(** Model of interpolate_step / interpolate_cycles / iterate_steps_in_cycle
    (beep/structure/base.py:581-749, 1094-1126), one value column at a time. *)
From Verif Require Import Py Num Model_Raw Model_Interp Model_Diagnostic.

(** for [axis_val], beep/structure/base.py:638-646 *)
Inductive axis := AxVoltage | AxCharge | AxDischarge | AxTime | AxOther.
(** for [axis_range], beep/structure/base.py:638-646 *)
Definition axis_val (ax : axis) (r : row) : num :=
  match ax with
  | AxVoltage => voltage r | AxCharge => charge_capacity r
  | AxDischarge => discharge_capacity r | AxTime => test_time r
  | AxOther => None
  end.

(** A row of the interpolated frame: cycle, step number, charge?, axis, value.
    (for [interpolate_one], beep/structure/base.py:634-672) *)
Record irow := { i_cycle : Z; i_step : Z; i_chg : bool; i_x : Q; i_y : num }.

(** sorted(...) and groupby key order: ascending integers. (for [sort_z], beep/structure/base.py:1094-1126) *)
Fixpoint insert_z (x : Z) (l : list Z) : list Z :=
  match l with [] => [x] | y :: r => if Z.leb x y then x :: l else y :: insert_z x r end.
(** for [iterate_steps], beep/structure/base.py:1094-1126 *)
Fixpoint sort_z (l : list Z) : list Z :=
  match l with [] => [] | x :: r => insert_z x (sort_z r) end.

(** for [any_waveform], beep/structure/base.py:721-729 *)
Definition rows_of_step (raw : list row) (c s : Z) : list row :=
  filter (fun r => Z.eqb (cycle_index r) c && Z.eqb (step_index r) s) raw.

(** beep/structure/base.py:1094-1126: steps of one cycle in groupby order, kept when they have
    the requested direction. *)
Definition iterate_steps (raw : list row) (ind : bool) (c : Z) (chg : bool) : list (Z * list row) :=
  let cycle_rows := filter (fun r => Z.eqb (cycle_index r) c) raw in
  let steps := sort_z (uniq (map step_index cycle_rows)) in
  let groups := map (fun s => (s, filter (fun r => Z.eqb (step_index r) s) cycle_rows)) steps in
  filter (fun g => step_is_chg_state (snd g) chg ind) groups.

(** beep/structure/base.py:638-646 *)
Definition axis_range (raw step : list row) (ax : axis) (v_range : Q * Q) : result (num * num) :=
  match ax with
  | AxCharge | AxDischarge => Ok (col_min (map (axis_val ax) raw), col_max (map (axis_val ax) raw))
  | AxTime => Ok (col_min (map (axis_val ax) step), col_max (map (axis_val ax) step))
  | AxVoltage => Ok (Some (fst v_range), Some (snd v_range))
  | AxOther => Err ValueError
  end.

(** A NaN in the axis (or in its range) makes pandas' index interpolation raise.
    (for [interpolate_one], beep/structure/base.py:634-672) *)
Definition axis_samples (ax : axis) (col : row -> num) (step : list row) : result (list sample) :=
  mapM (fun r => match axis_val ax r with
                 | Some x => Ok (x, col r)
                 | None => Err NotImplementedError
                 end) step.

(** beep/structure/base.py:634-672: one step of one cycle; [None] when the step is skipped. *)
Definition interpolate_one (raw : list row) (v_range : Q * Q) (resolution : nat) (ax : axis)
    (col : row -> num) (chg : bool) (c s : Z) (step : list row) : result (list irow) :=
  if (length step <? 2)%nat then Ok []                                         (* 636-637 *)
  else
    let! rng := axis_range raw step ax v_range in
    match rng with
    | (Some a, Some b) =>
        let! smp := axis_samples ax col step in
        let! out := interpolate_df smp (Some (a, b)) resolution in
        Ok (map (fun p => {| i_cycle := c; i_step := s; i_chg := chg; i_x := fst p; i_y := snd p |}) out)
    | _ => Err NotImplementedError
    end.

(** beep/structure/base.py:581-682 interpolate_step *)
Definition interpolate_step (raw : list row) (ind : bool) (v_range : Q * Q) (resolution : nat)
    (chg : bool) (reg_cycles : list Z) (ax : axis) (exclude : list Z) (col : row -> num)
  : result (list irow) :=
  let cycles := sort_z (filter (fun c => mem_z c reg_cycles && negb (mem_z c exclude))
                               (uniq (map cycle_index raw))) in                (* 629-630 *)
  let keys := flat_map (fun c => map (fun g => (c, g)) (iterate_steps raw ind c chg)) cycles in
  let! blocks := mapM (fun k => interpolate_one raw v_range resolution ax col chg
                                   (fst k) (fst (snd k)) (snd (snd k))) keys in
  Ok (concat blocks).

(** beep/structure/base.py:721-729: does any regular (cycle, step) group hold a waveform? *)
Definition any_waveform (has_wf : bool) (reg : list row) (chg : bool) : bool :=
  existsb (fun r => step_is_waveform has_wf (rows_of_step reg (cycle_index r) (step_index r)) chg) reg.

(** beep/structure/base.py:685-749 interpolate_cycles; [diag] is the set of diagnostic cycles
    ([None] without diagnostic), the default v_range is given explicitly. *)
Definition interpolate_cycles (raw : list row) (ind has_wf : bool) (diag : option (list Z))
    (v_range : option (Q * Q)) (resolution : nat) (charge_axis discharge_axis : axis)
    (exclude : list Z) (col : row -> num) : result (list irow) :=
  let reg := match diag with
             | Some ix => filter (fun r => negb (mem_z (cycle_index r) ix)) raw
             | None => raw
             end in                                                             (* 708-714 *)
  let reg_cycles := uniq (map cycle_index reg) in
  let v_range := match v_range with Some v => v | None => (28 # 10, 35 # 10) end in
  let discharge_axis := if any_waveform has_wf reg false then AxTime else discharge_axis in
  let charge_axis := if any_waveform has_wf reg true then AxTime else charge_axis in
  let! dis := interpolate_step raw ind v_range resolution false reg_cycles discharge_axis exclude col in
  let! chg := interpolate_step raw ind v_range resolution true reg_cycles charge_axis exclude col in
  Ok (dis ++ chg).
