(** Model of interpolate_diagnostic_cycles and summarize_diagnostic
    (beep/structure/base.py:904-1092).  Values are modelled for the columns test_time,
    charge_capacity, discharge_capacity and one further column [col]; pandas treats the columns
    independently.  Not modelled: the conversion of the columns to their types (1038, 1090), which
    rounds to single precision. *)
From Verif Require Import Py Num Model_Raw Model_Interp Model_Diagnostic Model_Structure Model_Summary.

(** beep/structure/base.py:937-941: counter of the series of consecutive records with one step index *)
Fixpoint count_steps (prev : option Z) (k : Z) (l : list row) : list (Z * row) :=
  match l with
  | [] => []
  | r :: l' =>
      let k' := if match prev with Some s => Z.eqb (step_index r) s | None => false end then k else (k + 1)%Z in
      (k', r) :: count_steps (Some (step_index r)) k' l'
  end.
(** beep/structure/base.py:904-1040 interpolate_diagnostic_cycles *)
Definition counted (raw : list row) (c : Z) : list (Z * row) := count_steps None 0 (cycle_rows raw c).

(** beep/structure/base.py:943, 964: groups by cycle, step index and counter, in ascending order of the keys *)
Record group := { u_cycle : Z; u_step : Z; u_counter : Z; u_rows : list row }.
(** for [groups], beep/structure/base.py:904-1040 *)
Definition step_groups (raw : list row) (c : Z) : list group :=
  let rows := counted raw c in
  flat_map (fun s =>
    let of_step := filter (fun p => Z.eqb (step_index (snd p)) s) rows in
    map (fun k => {| u_cycle := c; u_step := s; u_counter := k;
                     u_rows := map snd (filter (fun p => Z.eqb (fst p) k) of_step) |})
        (sort_z (uniq (map fst of_step))))
    (sort_z (uniq (map (fun p => step_index (snd p)) rows))).
(** for [interpolate_diagnostic], beep/structure/base.py:904-1040 *)
Definition groups (raw : list row) (ix : list Z) : list group :=
  flat_map (step_groups raw) (sort_z (filter (fun c => mem_z c ix) (uniq (map cycle_index raw)))).

(** A row of the result.  [k_on_time]: interpolated on the time, not the voltage.
    (for [interpolate_group], beep/structure/base.py:968-1027) *)
Record krow := {
  k_cycle : Z; k_type : string; k_step : Z; k_counter : Z; k_steptype : Z;
  k_on_time : bool; k_x : Q; k_voltage : num; k_time : num; k_q : num; k_d : num; k_y : num;
  k_ddq : num; k_cdq : num }.

(** beep/structure/base.py:968-1000: the axis and its range *)
Definition diag_axis (hppc : bool) (v_delta_min : Q) (fallback : option (Q * Q)) (rows : list row) : axis * (num * num) :=
  let v := (col_min (map voltage rows), col_max (map voltage rows)) in
  let t := (col_min (map test_time rows), col_max (map test_time rows)) in
  let dv := nsub (snd v) (fst v) in
  if hppc && nge dv (Some v_delta_min) then (AxVoltage, v)
  else if nlt dv v_delta_min then (AxTime, t)
  else (AxVoltage, match fallback with Some (a, b) => (Some a, Some b) | None => v end).

(** index of a list (for [interpolate_group], beep/structure/base.py:968-1027) *)
Fixpoint index_z (x : Z) (l : list Z) (i : Z) : result Z :=
  match l with [] => Err ValueError | y :: r => if Z.eqb x y then Ok i else index_z x r (i + 1)%Z end.

(** y.diff() / v.diff(); x / 0 is not finite and modelled as missing
    (for [interpolate_group], beep/structure/base.py:968-1027) *)
Fixpoint slopes (prev : option (num * num)) (l : list (num * num)) : list num :=
  match l with
  | [] => []
  | (v, y) :: l' => match prev with Some (v0, y0) => ndiv_finite (nsub y y0) (nsub v v0) | None => None end :: slopes (Some (v, y)) l'
  end.

(** beep/structure/base.py:968-1027: one group *)
Definition interpolate_group (cfg : config) (tres vres : nat) (v_delta_min : Q) (fallback : option (Q * Q)) (col : row -> num)
    (raw : list row) (g : group) : result (list krow) :=
  let (ax, rng) := diag_axis (mem_z (u_cycle g) (g_hppc cfg)) v_delta_min fallback (u_rows g) in
  let n := match ax with AxTime => tres | _ => vres end in
  match rng with
  | (Some a, Some b) =>
      let column f := let! smp := axis_samples ax f (u_rows g) in interpolate_df smp (Some (a, b)) n in
      let! ys := column col in
      let! qs := column charge_capacity in
      let! ds := column discharge_capacity in
      let! ts := column test_time in
      let! vs := column voltage in
      let vs := match ax with AxTime => map snd vs | _ => map (fun p => Some (fst p)) vs end in     (* the axis column itself *)
      let ts := match ax with AxTime => map (fun p => Some (fst p)) ts | _ => map snd ts end in
      let! type := match d_get Z.eqb (g_by_ix cfg) (u_cycle g) with Some t => Ok t | None => Err KeyError end in
      let! st := index_z (u_step g) (uniq (map step_index (cycle_rows raw (u_cycle g)))) 0 in
      let ddq := slopes None (combine vs (map snd ds)) in
      let cdq := slopes None (combine vs (map snd qs)) in
      let rows := map (fun w => let '(p, (q, (d, (t, (v, (dd, cd)))))) := w in
                    {| k_cycle := u_cycle g; k_type := type; k_step := u_step g; k_counter := u_counter g; k_steptype := st;
                       k_on_time := match ax with AxTime => true | _ => false end;
                       k_x := fst p; k_voltage := v; k_time := t; k_q := q; k_d := d; k_y := snd p; k_ddq := dd; k_cdq := cd |})
                    (combine ys (combine (map snd qs) (combine (map snd ds) (combine ts (combine vs (combine ddq cdq)))))) in
      Ok (if (length rows <? 2)%nat then [] else rows)                                              (* 1023-1027 *)
  | _ => Err NotImplementedError
  end.

(** beep/structure/base.py:1031-1035: sorted by cycle, counter and time, missing times last *)
Definition time_leb (a b : num) : bool :=
  match a, b with Some x, Some y => Qle_bool x y | Some _, None => true | None, Some _ => false | None, None => true end.
(** beep/structure/base.py:904-1040 interpolate_diagnostic_cycles *)
Definition krow_leb (a b : krow) : bool :=
  if Z.eqb (k_cycle a) (k_cycle b) then
    if Z.eqb (k_counter a) (k_counter b) then time_leb (k_time a) (k_time b) else Z.leb (k_counter a) (k_counter b)
  else Z.leb (k_cycle a) (k_cycle b).
(** for [sort_k], beep/structure/base.py:904-1040 *)
Fixpoint insert_k (r : krow) (l : list krow) : list krow :=
  match l with [] => [r] | s :: l' => if krow_leb r s then r :: l else s :: insert_k r l' end.
(** for [interpolate_diagnostic], beep/structure/base.py:904-1040 *)
Fixpoint sort_k (l : list krow) : list krow := match l with [] => [] | r :: l' => insert_k r (sort_k l') end.

(** beep/structure/base.py:904-1040 interpolate_diagnostic_cycles *)
Definition interpolate_diagnostic (cfg : option config) (tres vres : nat) (v_delta_min : Q) (fallback : option (Q * Q)) (col : row -> num)
    (raw : list row) : result (list krow) :=
  match cfg with
  | None => Err ValueError                                                                          (* 928-929 *)
  | Some cfg =>
      let! blocks := mapM (interpolate_group cfg tres vres v_delta_min fallback col raw) (groups raw (g_all_ix cfg)) in
      match filter (fun b => negb (length b =? 0)%nat) blocks with
      | [] => Err ValueError                                                                        (* pd.concat of nothing *)
      | bs => Ok (sort_k (concat bs))
      end
  end.

(** ** beep/structure/base.py:1042-1092 summarize_diagnostic *)
Record grow := {
  gs_cycle : Z; gs_type : string; gs_dis : num; gs_chg : num; gs_dis_en : num; gs_chg_en : num; gs_eff : num;
  gs_tmax : num; gs_tavg : num; gs_tmin : num; gs_date : option Z; gs_paused : Q;
  gs_cv_time : num; gs_cv_current : num; gs_cv_cap : num }.
(** for [diagnostic_row], beep/structure/base.py:1042-1092 summarize_diagnostic *)
Definition min_z (l : list Z) : Z := match l with [] => 0 | x :: r => fold_left Z.min r x end.
(** for [summarize_diagnostic], beep/structure/base.py:1042-1092 summarize_diagnostic *)
Definition diagnostic_row (cfg : config) (raw : list row) (c : Z) : result grow :=
  let rows := cycle_rows raw c in
  let dis := col_max (map discharge_capacity rows) in
  let chg := col_max (map charge_capacity rows) in
  let! type := match d_get Z.eqb (g_by_ix cfg) c with Some t => Ok t | None => Err KeyError end in  (* 1066-1068 *)
  let! cv := cv_default (filter (fun r => Z.eqb (step_index r) (min_z (map step_index rows))) rows) in  (* 1075-1079 *)
  Ok {| gs_cycle := c; gs_type := type; gs_dis := dis; gs_chg := chg;
        gs_dis_en := col_max (map discharge_energy rows); gs_chg_en := col_max (map charge_energy rows);
        gs_eff := ndiv_finite dis chg;
        gs_tmax := col_max (map temperature rows); gs_tavg := mean (map temperature rows); gs_tmin := col_min (map temperature rows);
        gs_date := first_valid (map date_time rows);
        gs_paused := max_paused (map date_time rows) 3600;
        gs_cv_time := cv_time cv; gs_cv_current := cv_current cv; gs_cv_cap := cv_capacity cv |}.
(** beep/structure/base.py:1042-1092 summarize_diagnostic *)
Definition summarize_diagnostic (cfg : config) (raw : list row) : result (list grow) :=
  mapM (diagnostic_row cfg raw) (filter (fun c => mem_z c (g_all_ix cfg)) (cycles_of raw)).
