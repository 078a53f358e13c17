(** Fitting of half-cell curves to diagnostic cycles, second version.
    Models beep/features/intracell_analysis_v2.py:12-1324 and beep/features/intracell_losses_v2.py:14-231.
    Simplifications: numbers are exact; the tables have the columns the code reads and every SOC and
    capacity is known; the global optimiser, the standardised distance, the derivatives and the exception
    SciPy raises when it is given no points are parameters; a record of the run without a charge capacity
    (which passes the filter of the code only with step type 1) is left out. *)
From Verif Require Import Py Num Model_Text Model_Diagnostic Model_Interp Model_Degrade Model_Lookup Model_Hppc.

(** A curve: capacity or SOC, and voltage (NaN = None).
    (for [abscissas], beep/features/intracell_analysis_v2.py:961-979) *)
Definition curve := list (Q * num).
(** for [span], beep/features/intracell_analysis_v2.py:961-979 *)
Definition abscissas (l : curve) : list num := map (fun p => Some (fst p)) l.
(** for [known_part], beep/features/intracell_analysis_v2.py:981-997 *)
Definition is_known (p : Q * num) : bool := match snd p with Some _ => true | None => false end.
(** a.loc[~a.Voltage_aligned.isna()] (for [respan], beep/features/intracell_analysis_v2.py:981-997) *)
Definition known_part (l : curve) : curve := filter is_known l.
(** the number of points of every np.linspace of the module
    (for [blend_points], beep/features/intracell_analysis_v2.py:961-979) *)
Definition points : nat := 1001.

Section Interpolation.
  (** the exception of interp1d when there are no points (for [interp1d], beep/features/intracell_analysis_v2.py:981-997) *)
  Variable nothing : exn.
  (** scipy interp1d, linear, bounds_error=False: the points are sorted; outside of them the value is [below] or
      [above] (NaN by default); inside it is numpy.interp (for [respan], beep/features/intracell_analysis_v2.py:981-997) *)
  Definition interp1d (below above : num) (l : curve) : result (Q -> num) :=
    match sort_x l with
    | [] => Err nothing
    | (p :: _) as s =>
        Ok (fun x => if Qlt_bool x (fst p) then below
                     else if Qlt_bool (fst (last s p)) x then above else np_interp s x)
    end.
  (** scipy interp1d with fill_value='extrapolate' (for [blend_points], beep/features/intracell_analysis_v2.py:961-979) *)
  Definition interp1d_extrapolate (l : curve) : result (Q -> num) :=
    match l with [] => Err nothing | _ => Ok (extrapolate (sort_x l)) end.
  (** for [respan], beep/features/intracell_analysis_v2.py:981-997 *)
  Definition sample_on (f : Q -> num) (grid : list Q) : curve := map (fun x => (x, f x)) grid.
  (** the lowest and the highest abscissa (for [blend_points], beep/features/intracell_analysis_v2.py:961-979) *)
  Definition span (l : curve) : result (Q * Q) :=
    match col_min (abscissas l), col_max (abscissas l) with Some a, Some b => Ok (a, b) | _, _ => Err nothing end.
  (** for [blend_points], beep/features/intracell_analysis_v2.py:961-979 *)
  Definition min_q (a b : Q) : Q := if Qle_bool a b then a else b.
  (** for [blend_points], beep/features/intracell_analysis_v2.py:961-979 *)
  Definition max_q (a b : Q) : Q := if Qle_bool a b then b else a.

  (** ** beep/features/intracell_analysis_v2.py:935-997 blend_electrodes (and intracell_analysis.py:1176-1233).  A missing voltage in a table would
      make the code fail or give missing values; the tables given here have voltages [Q].  A blend known at
      SOC 0 only would be divided by zero: an error here. *)
  Definition table := list (Q * Q).
  (** beep/features/intracell_analysis_v2.py:935-997 blend_electrodes *)
  Definition as_curve (t : table) : curve := map (fun p => (fst p, Some (snd p))) t.
  (** for [blend_points], beep/features/intracell_analysis_v2.py:961-979 *)
  Definition flip (t : table) : curve := map (fun p => (snd p, Some (fst p))) t.
  (** for [blend_points], beep/features/intracell_analysis_v2.py:961-979 *)
  Definition nscale (k : Q) (x : num) : num := match x with Some v => Some (k * v) | None => None end.
  (** for [blend_points], beep/features/intracell_analysis_v2.py:961-979 *)
  Definition nadd (a b : num) : num := match a, b with Some x, Some y => Some (x + y) | _, _ => None end.
  (** beep/features/intracell_analysis_v2.py:961-979: the blend on a grid of voltages, as points of SOC and voltage *)
  Definition blend_points (t1 t2 : table) (x : Q) : result curve :=
    let! f1 := interp1d_extrapolate (flip t1) in
    let! f2 := interp1d_extrapolate (flip t2) in
    let! (a1, b1) := span (flip t1) in
    let! (a2, b2) := span (flip t2) in
    Ok (flat_map (fun v => match nadd (nscale (1 - x) (f1 v)) (nscale x (f2 v)) with Some s => [(s, Some v)] | None => [] end)
                 (linspace (min_q a1 a2) (max_q b1 b2) points)).
  (** beep/features/intracell_analysis_v2.py:981-997 *)
  Definition respan (l : curve) : result table :=
    let! f := interp1d None None l in
    let part := known_part (sample_on f (linspace 0 100 points)) in
    let! g := interp1d None None part in
    let! (a, b) := span part in
    if Qeq_bool b 0 then Err (OtherError "nan") else
    mapM (fun s => match g s with Some v => Ok (s / b * 100, v) | None => Err (OtherError "nan") end) (linspace a b points).
  (** beep/features/intracell_analysis_v2.py:935-997 blend_electrodes *)
  Definition blend_electrodes (t1 t2_pos t2_neg : table) (x : Q) : result table :=
    match t2_pos with
    | [] => Ok t1                                                                 (* 948-950 *)
    | _ =>
        let '(t2, x) := match t2_neg with
                        | [] => (t2_pos, Qabs x)                                   (* 952-954 *)
                        | _ => if Qlt_bool 0 x then (t2_pos, x) else (t2_neg, Qabs x)
                        end in
        let! l := blend_points t1 t2 x in
        respan l
    end.

  (** ** beep/features/intracell_analysis_v2.py:64-108 process_beep_cycle_data_for_candidate_halfcell_analysis_ah *)
  Record irec := { i_cycle : Z; i_type : string; i_step : Z; i_voltage : num; i_qc : num; i_qd : num }.
  (** for [below_upper], beep/features/intracell_losses_v2.py:83-146 create_features *)
  Definition upper : Q := 42 # 10.
  (** for [candidate_profile], beep/features/intracell_losses_v2.py:83-146 create_features *)
  Definition lower : Q := 27 # 10.
  (** for [charge_points], beep/features/intracell_losses_v2.py:83-146 create_features *)
  Definition below_upper (v : num) : bool := match v with Some v => Qlt_bool v upper | None => false end.
  (** for [candidate_profile], beep/features/intracell_losses_v2.py:83-146 create_features *)
  Definition charge_points (type : string) (step_type : Z) (data : list irec) (cycle : Z) : curve :=
    flat_map (fun r =>
      if String.eqb (i_type r) type && Z.eqb (i_cycle r) cycle && Z.eqb (i_step r) 0 && below_upper (i_voltage r) &&
         positive (if Z.eqb step_type 0 then i_qc r else i_qd r)
      then match i_qc r with Some q => [(q, i_voltage r)] | None => [] end
      else []) data.
  (** for [wrapper], beep/features/intracell_losses_v2.py:83-146 create_features *)
  Definition candidate_profile (type : string) (step_type : Z) (data : list irec) (cycle : Z) : result curve :=
    let l := charge_points type step_type data cycle in
    let! f := interp1d (Some lower) (Some upper) l in
    let! (a, b) := span l in
    Ok (sample_on f (linspace 0 b points)).

  (** ** beep/features/intracell_analysis_v2.py:110-173 _impose_electrode_scale.  A new column of 1001 values does not fit a table of another length
      (163, 169). *)
  Definition rescale (k d : Q) (t : table) : curve := map (fun p => (fst p / 100 * k + d, Some (snd p))) t.
  (** for [impose], beep/features/intracell_analysis_v2.py:110-173 _impose_electrode_scale *)
  Definition fits (t : table) : result unit := if (length t =? points)%nat then Ok tt else Err ValueError.
  (** for [impose], beep/features/intracell_analysis_v2.py:110-173 _impose_electrode_scale *)
  Record guess := { g_lli : Q; g_pe : Q; g_ne : Q; g_x2 : Q }.
  (** for [impose], beep/features/intracell_analysis_v2.py:110-173 _impose_electrode_scale *)
  Record half_cells := { t_pe : table; t_ne : table; t_ne2_pos : table; t_ne2_neg : table }.
  (** beep/features/intracell_analysis_v2.py:110-173 _impose_electrode_scale *)
  Definition impose (h : half_cells) (x : guess) : result (curve * curve) :=
    let! ne := blend_electrodes (t_ne h) (t_ne2_pos h) (t_ne2_neg h) (g_x2 x) in
    let pe_q := rescale (g_pe x) 0 (t_pe h) in
    let ne_q := rescale (g_ne x) (g_lli x) ne in
    let! (a1, b1) := span pe_q in
    let! (a2, b2) := span ne_q in
    let grid := linspace (min_q a1 a2) (max_q b1 b2) points in
    let! _ := fits (t_pe h) in
    let! _ := fits ne in
    let! f := interp1d None None pe_q in
    let! g := interp1d None None ne_q in
    Ok (sample_on f grid, sample_on g grid).

  (** ** beep/features/intracell_analysis_v2.py:224-253, 556-584: the cell, its voltages within the limits, and the capacity taken as zero *)
  Definition cell_curve (pe ne : curve) : curve := map (fun p => (fst (fst p), nsub (snd (fst p)) (snd (snd p)))) (combine pe ne).
  (** for [windowed], beep/features/intracell_analysis_v2.py:175-284 *)
  Definition within (v : num) : num :=
    match v with Some q => if Qlt_bool q lower then None else if Qlt_bool upper q then None else Some q | None => None end.
  (** for [zeroed], beep/features/intracell_analysis_v2.py:175-284 *)
  Definition windowed (l : curve) : curve := map (fun p => (fst p, within (snd p))) l.
  (** the abscissa of the first smallest known value (for [lowest], beep/features/intracell_analysis_v2.py:175-284) *)
  Fixpoint lowest_from (best : Q * Q) (l : curve) : Q :=
    match l with
    | [] => fst best
    | (x, Some v) :: r => lowest_from (if Qlt_bool v (snd best) then (x, v) else best) r
    | (_, None) :: r => lowest_from best r
    end.
  (** for [zeroed], beep/features/intracell_analysis_v2.py:175-284 *)
  Fixpoint lowest (l : curve) : result Q :=
    match l with
    | [] => Err ValueError                                                        (* np.nanargmin *)
    | (x, Some v) :: r => Ok (lowest_from (x, v) r)
    | (_, None) :: r => lowest r
    end.
  (** for [zeroed], beep/features/intracell_analysis_v2.py:175-284 *)
  Definition shift (z : Q) (l : curve) : curve := map (fun p => (fst p - z, snd p)) l.
  (** pe_out_zeroed, ne_out_zeroed and the emulated cell (for [matching], beep/features/intracell_analysis_v2.py:175-284) *)
  Definition zeroed (h : half_cells) (x : guess) : result (curve * curve * curve) :=
    let! (pe, ne) := impose h x in
    let cell := windowed (cell_curve pe ne) in
    let! z := lowest cell in
    Ok (shift z pe, shift z ne, shift z cell).
  (** beep/features/intracell_analysis_v2.py:255-284, 446-467, 586-606: a curve sampled on 1001 even points of the range of another one *)
  Definition resample (l : curve) (a b : Q) : result curve :=
    let! f := interp1d None None l in
    Ok (sample_on f (linspace a b points)).
  (** ** beep/features/intracell_analysis_v2.py:175-284 halfcell_degradation_matching_ah *)
  Definition matching (h : half_cells) (real : curve) (x : guess) : result (curve * curve * curve * curve) :=
    let! (pe, ne, cell) := zeroed h x in
    let! (a, b) := span (known_part real) in
    let! emulated := resample (known_part cell) a b in
    let! real_aligned := resample (known_part real) a b in
    Ok (pe, ne, real_aligned, emulated).
  (** ** beep/features/intracell_analysis_v2.py:516-606 halfcell_degradation_matching_ah_no_real *)
  Definition matching_no_real (h : half_cells) (x : guess) : result (curve * curve * curve) :=
    let! (pe, ne, cell) := zeroed h x in
    let! (a, b) := span (known_part cell) in
    let! emulated := resample (known_part cell) a b in
    Ok (pe, ne, emulated).
  (** ** beep/features/intracell_analysis_v2.py:419-468 get_v_over_q_from_degradation_matching_ah: the emulated points are chosen by the real profile *)
  Definition chosen_by (real l : curve) : curve := map snd (filter (fun p => is_known (fst p)) (combine real l)).
  (** beep/features/intracell_analysis_v2.py:419-468 get_v_over_q_from_degradation_matching_ah *)
  Definition v_over_q (h : half_cells) (real : curve) (x : guess) : result (curve * curve * curve * curve) :=
    let! (pe, ne, real_aligned, emulated) := matching h real x in
    let! (a, b) := span (known_part real_aligned) in
    let! e := resample (chosen_by real_aligned emulated) a b in
    let! r := resample (known_part real_aligned) a b in
    Ok (pe, ne, r, e).
  (** ** beep/features/intracell_analysis_v2.py:470-514 get_v_over_q_from_degradation_matching_ah_no_real *)
  Definition v_over_q_no_real (h : half_cells) (x : guess) : result (curve * curve * curve) :=
    let! (pe, ne, emulated) := matching_no_real h x in
    let! (a, b) := span (known_part emulated) in
    let! e := resample (known_part emulated) a b in
    Ok (pe, ne, e).

  (** ** v2:608-806 the errors *)
  Section Errors.
    (** np.gradient and the exponentially weighted mean: the slope of the second over the first
        (for [dvdq], beep/features/intracell_analysis_v2.py:366-417, 723-770) *)
    Variable slope : list num -> list num -> list num.
    (** scipy cdist(xa, xb, 'seuclidean'): the distance of two points, given all the points
        (for [closest_of], beep/features/intracell_analysis_v2.py:666-670) *)
    Variable distance : list (Q * Q) -> list (Q * Q) -> (Q * Q) -> (Q * Q) -> Q.
    (** dropna (for [error_vq], beep/features/intracell_analysis_v2.py:637-674) *)
    Definition complete (l : curve) : list (Q * Q) := flat_map (fun p => match snd p with Some v => [(fst p, v)] | None => [] end) l.
    (** beep/features/intracell_analysis_v2.py:666-670: for every point of the first the distance of the closest of the second; the mean of these *)
    Definition closest_of (xa xb : list (Q * Q)) (p : Q * Q) : result num :=
      match xb with [] => Err ValueError | _ => Ok (col_min (map (fun q => Some (distance xa xb p q)) xb)) end.
    (** beep/features/intracell_analysis_v2.py:637-674 _get_error_from_degradation_matching_v_q *)
    Definition mean_distance (xa xb : list (Q * Q)) : result num :=
      match xa with
      | [] => match xb with [] => Err ValueError | _ => Ok None end
      | _ => let! d := mapM (closest_of xa xb) xa in Ok (mean d)
      end.
    (** for [error_vq], beep/features/intracell_analysis_v2.py:637-674 *)
    Definition except_value (r : result num) : result num := match r with Err ValueError => Ok (Some 100) | _ => r end.
    (** beep/features/intracell_analysis_v2.py:637-674 *)
    Definition error_vq (h : half_cells) (real : curve) (x : guess) : result num :=
      except_value (let! (pe, ne, r, e) := v_over_q h real x in mean_distance (complete r) (complete e)).
    (** beep/features/intracell_analysis_v2.py:366-417, 723-770 *)
    Definition dvdq (l : curve) : curve := combine (map fst l) (slope (map snd l) (abscissas l)).
    (** for [error_dvdq], beep/features/intracell_analysis_v2.py:366-417 get_dvdq_over_q_from_degradation_matching_ah *)
    Definition after_half (l : list (Q * Q)) : list (Q * Q) := filter (fun p => Qlt_bool (1 # 2) (fst p)) l.
    (** beep/features/intracell_analysis_v2.py:366-417 get_dvdq_over_q_from_degradation_matching_ah *)
    Definition error_dvdq (h : half_cells) (real : curve) (x : guess) : result num :=
      except_value (let! (pe, ne, r, e) := matching h real x in
                    mean_distance (after_half (complete (dvdq r))) (after_half (complete (dvdq e)))).
    (** beep/features/intracell_analysis_v2.py:286-364, 678-721; Series.fillna(0) *)
    Definition zero_filled (l : curve) : curve := map (fun p => (fst p, match snd p with Some v => Some v | None => Some 0 end)) l.
    (** beep/features/intracell_analysis_v2.py:286-364 get_dqdv_over_v_from_degradation_matching_ah *)
    Definition dqdv (l : curve) : result curve :=
      let s := slope (abscissas l) (map snd l) in
      let pts := flat_map (fun p => match snd (fst p) with Some v => [(v, snd p)] | None => [] end) (combine l s) in
      let! f := interp1d (Some 0) (Some 0) pts in
      Ok (zero_filled (sample_on f (linspace lower upper points))).
    (** for [error_dqdv], beep/features/intracell_analysis_v2.py:608-635 *)
    Definition dqdv_profiles (h : half_cells) (real : curve) (x : guess) : result (curve * curve * curve * curve) :=
      let! (pe, ne, r, e) := matching h real x in
      let! dr := dqdv r in
      let! de := dqdv e in
      Ok (pe, ne, dr, de).
    (** for [error_of], beep/features/intracell_analysis_v2.py:608-635 *)
    Definition error_dqdv (h : half_cells) (real : curve) (x : guess) : result num :=
      except_value (let! (pe, ne, dr, de) := dqdv_profiles h real x in mean_distance (complete dr) (complete de)).
    (** beep/features/intracell_analysis_v2.py:608-635 *)
    Definition error_of (error_type : string) : half_cells -> curve -> guess -> result num :=
      if String.eqb error_type "V-Q" then error_vq
      else if String.eqb error_type "dVdQ" then error_dvdq
      else if String.eqb error_type "dQdV" then error_dqdv
      else error_vq.
    (** beep/features/intracell_analysis_v2.py:772-806 *)
    Definition synthetic_error_of (error_type : string) (h : half_cells) (real : curve) (x : guess) : result num :=
      let r := (if String.eqb error_type "V-Q" then error_vq
                else if String.eqb error_type "dVdQ" then error_dvdq
                else if String.eqb error_type "dQdV" then error_dvdq
                else error_vq) h real x in
      match r with Err RuntimeError => Ok (Some 100) | _ => r end.

    (** ** v2:1000-1324 get_electrode_info_ah *)
    (** np.argmin(np.abs(cell - v)): the place of the known value closest to [v]
        (for [nearest_at], beep/features/intracell_losses_v2.py:83-146 create_features) *)
    Fixpoint nearest_from (v : Q) (i : nat) (best : nat * Q) (l : list num) : nat :=
      match l with
      | [] => fst best
      | Some x :: r => nearest_from v (S i) (if Qlt_bool (Qabs (x - v)) (snd best) then (i, Qabs (x - v)) else best) r
      | None :: r => nearest_from v (S i) best r
      end.
    (** for [nearest], beep/features/intracell_losses_v2.py:83-146 create_features *)
    Fixpoint nearest_at (v : Q) (i : nat) (l : list num) : result nat :=
      match l with
      | [] => Err KeyError                                                        (* .loc[-1] *)
      | Some x :: r => Ok (nearest_from v (S i) (i, Qabs (x - v)) r)
      | None :: r => nearest_at v (S i) r
      end.
    (** for [voltage_columns], beep/features/intracell_losses_v2.py:83-146 create_features *)
    Definition nearest (v : Q) (l : list num) : result nat := nearest_at v 0 l.
    (** for [voltage_columns], beep/features/intracell_losses_v2.py:83-146 create_features *)
    Definition row_at (l : curve) (i : nat) : result (Q * num) := match nth_error l i with Some p => Ok p | None => Err KeyError end.
    (** for [voltage_columns], beep/features/intracell_losses_v2.py:83-146 create_features *)
    Definition voltages : list (string * Q) :=
      [("4p2V", 42#10); ("4p1V", 41#10); ("4p0V", 40#10); ("3p9V", 39#10); ("3p8V", 38#10); ("3p7V", 37#10);
       ("3p6V", 36#10); ("3p5V", 35#10); ("3p4V", 34#10); ("3p3V", 33#10); ("3p2V", 32#10); ("3p1V", 31#10);
       ("3p0V", 30#10); ("2p9V", 29#10); ("2p8V", 28#10); ("2p7V", 27#10)]%string.
    (** for [electrode_info], beep/features/intracell_losses_v2.py:83-146 create_features *)
    Definition voltage_columns (prefix : string) (electrode cell : curve) : result (list (string * num)) :=
      mapM (fun n : string * Q =>
        let! i := nearest (snd n) (map snd cell) in
        let! p := row_at electrode i in
        Ok ((prefix ++ "_voltage_FC" ++ fst n)%string, snd p)) voltages.
    (** for [soc_columns], beep/features/intracell_losses_v2.py:83-146 create_features *)
    Definition known_min (l : curve) : num := col_min (abscissas (known_part l)).
    (** for [soc_columns], beep/features/intracell_losses_v2.py:83-146 create_features *)
    Definition known_max (l : curve) : num := col_max (abscissas (known_part l)).
    (** for [electrode_info], beep/features/intracell_losses_v2.py:83-146 create_features *)
    Definition soc_columns (prefix : string) (electrode cell : curve) : result (list (string * num)) :=
      mapM (fun n : string * Q =>
        let! i := nearest (snd n) (map snd cell) in
        let! p := row_at electrode i in
        Ok ((prefix ++ "_soc_FC" ++ fst n)%string,
            ndiv (nsub (Some (fst p)) (known_min electrode)) (nsub (known_max electrode) (known_min electrode)))) voltages.
    (** for [wrapper], beep/features/intracell_losses_v2.py:83-146 create_features *)
    Definition electrode_info (pe ne : curve) : result (list (string * num)) :=
      let cell := cell_curve pe ne in
      let! pv := voltage_columns "pe" pe cell in
      let! ps := soc_columns "pe" pe cell in
      let! nv := voltage_columns "ne" ne cell in
      let! ns := soc_columns "ne" ne cell in
      let! i := nearest (42 # 10) (map snd cell) in
      let! p := row_at cell i in
      Ok (pv ++ ps ++ nv ++ ns ++
          [("Q_fc", Some (fst p)); ("Q_pe", nsub (known_max pe) (known_min pe)); ("Q_ne", nsub (known_max ne) (known_min ne));
           ("Q_li", nsub (known_max cell) (known_min cell))]%string).

    (** ** beep/features/intracell_analysis_v2.py:808-894 intracell_values_wrapper_ah *)
    Definition bounds := list (Q * Q).
    (** for [wrapper], beep/features/intracell_losses_v2.py:83-146 create_features *)
    Definition default_bounds : bounds := [(0, 3); (5 # 2, 13 # 2); (5 # 2, 13 # 2); (1, 1)].
    (** differential_evolution: the best parameters and their error
        (for [wrapper], beep/features/intracell_losses_v2.py:83-146 create_features) *)
    Variable optimise : (guess -> result num) -> bounds -> result (guess * num).
    (** for [wrapper], beep/features/intracell_losses_v2.py:83-146 create_features *)
    Record fit := { f_type : string; f_step : Z; f_error : string; f_cells : half_cells }.
    (** for [cycles_features], beep/features/intracell_losses_v2.py:83-146 create_features *)
    Definition wrapper (a : fit) (data : list irec) (cycle : Z) : result (list num) :=
      let! real := candidate_profile (f_type a) (f_step a) data cycle in
      let! (x, error) := optimise (error_of (f_error a) (f_cells a) real) default_bounds in
      let! (pe, ne, dr, de) := dqdv_profiles (f_cells a) real x in
      let! info := electrode_info pe ne in
      Ok ([error; Some (g_lli x); Some (g_pe x); Some (g_ne x); Some (g_x2 x)] ++ map snd info).
    (** ** beep/features/intracell_analysis_v2.py:896-931 solve_emulated_degradation *)
    Definition solve_emulated (a : fit) (profile : curve) (b : option bounds) : result (guess * num) :=
      optimise (synthetic_error_of (f_error a) (f_cells a) profile) (match b with Some b => b | None => default_bounds end).

    (** ** beep/features/intracell_losses_v2.py:41-81 validate *)
    Definition threshold : Q := (484 # 100) * 0.
    (** beep/features/intracell_losses_v2.py:41-81 validate *)
    Definition chosen_cycles (threshold : Q) (type : string) (summary : list drow) : list Z :=
      map d_cycle (filter (fun d => String.eqb (d_type d) type && match d_dis d with Some q => Qlt_bool threshold q | None => false end) summary).
    (** beep/features/intracell_losses_v2.py:41-81 validate *)
    Definition intracell_valid (threshold : Q) (type : string) (has_both : bool) (summary : list drow) : bool :=
      if check_diagnostic_validation has_both (Some (length summary)) then
        match chosen_cycles threshold type summary with
        | [] => false
        | _ => existsb (fun d => contains "rpt" (d_type d)) summary
        end
      else false.
    (** beep/features/intracell_losses_v2.py:121-145 *)
    Definition result_columns : list string :=
      (["rmse_error"; "LLI_opt"; "Q_pe_opt"; "Q_ne_opt"; "x_NE_2"]%string ++
       map (fun n : string * Q => "pe_voltage_FC" ++ fst n)%string voltages ++ map (fun n : string * Q => "pe_soc_FC" ++ fst n)%string voltages ++
       map (fun n : string * Q => "ne_voltage_FC" ++ fst n)%string voltages ++ map (fun n : string * Q => "ne_soc_FC" ++ fst n)%string voltages ++
       ["Q_fc"; "Q_pe"; "Q_ne"; "Q_li"]%string).
    (** dict.update with one key: in place if the key is there, at the end otherwise
        (for [rows_of], beep/features/intracell_losses_v2.py:83-146) *)
    Fixpoint d_update {A} (d : list (Z * A)) (k : Z) (v : A) : list (Z * A) :=
      match d with
      | [] => [(k, v)]
      | (k', v') :: r => if Z.eqb k' k then (k', v) :: r else (k', v') :: d_update r k v
      end.
    (** beep/features/intracell_losses_v2.py:83-146 create_features: a row for every diagnostic, in order *)
    Fixpoint rows_of (row : Z -> result (list num)) (cycles : list Z) (d : list (Z * list num)) : result (list (Z * list num)) :=
      match cycles with
      | [] => Ok d
      | c :: r => let! v := row c in rows_of row r (d_update d c v)
      end.
    (** beep/features/intracell_losses_v2.py:83-146 create_features *)
    Definition cycles_features (a : fit) (data : list irec) (summary : list drow) : result (list (Z * list num)) :=
      rows_of (wrapper a data) (chosen_cycles threshold (f_type a) summary) [].
    (** beep/features/intracell_losses_v2.py:160-231 IntracellFeaturesV2.create_features *)
    Definition first_two (columns : list string) (rows : list (Z * list num)) : result (list (string * num)) :=
      match rows with
      | (_, r0) :: (_, r1) :: _ =>
          Ok (combine (map (fun n => "diag_0_" ++ n)%string columns ++ map (fun n => "diag_1_" ++ n)%string columns) (r0 ++ r1))
      | _ => Err IndexError
      end.
    (** beep/features/intracell_losses_v2.py:160-231 create_features *)
    Definition two_features (a : fit) (data : list irec) (summary : list drow) : result (list (string * num)) :=
      let! rows := rows_of (wrapper a data) (firstn 2 (chosen_cycles threshold (f_type a) summary)) [] in
      first_two result_columns rows.
  End Errors.
End Interpolation.
