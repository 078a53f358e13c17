(** Fitting of half-cell curves to diagnostic cycles, first version.
    Models beep/features/intracell_analysis.py:12-155, 448-570, 674-758, 759-804, 870-965, 1053-1173, 1236-1282
    and beep/features/intracell_losses.py:14-227.
    Simplifications: numbers are exact; the negative electrode has one material, as in every analysis made by
    the features (a second material needs two files which the features never pass); the tables have the
    columns the code reads and every SOC of a table is known; the optimiser, the quadratic spline, the square
    root, the derivatives and the exception SciPy raises when it is given no points are parameters.  Where the
    code would go on with SOCs that are all missing (a missing capacity, a profile of one capacity, a scale of
    zero) there is an error. *)
From Verif Require Import Py Num Model_Text Model_Diagnostic Model_Interp Model_Degrade Model_Lookup Model_Hppc Model_Intracell.

(** for [capacity_point], beep/features/intracell_analysis.py:104-155 *)
Definition not_a_number : exn := OtherError "nan".
(** the parameters of the optimiser
    (for [x_at], beep/features/intracell_analysis.py:448-570 halfcell_initial_matching_v2) *)
Definition vector := list Q.
(** for [initial_matching], beep/features/intracell_analysis.py:448-570 halfcell_initial_matching_v2 *)
Definition x_at (x : vector) (i : nat) : result Q := match nth_error x i with Some v => Ok v | None => Err IndexError end.

Section First.
  (** the exception of interp1d when there are no points
      (for [initial_profile], beep/features/intracell_analysis.py:104-155) *)
  Variable nothing : exn.
  (** scipy interp1d(kind='quadratic', fill_value='extrapolate')
      (for [initial_matching], beep/features/intracell_analysis.py:448-570 halfcell_initial_matching_v2) *)
  Variable quadratic : list (Q * Q) -> result (Q -> num).
  (** the square root (for [euclidean], beep/features/intracell_analysis.py:1053-1173) *)
  Variable root : Q -> Q.
  (** np.gradient followed by an exponentially weighted mean with the given weight
      (for [final_profiles], beep/features/intracell_analysis.py:759-804) *)
  Variable slope : Q -> list num -> list num -> list num.

  (** ** 104-155 process_beep_cycle_data_for_initial_halfcell_analysis, with step_type 0 as it is called (1075) *)
  (** beep/features/intracell_analysis.py:128-129 *)
  Definition initial_cycle (type : string) (summary : list drow) : result Z :=
    match filter (fun d => String.eqb (d_type d) type) summary with [] => Err IndexError | d :: _ => Ok (d_cycle d) end.
  (** beep/features/intracell_analysis.py:130-134 *)
  Definition strictly_within (v : num) : bool := match v with Some q => Qlt_bool q upper && Qlt_bool lower q | None => false end.
  (** beep/features/intracell_analysis.py:104-155 process_beep_cycle_data_for_initial_halfcell_analysis *)
  Definition initial_rows (type : string) (data : list irec) (cycle : Z) : list irec :=
    filter (fun r => String.eqb (i_type r) type && Z.eqb (i_cycle r) cycle && Z.eqb (i_step r) 0 && strictly_within (i_voltage r)) data.
  (** for [initial_profile], beep/features/intracell_analysis.py:104-155 *)
  Definition capacity_point (r : irec) : result (Q * num) := match i_qc r with Some q => Ok (q, i_voltage r) | None => Err not_a_number end.
  (** beep/features/intracell_analysis.py:136-145, and 78-84: the SOC of a capacity *)
  Definition soc (lo hi q : Q) : Q := (q - lo) / (hi - lo) * 100.
  (** beep/features/intracell_analysis.py:104-155 process_beep_cycle_data_for_initial_halfcell_analysis *)
  Definition by_soc (lo hi : Q) (l : curve) : curve := map (fun p => (soc lo hi (fst p), snd p)) l.
  (** beep/features/intracell_analysis.py:104-155: the aligned profile, and the least and the greatest capacity of the profile *)
  Definition initial_profile (type : string) (summary : list drow) (data : list irec) : result (curve * (Q * Q)) :=
    let! c := initial_cycle type summary in
    let! l := mapM capacity_point (initial_rows type data c) in
    let! (lo, hi) := span nothing l in
    if Qeq_bool lo hi then Err not_a_number else
    let! f := interp1d nothing None None (by_soc lo hi l) in
    Ok (sample_on f (linspace 0 100 points), (lo, hi)).

  (** ** beep/features/intracell_analysis.py:54-102 process_beep_cycle_data_for_candidate_halfcell_analysis; the filter is the one of the second version *)
  Definition aged_profile (type : string) (initial : curve * (Q * Q)) (data : list irec) (cycle : Z) : result curve :=
    let '(aligned, (lo, hi)) := initial in
    let l := by_soc lo hi (charge_points type 0 data cycle) in
    let! f := interp1d nothing (Some lower) (Some upper) l in
    let! (a, b) := span nothing l in
    let! (a', top) := span nothing (known_part aligned) in
    if Qeq_bool top 0 then Err not_a_number else
    Ok (map (fun s => (s / top * 100, f s)) (linspace 0 b points)).

  (** ** Two electrodes on a common grid (498-514, 740-756).  A new column of 1001 values does not fit a table of
      another length. (for [overlay], beep/features/intracell_analysis.py:448-570 halfcell_initial_matching_v2) *)
  Definition rows_1001 (l : curve) : result unit := if (length l =? points)%nat then Ok tt else Err ValueError.
  (** for [initial_matching], beep/features/intracell_analysis.py:448-570 halfcell_initial_matching_v2 *)
  Definition overlay (a b : curve) : result (curve * curve) :=
    let! (a1, b1) := span nothing a in
    let! (a2, b2) := span nothing b in
    let grid := linspace (min_q a1 a2) (max_q b1 b2) points in
    let! f := interp1d nothing None None a in
    let! g := interp1d nothing None None b in
    let! _ := rows_1001 a in
    let! _ := rows_1001 b in
    Ok (sample_on f grid, sample_on g grid).
  (** for [initial_matching], beep/features/intracell_analysis.py:448-570 halfcell_initial_matching_v2 *)
  Definition affine (k d : Q) (l : curve) : curve := map (fun p => (fst p * k + d, snd p)) l.

  (** ** 448-570 halfcell_initial_matching_v2 *)
  (** beep/features/intracell_analysis.py:522: iloc of np.argmin, which is -1 when every voltage is missing *)
  Definition closest_row (v : Q) (l : curve) : result (Q * num) :=
    row_at l (match nearest v (map snd l) with Ok i => i | Err _ => (length l - 1)%nat end).
  (** beep/features/intracell_analysis.py:541-548 *)
  Definition percent_of (m : Q) (l : curve) : curve := map (fun p => (fst p / m * 100, snd p)) l.
  (** beep/features/intracell_analysis.py:448-570 halfcell_initial_matching_v2 *)
  Definition initial_matching (pe ne : table) (real : curve) (x : vector) : result (curve * curve * curve * curve) :=
    let! k := x_at x 0 in
    let! d := x_at x 1 in
    let! (pe1, ne1) := overlay (affine k d (as_curve pe)) (as_curve ne) in
    let cell := cell_curve pe1 ne1 in
    let! p := closest_row lower cell in
    let emulated := windowed (shift (fst p) cell) in
    match known_max emulated with
    | None => Err nothing
    | Some m =>
        if Qeq_bool m 0 then Err not_a_number else
        let! f := quadratic (complete (percent_of m emulated)) in
        let! g := interp1d nothing (Some lower) (Some upper) real in
        Ok (percent_of m (shift (fst p) pe1), percent_of m (shift (fst p) ne1),
            sample_on g (linspace 0 100 points), sample_on f (linspace 0 100 points))
    end.

  (** ** 674-690 _get_error_from_halfcell_initial_matching *)
  (** scipy distance.euclidean (for [euclidean], beep/features/intracell_analysis.py:1053-1173) *)
  Definition square_of (p : num * num) : num := match p with (Some a, Some b) => Some ((a - b) * (a - b)) | _ => None end.
  (** for [initial_error], beep/features/intracell_analysis.py:1053-1173 *)
  Definition euclidean (l : list (num * num)) : num :=
    match fold_right (fun p s => nadd (square_of p) s) (Some 0) l with Some s => Some (root s) | None => None end.
  (** for [initial_error], beep/features/intracell_analysis.py:1053-1173 *)
  Definition missing (l : curve) : Q := inject_Z (Z.of_nat (length (filter (fun p => negb (is_known p)) l))).
  (** for [fit_fresh], beep/features/intracell_analysis.py:1053-1173 *)
  Definition initial_error (pe ne : table) (real : curve) (x : vector) : result num :=
    let! (pe1, ne1, r, e) := initial_matching pe ne real x in
    let both := filter (fun p => is_known (fst p) && is_known (snd p)) (combine r e) in
    Ok (nadd (euclidean (map (fun p => (snd (fst p), snd (snd p))) both)) (Some ((1 # 100) * missing e))).

  (** ** beep/features/intracell_analysis.py:692-758 _impose_degradation *)
  Record loss := { l_lli : Q; l_pe : Q; l_ne : Q }.
  (** beep/features/intracell_analysis.py:713-716: the SOC of the positive electrode where the cell is closest to the upper limit *)
  Definition upper_setpoint (pe ne : curve) : result Q :=
    let! i := nearest upper (map snd (cell_curve pe ne)) in
    let! p := row_at pe i in
    Ok (fst p).
  (** beep/features/intracell_analysis.py:724-727: the SOC of the negative electrode where the voltage of the cell minus the lower limit is least;
      without a known voltage 713 has failed already *)
  Definition lower_setpoint (pe ne : curve) : result Q :=
    lowest (map (fun p => (fst (snd p), nsub (nsub (snd (fst p)) (snd (snd p))) (Some lower))) (combine pe ne)).
  (** beep/features/intracell_analysis.py:692-758 _impose_degradation *)
  Definition degrade (pe ne : curve) (y : loss) : result (curve * curve) :=
    let! sp := upper_setpoint pe ne in
    let! sn := lower_setpoint pe ne in
    overlay (affine (1 - l_pe y / 100) (l_pe y * sp / 100) pe)
            (affine (1 - l_ne y / 100) (l_lli y + l_ne y * sn / 100) ne).

  (** ** beep/features/intracell_analysis.py:903-965 halfcell_degradation_matching_v3 *)
  Definition loss_of (x : vector) : result loss :=
    let! a := x_at x 0 in let! b := x_at x 1 in let! c := x_at x 2 in let! d := x_at x 3 in
    Ok {| l_lli := a; l_pe := b; l_ne := c |}.
  (** beep/features/intracell_analysis.py:903-965 halfcell_degradation_matching_v3 *)
  Definition aged_matching (pe ne real : curve) (x : vector) : result (curve * curve * curve * curve) :=
    let! y := loss_of x in
    let! (pe1, ne1) := degrade pe ne y in
    let cell := cell_curve pe1 ne1 in
    match known_min cell with
    | None => Err nothing
    | Some z =>
        let! e := (let! (a, b) := span nothing (known_part real) in resample nothing (known_part (shift z cell)) a b) in
        let! r := (let! (a, b) := span nothing (known_part real) in resample nothing (known_part real) a b) in
        Ok (shift z pe1, shift z ne1, r, e)
    end.
  (** ** beep/features/intracell_analysis.py:866-889 get_V_over_SOC_from_degradation_matching *)
  Definition v_over_soc (pe ne real : curve) (x : vector) : result (curve * curve * curve * curve) :=
    let! (pe1, ne1, r, e) := aged_matching pe ne real x in
    let! (a, b) := span nothing (known_part r) in
    let! e1 := resample nothing (chosen_by r e) a b in
    let! r1 := resample nothing (known_part r) a b in
    Ok (pe1, ne1, r1, e1).
  (** ** beep/features/intracell_analysis.py:891-901 _get_error_from_degradation_matching: SOCs and voltages of the rows whose emulated voltage is known *)
  Definition profile_error (r e : curve) : num :=
    let rows := filter (fun p => is_known (snd p)) (combine r e) in
    nadd (euclidean (flat_map (fun p => [(Some (fst (fst p)), Some (fst (snd p))); (snd (fst p), snd (snd p))]) rows))
         (Some ((1 # 1000) * missing e)).
  (** beep/features/intracell_analysis.py:891-901 *)
  Definition aged_error (pe ne real : curve) (x : vector) : result num :=
    except_value (let! (pe1, ne1, r, e) := v_over_soc pe ne real x in Ok (profile_error r e)).

  (** ** beep/features/intracell_analysis.py:1236-1282 get_halfcell_voltages *)
  Definition voltage_at (l : curve) (s : Q) : result num :=
    match find (fun p => Qeq_bool (fst p) s) l with Some p => Ok (snd p) | None => Err IndexError end.
  (** for [soc_at], beep/features/intracell_analysis.py:1236-1282 get_halfcell_voltages *)
  Definition relative (l : curve) (s : Q) : num :=
    nscale 100 (ndiv (nsub (Some s) (known_min l)) (nsub (known_max l) (known_min l))).
  (** for [electrode_values], beep/features/intracell_analysis.py:1236-1282 get_halfcell_voltages *)
  Definition soc_at (l : curve) (v : num) : result num :=
    match find (fun p => match snd p, v with Some a, Some b => Qeq_bool a b | _, _ => false end) l with
    | Some p => Ok (relative l (fst p))
    | None => Err IndexError
    end.
  (** for [electrode_values], beep/features/intracell_analysis.py:1236-1282 get_halfcell_voltages *)
  Definition width (l : curve) : num := nsub (known_max l) (known_min l).
  (** beep/features/intracell_analysis.py:1236-1282 get_halfcell_voltages *)
  Definition electrode_values (l : curve) (up down : Q) : result (list num) :=
    let! vu := voltage_at l up in
    let! vl := voltage_at l down in
    let! su := soc_at l vu in
    let! sl := soc_at l vl in
    Ok [vu; vl; su; sl; width l].
  (** for [fit_cycle], beep/features/intracell_analysis.py:759-804 *)
  Definition halfcell_values (pe ne : curve) : result (list num) :=
    let cell := cell_curve pe ne in
    let! u := closest_row upper cell in
    let! d := closest_row lower cell in
    let! p := electrode_values pe (fst u) (fst d) in
    let! n := electrode_values ne (fst u) (fst d) in
    Ok (p ++ n ++ [width cell]).

  (** ** beep/features/intracell_analysis.py:1053-1173 the two wrappers *)
  Variable optimise : (vector -> result num) -> bounds -> result vector.
  (** for [fit_fresh], beep/features/intracell_analysis.py:1053-1173 *)
  Definition initial_bounds : bounds := [(8 # 10, 12 # 10); (-20, 20); (1, 1); (1 # 10, 1 # 10); (1 # 10, 1 # 10)].
  (** for [fit_cycle], beep/features/intracell_analysis.py:759-804 *)
  Definition loss_bounds : bounds := [(-10, 50); (-10, 50); (-10, 50); (1, 1); (1 # 10, 1 # 10); (1 # 10, 1 # 10)].
  (** for [fit_fresh], beep/features/intracell_analysis.py:1053-1173 *)
  Record analysis := { a_type : string; a_step : Z; a_pe : table; a_ne : table }.
  (** for [fit_fresh], beep/features/intracell_analysis.py:1053-1173 *)
  Record fresh := { fr_profile : curve * (Q * Q); fr_pe : curve; fr_ne : curve }.
  (** beep/features/intracell_analysis.py:1053-1173 *)
  Definition fit_fresh (a : analysis) (data : list irec) (summary : list drow) : result fresh :=
    let! init := initial_profile (a_type a) summary data in
    let! x := optimise (initial_error (a_pe a) (a_ne a) (fst init)) initial_bounds in
    let! (pe, ne, r, e) := initial_matching (a_pe a) (a_ne a) (fst init) x in
    Ok {| fr_profile := init; fr_pe := pe; fr_ne := ne |}.
  (** beep/features/intracell_analysis.py:759-804: only whether it fails matters here *)
  Definition final_profiles (fr : fresh) (real : curve) (x : vector) : result (curve * curve) :=
    let! (pe, ne, r, e) := aged_matching (fr_pe fr) (fr_ne fr) real x in
    let! _ := dqdv nothing (slope (nth (length x - 2) x 0)) r in
    let! _ := dqdv nothing (slope (nth (length x - 1) x 0)) e in
    Ok (pe, ne).
  (** beep/features/intracell_analysis.py:759-804 *)
  Definition fit_cycle (a : analysis) (fr : fresh) (data : list irec) (cycle : Z) : result (list num) :=
    let! real := aged_profile (a_type a) (fr_profile fr) data cycle in
    let! x := optimise (aged_error (fr_pe fr) (fr_ne fr) real) loss_bounds in
    let! (pe, ne) := final_profiles fr real x in
    let! values := halfcell_values pe ne in
    let! first := mapM (x_at x) [0; 1; 2; 3; 4; 5]%nat in
    Ok (map Some first ++ values).

  (** ** beep/features/intracell_losses.py:84-144 and 148-227 create_features *)
  Definition first_threshold : Q := (484 # 100) * (7 # 10).
  (** for [two_losses], beep/features/intracell_losses.py:84-144 *)
  Definition first_columns : list string :=
    ["LLI"; "LAM_PE"; "LAM_NE"; "x_NE_2"; "alpha_real"; "alpha_emulated"; "PE_upper_voltage"; "PE_lower_voltage"; "PE_upper_SOC";
     "PE_lower_SOC"; "PE_mass"; "NE_upper_voltage"; "NE_lower_voltage"; "NE_upper_SOC"; "NE_lower_SOC"; "NE_mass"; "Li_mass"]%string.
  (** beep/features/intracell_losses.py:84-144 *)
  Definition all_losses (a : analysis) (data : list irec) (summary : list drow) : result (list (Z * list num)) :=
    let! fr := fit_fresh a data summary in
    rows_of (fit_cycle a fr data) (chosen_cycles first_threshold (a_type a) summary) [].
  (** beep/features/intracell_losses.py:84-144 *)
  Definition two_losses (a : analysis) (data : list irec) (summary : list drow) : result (list (string * num)) :=
    let! fr := fit_fresh a data summary in
    let! rows := rows_of (fit_cycle a fr data) (firstn 2 (chosen_cycles first_threshold (a_type a) summary)) [] in
    first_two first_columns rows.
End First.
