(** Features of diagnostic cycles: change between two diagnostics, resistances, open circuit voltage,
    voltage difference and diffusion.
    Models beep/features/core.py:13-88 (HPPCResistanceVoltageFeatures), 257-474
    (DiagnosticSummaryStats) and beep/features/featurizer_helpers.py:22-439.
    Simplifications: the frames have the columns the code reads; sorting is stable; a quotient by zero
    is missing; skewness, kurtosis, logarithm, square root, cubic interpolation and the linear fit are
    parameters; an array of one statistic is not spread over the seven places it is assigned to. *)
From Verif Require Import Py Num Model_Text Model_Diagnostic Model_Summary Model_Features Model_Stats Model_Degrade Model_Lookup.

(** A record of the interpolated diagnostic cycles. (for [q_cycle], beep/features/core.py:44-52, 358-366) *)
Record drec := { q_base : hrow; q_voltage : num; q_qc : num; q_qd : num; q_ec : num; q_ed : num; q_dqc : num; q_dqd : num }.
(** for [drop_final], beep/features/core.py:44-52, 358-366 *)
Definition q_cycle (r : drec) : Z := h_cycle (q_base r).
(** for [of_type], beep/features/core.py:343-474 *)
Definition q_type (r : drec) : string := h_type (q_base r).
(** for [same_group], beep/features/core.py:42-88 create_features *)
Definition q_step (r : drec) : Z := h_step (q_base r).
(** for [same_group], beep/features/core.py:42-88 create_features *)
Definition q_counter (r : drec) : Z := h_counter (q_base r).
(** for [res_calc], beep/features/featurizer_helpers.py:104-159 res_calc *)
Definition q_current (r : drec) : num := h_current (q_base r).
(** for [drop_final], beep/features/core.py:44-52, 358-366 *)
Definition q_time (r : drec) : num := h_time (q_base r).
(** The run: what the featurizers read and overwrite. (for [clean], beep/features/core.py:42-88 create_features) *)
Record run := { run_data : list drec; run_summary : list drow; run_protocol : string }.

(** beep/features/core.py:44-52, 358-366: without the "final" diagnostic, then without steps that have no time *)
Definition drop_final (time_filter : Q) (cycle_filter : Z) (data : list drec) : list drec :=
  filter (fun r => negb (is (Qlt_bool time_filter) (q_time r) && (q_cycle r <? cycle_filter)%Z)) data.
(** for [drop_untimed], beep/features/core.py:42-88 create_features *)
Definition same_group (a b : drec) : bool :=
  Z.eqb (q_cycle a) (q_cycle b) && Z.eqb (q_step a) (q_step b) && Z.eqb (q_counter a) (q_counter b).
(** for [clean], beep/features/core.py:42-88 create_features *)
Definition drop_untimed (data : list drec) : list drec :=
  filter (fun r => existsb (fun s => same_group r s && match q_time s with Some _ => true | None => false end) data) data.
(** beep/features/core.py:42-88 create_features *)
Definition clean (time_filter : Q) (cycle_filter : Z) (r : run) : run :=
  {| run_data := drop_untimed (drop_final time_filter cycle_filter (run_data r)); run_summary := run_summary r; run_protocol := run_protocol r |}.

(** for [summary_diff], beep/features/core.py:306-341 get_summary_diff *)
Definition ndiv (a b : num) : num := match a, b with Some x, Some y => if Qeq_bool y 0 then None else Some (x / y) | _, _ => None end.
(** for [summary_diff], beep/features/core.py:306-341 get_summary_diff *)
Definition at_pos {A} (l : list A) (i : Z) : result A := match py_nth l i with Some x => Ok x | None => Err IndexError end.
(** for [summary_stats], beep/features/core.py:343-474 *)
Definition key {V} (d : list (string * V)) (k : string) : result V := match sget d k with Some v => Ok v | None => Err KeyError end.
(** for [change_block], beep/features/core.py:389-457 *)
Definition in_cycle (c : Z) (l : list drec) : list drec := filter (fun r => Z.eqb (q_cycle r) c) l.
(** for [change_block], beep/features/core.py:389-457 *)
Definition in_step (s : Z) (l : list drec) : list drec := filter (fun r => Z.eqb (q_step r) s) l.
(** for [res_calc], beep/features/featurizer_helpers.py:104-159 res_calc *)
Definition in_counter (k : Z) (l : list drec) : list drec := filter (fun r => Z.eqb (q_counter r) k) l.
(** for [summary_stats], beep/features/core.py:343-474 *)
Definition of_type (ty : string) (l : list drec) : list drec := filter (fun r => String.eqb (q_type r) ty) l.

Section Hppc.
  (** the parameter files; the directory used when none is given *)
  Variables (dir default_dir : directory).
  Variables (log10 : Q -> cell) (skew kurtosis : list num -> num).
  (** for [summary_stats], beep/features/core.py:343-474 *)
  Definition step_index (d : directory) (r : run) (type : string) (pos : Z) : result (list (string * Z)) :=
    get_step_index d (run_protocol r) (map q_base (run_data r)) type pos.

  (** ** beep/features/core.py:279-304 DiagnosticSummaryStats.validate *)
  Definition max_z (l : list Z) : result Z := match l with [] => Err ValueError | x :: l => Ok (fold_left Z.max l x) end.
  (** beep/features/core.py:279-304 validate *)
  Definition summary_stats_valid (type : string) (positions : list Z) (r : run) : result bool :=
    match run_summary r with
    | [] => Ok false
    | _ =>
        let! m := max_z positions in
        Ok (m + 1 <=? Z.of_nat (length (uniq (map d_cycle (filter (fun d => String.eqb (d_type d) type) (run_summary r))))))%Z
    end.

  (** beep/features/core.py:306-341 get_summary_diff *)
  Definition diff_types : list string := ["rpt_0.2C"; "rpt_1C"; "rpt_2C"]%string.
  (** for [summary_diff], beep/features/core.py:306-341 get_summary_diff *)
  Definition diff_metrics : list (string * (drow -> num)) :=
    [("discharge_capacity", d_dis); ("discharge_energy", d_dis_en); ("charge_capacity", d_chg); ("charge_energy", d_chg_en)]%string.
  (** beep/features/core.py:306-341 get_summary_diff *)
  Definition summary_diff (p0 p1 : Z) (summary : list drow) : result (list (string * num)) :=
    let! parts := mapM (fun ty =>
      let rows := filter (fun d => String.eqb (d_type d) ty) summary in
      mapM (fun m : string * (drow -> num) =>
        let! b := at_pos rows p1 in
        let! a := at_pos rows p0 in
        Ok (("diag_sum_diff_" ++ str_int p0 ++ "_" ++ str_int p1 ++ "_" ++ ty ++ fst m)%string, ndiv (nsub (snd m b) (snd m a)) (snd m a)))
        diff_metrics) diff_types in
    Ok (concat parts).

  (** beep/features/core.py:389-457: the statistics of the change of one quantity *)
  Definition change_block (names : list string) (f : drec -> num) (data : list drec) (c0 s0 c1 s1 : Z) : result (list cell) :=
    let! d := np_sub (map f (in_step s1 (in_cycle c1 data))) (map f (in_step s0 (in_cycle c0 data))) in
    let! s := get_summary_statistics log10 skew kurtosis names (dropna d) in
    seven s.
  (** for [summary_stats], beep/features/core.py:343-474 *)
  Definition diag_quantities : list string :=
    ["charging_capacity"; "discharging_capacity"; "charging_energy"; "discharging_energy"; "charging_dQdV"; "discharging_dQdV"]%string.
  (** beep/features/core.py:343-474 create_features: what becomes of the run, and the features *)
  Definition summary_stats (type : string) (p0 p1 : Z) (names : list string) (tf : Q) (cf : Z) (r : run) : run * result (list (string * cell)) :=
    let r := clean tf cf r in
    let data := run_data r in
    (r,
     let cycles := uniq (map q_cycle (of_type type data)) in
     let! steps0 := step_index dir r type p0 in
     let! steps1 := step_index dir r type p1 in
     let! c0 := at_pos cycles p0 in
     let! chg0 := key steps0 (type ++ "_charge") in
     let! c1 := at_pos cycles p1 in
     let! chg1 := key steps1 (type ++ "_charge") in
     let! dis0 := key steps0 (type ++ "_discharge") in
     let! dis1 := key steps1 (type ++ "_discharge") in
     let! v1 := change_block names q_qc data c0 chg0 c1 chg1 in
     let! v2 := change_block names q_qd data c0 dis0 c1 dis1 in
     let! v3 := change_block names q_ec data c0 chg0 c1 chg1 in
     let! v4 := change_block names q_ed data c0 dis0 c1 dis1 in
     let! v5 := change_block names q_dqc data c0 chg0 c1 chg1 in
     let! v6 := change_block names q_dqd data c0 dis0 c1 dis1 in
     let! diff := summary_diff p0 p1 (run_summary r) in
     let labels := flat_map (fun x => map (fun y => (y ++ "_" ++ x)%string) names) diag_quantities ++ map fst diff in
     if (length labels =? 54)%nat then Ok (combine labels (v1 ++ v2 ++ v3 ++ v4 ++ v5 ++ v6 ++ map (fun p => cell_of (snd p)) diff)) else Err ValueError).

  (** ** featurizer_helpers.py:104-159 res_calc *)
  (** DataFrame.sort_values(by="test_time"): missing times last
      (for [insert_t], beep/features/featurizer_helpers.py:104-159 res_calc) *)
  Definition time_le (a b : num) : bool := match a, b with Some x, Some y => Qle_bool x y | _, None => true | None, Some _ => false end.
  (** for [by_time], beep/features/featurizer_helpers.py:104-159 res_calc *)
  Fixpoint insert_t (r : drec) (l : list drec) : list drec :=
    match l with [] => [r] | s :: l' => if time_le (q_time r) (q_time s) then r :: l else s :: insert_t r l' end.
  (** for [res_calc], beep/features/featurizer_helpers.py:104-159 res_calc *)
  Fixpoint by_time (l : list drec) : list drec := match l with [] => [] | r :: l => insert_t r (by_time l) end.
  (** the time into the pulse, or its end (for [res_calc], beep/features/featurizer_helpers.py:104-159 res_calc) *)
  Inductive scale := At (t : Q) | End.
  (** for [res_calc], beep/features/featurizer_helpers.py:104-159 res_calc *)
  Definition tail5 {A} (l : list A) : list A := skipn (length l - 5) l.
  (** for [res_calc], beep/features/featurizer_helpers.py:104-159 res_calc *)
  Definition last_row (l : list drec) : result drec := match last_error l with Some r => Ok r | None => Err IndexError end.
  (** beep/features/featurizer_helpers.py:104-159 res_calc *)
  Definition res_calc (chosen : list drec) (soc : nat) (charge : bool) (t : scale) : result num :=
    let steps := firstn 5 (tl (uniq (map q_step chosen))) in
    let counters := map (fun s => uniq (map q_counter (in_step s chosen))) steps in
    let ocv := if charge then 2%nat else 0%nat in
    let cur := if charge then 3%nat else 1%nat in
    let counter i := match nth_error counters i with Some ks => nth_error ks soc | None => None end in
    match counter ocv, counter cur with
    | Some k_ocv, Some k_cur =>
        let rest := by_time (in_counter k_ocv chosen) in
        let pulse := by_time (in_counter k_cur chosen) in
        let! r := last_row rest in
        let i_ocv := mean (map q_current (tail5 rest)) in
        let! p := match t with
                  | End => last_row pulse
                  | At x =>
                      let start := col_min (map q_time pulse) in
                      last_row (filter (fun s => is (fun d => Qle_bool d x) (nsub (q_time s) start)) pulse)
                  end in
        Ok (ndiv (nsub (q_voltage p) (q_voltage r)) (nsub (q_current p) i_ocv))
    | _, _ => Ok None
    end.
  (** beep/features/featurizer_helpers.py:162-193 *)
  Definition scales : list (string * (bool * scale)) :=
    [("r_c_0s", (true, At (1 # 1000))); ("r_c_3s", (true, At 3)); ("r_c_end", (true, End));
     ("r_d_0s", (false, At (1 # 1000))); ("r_d_3s", (false, At 3)); ("r_d_end", (false, End))]%string.
  (** for [resistances], beep/features/featurizer_helpers.py:162-193 get_resistance_soc_duration_hppc *)
  Definition hppc_rows (r : run) : list drec := filter (fun x => match q_current x with Some _ => true | None => false end) (of_type "hppc" (run_data r)).
  (** beep/features/featurizer_helpers.py:162-193 get_resistance_soc_duration_hppc *)
  Definition resistances (r : run) (pos : Z) : result (list (string * num)) :=
    let rows := hppc_rows r in
    let! c := at_pos (uniq (map q_cycle rows)) pos in
    let chosen := in_cycle c rows in
    let! parts := mapM (fun n : string * (bool * scale) =>
      mapM (fun j => let! v := res_calc chosen j (fst (snd n)) (snd (snd n)) in Ok ((fst n ++ "_" ++ str_int (Z.of_nat j))%string, v)) (seq 0 9)) scales in
    Ok (concat parts).
  (** beep/features/featurizer_helpers.py:196-211 *)
  Definition relative (a b : num) : num := ndiv (nsub b a) a.
  (** beep/features/featurizer_helpers.py:196-211 get_dr_df *)
  Definition dr_df (r : run) (pos : Z) : result (list (string * num)) :=
    let! r0 := resistances r 0 in
    let! ri := resistances r pos in
    Ok (map (fun p => (fst (fst p), relative (snd (fst p)) (snd (snd p)))) (combine r0 ri)).

  (** ** beep/features/featurizer_helpers.py:34-101 *)
  Definition ocv_helper (cycle : list drec) (step : Z) : result (list num) :=
    let chosen := in_step step cycle in
    mapM (fun k => at_pos (map q_voltage (in_counter k chosen)) (-10)) (firstn 9 (uniq (map q_counter chosen))).
  (** beep/features/featurizer_helpers.py:22-31 *)
  Definition list_minus (a b : list num) : list num := map (fun p => nsub (fst p) (snd p)) (combine a b).
  (** np.var, np.mean, sums: missing as soon as a value is
      (for [seven_features], beep/features/featurizer_helpers.py:51-101 get_hppc_ocv) *)
  Definition np_var (l : list num) : num := match all_some l with Some xs => variance xs | None => None end.
  (** for [seven_features], beep/features/featurizer_helpers.py:51-101 get_hppc_ocv *)
  Definition np_mean (l : list num) : num := match all_some l with Some xs => mean (map Some xs) | None => None end.
  (** for [seven_features], beep/features/featurizer_helpers.py:51-101 get_hppc_ocv *)
  Definition np_sum (f : Q -> Q) (l : list num) : num := match all_some l with Some xs => Some (qsum (map f xs)) | None => None end.
  (** Python's min: the first that no later one is below
      (for [py_min], beep/features/featurizer_helpers.py:51-101 get_hppc_ocv) *)
  Fixpoint min_from (m : num) (l : list num) : num :=
    match l with [] => m | x :: l => min_from (match x, m with Some a, Some b => if Qlt_bool a b then x else m | _, _ => m end) l end.
  (** for [seven_features], beep/features/featurizer_helpers.py:51-101 get_hppc_ocv *)
  Definition py_min (l : list num) : result num := match l with [] => Err ValueError | x :: l => Ok (min_from x l) end.
  (** for [hppc_ocv], beep/features/featurizer_helpers.py:51-101 get_hppc_ocv *)
  Definition seven_features (suffix : string) (l : list num) : result (list (string * num)) :=
    let! m := py_min l in
    Ok [(("var" ++ suffix)%string, np_var l); (("min" ++ suffix)%string, m); (("mean" ++ suffix)%string, np_mean l);
        (("skew" ++ suffix)%string, skew l); (("kurtosis" ++ suffix)%string, kurtosis l);
        (("sum" ++ suffix)%string, np_sum Qabs l); (("sum_square" ++ suffix)%string, np_sum (fun x => x * x) l)].
  (** beep/features/featurizer_helpers.py:51-101 get_hppc_ocv *)
  Definition hppc_ocv (d : directory) (r : run) (pos : Z) : result (list (string * num)) :=
    let rows := hppc_rows r in
    let cycles := uniq (map q_cycle rows) in
    let! c0 := at_pos cycles 0 in
    let! first := step_index d r "hppc" 0 in
    let! later := step_index d r "hppc" pos in
    let! s0 := key first "hppc_long_rest" in
    let! s1 := key later "hppc_long_rest" in
    let! v1 := ocv_helper (in_cycle c0 rows) s0 in
    let! c1 := at_pos cycles pos in
    let! v2 := ocv_helper (in_cycle c1 rows) s1 in
    seven_features "_ocv" (list_minus v1 v2).

  (** ** 232-307 get_v_diff *)
  (** interp1d(Q, V, kind="cubic", fill_value="extrapolate")
      (for [v_diff], beep/features/featurizer_helpers.py:232-307 get_v_diff) *)
  Variable cubic : list (num * num) -> result (num -> num).
  (** for [curve], beep/features/featurizer_helpers.py:276-287 *)
  Fixpoint diffs (l : list Q) : list Q := match l with a :: (b :: _) as t => (b - a) :: diffs t | _ => [] end.
  (** np.delete(l, positions where [del] is true) (for [curve], beep/features/featurizer_helpers.py:276-287) *)
  Fixpoint delete {A} (l : list A) (del : list bool) : list A :=
    match l, del with
    | x :: l, b :: del => if b then delete l del else x :: delete l del
    | l, [] => l
    | [], _ => []
    end.
  (** beep/features/featurizer_helpers.py:276-287 *)
  Definition curve (rows : list drec) : result (list (num * num)) :=
    let qs := dropna (map q_qd rows) in
    match col_max (map Some qs), col_min (map Some qs) with
    | Some hi, Some lo =>
        let eps := (hi - lo) / 10000000 in
        let rising := map (fun d => Qle_bool (- eps) d) (diffs qs) in
        let points := combine (map q_qd rows) (map q_voltage rows) in
        Ok (if forallb (fun b => b) rising then points else delete points rising)
    | _, _ => Err ValueError
    end.
  (** beep/features/featurizer_helpers.py:232-307 get_v_diff *)
  Definition v_diff (d : directory) (r : run) (pos : Z) (window : nat) : result (option (list (string * num))) :=
    let rows := of_type "hppc" (run_data r) in
    let cycles := uniq (map q_cycle rows) in
    let! c2 := at_pos cycles pos in
    let! c1 := at_pos cycles 0 in
    let data2 := in_cycle c2 rows in
    let data1 := filter (fun x => is (fun q => Qlt_bool q 8) (q_qd x)) (in_cycle c1 rows) in
    let! ind1 := step_index d r "hppc" 0 in
    let! ind2 := step_index d r "hppc" 1 in
    let! s2 := key ind2 "hppc_discharge_to_next_soc" in
    let! s1 := key ind1 "hppc_discharge_to_next_soc" in
    let dis2 := in_step s2 data2 in
    let dis1 := in_step s1 data1 in
    match nth_error (uniq (map q_counter dis1)) window, nth_error (uniq (map q_counter dis2)) window with
    | Some k1, Some k2 =>
        let known l := filter (fun x => match q_qd x with Some _ => true | None => false end) l in
        let chosen1 := known (in_counter k1 dis1) in
        let chosen2 := filter (fun x => match col_min (map q_qd chosen1), col_max (map q_qd chosen1), q_qd x with
                                        | Some lo, Some hi, Some q => Qlt_bool lo q && Qlt_bool q hi | _, _, _ => false end) (known (in_counter k2 dis2)) in
        let! pts := curve chosen1 in
        let! f := cubic pts in
        let diff := list_minus (map f (map q_qd chosen2)) (map q_voltage chosen2) in
        if is (fun v => Qlt_bool 1 (Qabs v)) (np_var diff) then Ok None
        else let! x := seven_features "_v_diff" diff in Ok (Some x)
    | _, _ => Ok None
    end.

  (** ** 313-411 diffusion *)
  Variables (sqrt : Q -> Q) (fit : list (num * num) -> result num).
  (** for [slope], beep/features/core.py:42-88 *)
  Definition nmap2 (f : Q -> Q -> Q) (a b : num) : num := match a, b with Some x, Some y => Some (f x y) | _, _ => None end.
  (** for [diffusion_coeff], beep/features/core.py:42-88 *)
  Definition slope (rows : list drec) (k_pulse k_rest : Z) : result num :=
    let pulse := in_counter k_pulse rows in
    let rest := in_counter k_rest rows in
    let t_d := nsub (col_max (map q_time pulse)) (col_min (map q_time pulse)) in
    let start := col_min (map q_time rest) in
    let v_min := col_min (map q_voltage rest) in
    let pts := map (fun x => let t := nsub (q_time x) start in
                             (nmap2 (fun t d => sqrt (t + d) - sqrt t) t t_d, nsub (q_voltage x) v_min)) rest in
    fit (skipn (Z.to_nat (round_half_even (inject_Z (2 * Z.of_nat (length pts)) / 3))) pts).
  (** for [diffusion_features], beep/features/core.py:42-88 *)
  Definition diffusion_coeff (d : directory) (r : run) (pos : Z) : result (list (string * num)) :=
    let rows := of_type "hppc" (run_data r) in
    let! c := at_pos (uniq (map q_cycle rows)) pos in
    let chosen := by_time (in_cycle c rows) in
    let! ind := step_index d r "hppc" pos in
    let! steps := mapM (key ind) ["hppc_long_rest"; "hppc_discharge_pulse"; "hppc_short_rest"; "hppc_charge_pulse"; "hppc_discharge_to_next_soc"]%string in
    let counters i := match nth_error steps i with Some s => uniq (map q_counter (in_step s chosen)) | None => [] end in
    let n := Nat.min (Nat.min (length (counters 1%nat)) (length (counters 2%nat))) 9 in
    mapM (fun p => let! a := slope chosen (fst (snd p)) (snd (snd p)) in Ok (("D_" ++ str_int (Z.of_nat (fst p)))%string, a))
         (combine (seq 1 (n - 1)) (skipn 1 (firstn n (combine (counters 1%nat) (counters 2%nat))))).
  (** (df - df_0) / df_0 on the union of the columns (for [diffusion_features], beep/features/core.py:42-88) *)
  Definition get0 (d : list (string * num)) (k : string) : num := match sget d k with Some v => v | None => None end.
  (** for [hppc_features], beep/features/core.py:42-88 *)
  Definition diffusion_features (r : run) (pos : Z) : result (list (string * num)) :=
    let! d0 := diffusion_coeff default_dir r 0 in
    let! d := diffusion_coeff default_dir r pos in
    let columns := if (length d0 <=? length d)%nat then map fst d else map fst d0 in
    Ok (map (fun k => (k, relative (get0 d0 k) (get0 d k))) columns).

  (** ** beep/features/core.py:22-40 *)
  Definition hppc_valid (r : run) : bool :=
    match run_summary r with [] => false | _ => existsb (fun d => contains "hppc" (d_type d)) (run_summary r) end.
  (** beep/features/core.py:42-88 create_features *)
  Definition hppc_features (pos : Z) (window : nat) (tf : Q) (cf : Z) (r : run) : run * result (list (string * num)) :=
    let r := clean tf cf r in
    (r,
     let! diffusion := diffusion_features r pos in
     let! dr := dr_df r pos in
     let! ocv := hppc_ocv dir r pos in
     let! v := v_diff dir r pos window in
     Ok (map (fun p => ((fst p ++ "0")%string, snd p)) dr ++ ocv ++ match v with Some v => v | None => [] end ++ diffusion)).
End Hppc.

(** ** beep/features/featurizer_helpers.py:414-439 get_fractional_quantity_remaining *)
Definition fractional_remaining (metric type : string) (summary : list drow) : result (list (Z * num)) :=
  let! f := d_quantity metric in
  match summary with
  | [] => Err IndexError
  | first :: _ =>
      Ok (map (fun d => (d_cycle d, ndiv (f d) (f first)))
              (filter (fun d => String.eqb (d_type d) type && (100 <? d_cycle d)%Z) summary))
  end.
