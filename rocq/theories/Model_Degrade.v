(** Degradation between diagnostics: the fraction of a quantity that remains, the throughput at which
    a threshold is reached, and the criteria to exclude a cell.
    Models beep/features/featurizer_helpers.py:442-545 (get_fractional_quantity_remaining_nx) and
    beep/features/core.py:718-916 (DiagnosticProperties), 919-1075 (ExclusionCriteria).
    Simplifications: the frames have the columns the code reads; the summary is indexed by position; a
    quotient by zero is missing instead of infinite (the theorems exclude it); finding the parameters
    of a run and converting dates are parameters. *)
From Verif Require Import Py Num Model_Raw Model_Structure Model_Summary Model_Features.

(** One row of the diagnostic summary.
    (for [d_quantity], beep/features/featurizer_helpers.py:442-545 get_fractional_quantity_remaining_nx) *)
Record drow := { d_cycle : Z; d_type : string; d_dis : num; d_dis_en : num; d_chg : num; d_chg_en : num; d_epoch : num }.
(** for [nx], beep/features/featurizer_helpers.py:442-545 get_fractional_quantity_remaining_nx *)
Definition d_quantity (q : string) : result (drow -> num) :=
  if String.eqb q "discharge_capacity" then Ok d_dis
  else if String.eqb q "discharge_energy" then Ok d_dis_en
  else if String.eqb q "charge_capacity" then Ok d_chg
  else if String.eqb q "charge_energy" then Ok d_chg_en
  else Err KeyError.

(** Series.fillna(method="ffill") (for [ffill], beep/features/core.py:967-1075 create_features) *)
Fixpoint ffill_from (prev : num) (l : list num) : list num :=
  match l with [] => [] | Some x :: r => Some x :: ffill_from (Some x) r | None :: r => prev :: ffill_from prev r end.
(** for [exclusion], beep/features/core.py:967-1075 create_features *)
Definition ffill : list num -> list num := ffill_from None.
(** for [nx], beep/features/featurizer_helpers.py:442-545 get_fractional_quantity_remaining_nx *)
Definition fill0 (x : num) : Q := match x with Some v => v | None => 0 end.

(** ** beep/features/featurizer_helpers.py:442-545 *)
Record nxrow := { x_cycle : Z; x_frac : num; x_init : num; x_reg : Q; x_diag : Q; x_start : num; x_interval : num; x_epoch : num }.
(** beep/features/featurizer_helpers.py:476-481 which quantity the throughput is of *)
Definition of_energy (metric : string) : bool := contains "energy" metric.
(** beep/features/featurizer_helpers.py:483-489 the regular cycles: not cycle 0, not a diagnostic *)
Definition regular_cycles (diag : list drow) (summary : list srow) : list srow :=
  filter (fun r => negb (existsb (fun d => Z.eqb (d_cycle d) (s_cycle r)) diag)) (filter (fun r => negb (Z.eqb (s_cycle r) 0)) summary).
(** beep/features/featurizer_helpers.py:502-505: the first cycle after a gap in the numbering, then the last cycle before it *)
Fixpoint first_gap (l : list Z) : option Z :=
  match l with
  | a :: (b :: _) as t => if (b - a >? 1)%Z then Some b else first_gap t
  | _ => None
  end.
(** beep/features/featurizer_helpers.py:513-518: the running total at the latest regular cycle before [c], as the maximum over these *)
Definition total_before (c : Z) (cycles : list Z) (totals : list num) : num :=
  col_max (map snd (filter (fun p => Z.ltb (fst p) c) (combine cycles totals))).

Section Nx.
  (** beep/features/featurizer_helpers.py:533-541 diagnostic_start_cycle and diagnostic_interval of the run *)
  Variable parameters : result (num * num).
  (** beep/features/featurizer_helpers.py:442-545 get_fractional_quantity_remaining_nx *)
  Definition nx (metric type : string) (diag : list drow) (summary : list srow) : result (list nxrow) :=
    let! f := d_quantity metric in
    let rows := filter (fun d => String.eqb (d_type d) type) diag in
    let regular := regular_cycles diag summary in
    let cycles := map s_cycle regular in
    let totals := cumsum (map (fun r => if of_energy metric then s_dis_en r else s_dis r) regular) in
    let diag_totals := cumsum (map (if of_energy metric then d_dis_en else d_dis) diag) in
    let rows := filter (fun d => existsb (fun c => Z.leb (d_cycle d) c) cycles) rows in           (* 496-497: at most the maximum *)
    match first_gap cycles with
    | None => Err IndexError
    | Some after =>
      match last_error (filter (fun c => Z.ltb c after) cycles) with
      | None => Err IndexError
      | Some last =>
        match d_get Z.eqb (combine cycles totals) last with
        | None => Err IndexError
        | Some init =>
          if (length rows =? 0)%nat then Err ValueError                                           (* 511: no index for a scalar *)
          else
            match diag with
            | [] => Err IndexError
            | d0 :: _ =>
              let! (start, interval) := parameters in
              Ok (map (fun d => {| x_cycle := d_cycle d; x_frac := ndiv_finite (f d) (f d0); x_init := init;
                                   x_reg := fill0 (ndiv_finite (total_before (d_cycle d) cycles totals) init);
                                   x_diag := fill0 (ndiv_finite (total_before (d_cycle d) (map d_cycle diag) diag_totals) init);
                                   x_start := start; x_interval := interval; x_epoch := d_epoch d |}) rows)
            end
        end
      end
    end.
End Nx.

(** ** beep/features/core.py:808-916 get_threshold_targets *)
Record target_hyper := { h_type : string; h_metric : string; h_axes : list string; h_threshold : Q; h_kinks : option Q; h_extrapolate : bool }.
(** the columns that can be an axis (epoch_time and the parameters of the run are left out)
    (for [targets], beep/features/core.py:808-916 get_threshold_targets) *)
Definition axis (a : string) : result (nxrow -> Q) :=
  if String.eqb a "normalized_regular_throughput" then Ok x_reg
  else if String.eqb a "cycle_index" then Ok (fun r => inject_Z (x_cycle r))
  else if String.eqb a "normalized_diagnostic_throughput" then Ok x_diag
  else Err KeyError.
(** beep/features/core.py:829-833 *)
Definition cut_kinks (kinks : option Q) (rows : list nxrow) : list nxrow :=
  match kinks with
  | Some k =>
      if Qeq_bool k 0 then rows
      else
        match col_min (map (fun p => Some (inject_Z (x_cycle (fst p))))
                           (filter (fun p => match snd p with Some v => Qlt_bool v k | None => false end)
                                   (combine rows (diff (diff (map x_frac rows)))))) with
        | Some last => filter (fun r => Qlt_bool (inject_Z (x_cycle r)) last) rows
        | None => rows
        end
  | None => rows
  end.
(** np.linspace(a, b, num=1000) (for [on_axis], beep/features/core.py:852-871, 880-887) *)
Definition grid (a b : Q) : list Q := map (fun i => a + (b - a) * (inject_Z (Z.of_nat i) / 999)) (seq 0 1000).
(** the points in order of x; equal x stay in order (mergesort) (for [sort_x], beep/features/core.py:852-871, 880-887) *)
Fixpoint insert_x (p : Q * num) (l : list (Q * num)) : list (Q * num) :=
  match l with [] => [p] | q :: r => if Qle_bool (fst p) (fst q) then p :: l else q :: insert_x p r end.
(** for [on_axis], beep/features/core.py:852-871, 880-887 *)
Definition sort_x (l : list (Q * num)) : list (Q * num) := fold_right insert_x [] l.
(** the line through two points at x; missing if the points have the same x
    (for [np_interp], beep/features/core.py:852-871, 880-887) *)
Definition line (p q : Q * num) (x : Q) : num :=
  match snd p, snd q with
  | Some y1, Some y2 => if Qeq_bool (fst p) (fst q) then None else Some ((y2 - y1) / (fst q - fst p) * (x - fst p) + y1)
  | _, _ => None
  end.
(** numpy.interp within the range of the points: the last point at or before x, and the next
    (for [on_axis], beep/features/core.py:852-871, 880-887) *)
Fixpoint np_interp (l : list (Q * num)) (x : Q) : num :=
  match l with
  | [] => None
  | [p] => snd p
  | p :: (q :: _) as t =>
      if Qle_bool (fst q) x then np_interp t x
      else if Qeq_bool (fst p) x then snd p else line p q x
  end.
(** interp1d with extrapolation: the first point at or after x, and the one before; the first two or the
    last two at the ends (for [on_axis], beep/features/core.py:852-871, 880-887) *)
Fixpoint extrapolate (l : list (Q * num)) (x : Q) : num :=
  match l with
  | p :: (q :: r) as t =>
      match r with
      | [] => line p q x
      | _ => if Qle_bool x (fst q) then line p q x else extrapolate t x
      end
  | _ => None
  end.
(** np.argmin: the first missing value, or else the first smallest (for [argmin], beep/features/core.py:886-887) *)
Fixpoint argmin_from (best : Q * Q) (l : list (Q * num)) : Q :=
  match l with
  | [] => fst best
  | (x, None) :: _ => x
  | (x, Some v) :: r => argmin_from (if Qlt_bool v (snd best) then (x, v) else best) r
  end.
(** for [closest], beep/features/core.py:886-887 *)
Definition argmin (l : list (Q * num)) : num :=
  match l with [] => None | (x, None) :: _ => Some x | (x, Some v) :: r => Some (argmin_from (x, v) r) end.
(** beep/features/core.py:886-887 *)
Definition closest (f : Q -> num) (threshold : Q) (xs : list Q) : num :=
  argmin (map (fun x => (x, match f x with Some y => Some (Qabs (y - threshold)) | None => None end)) xs).
(** the last two of a column, iloc[-2] and iloc[-1] (for [on_axis], beep/features/core.py:852-871, 880-887) *)
Definition last_two {A} (l : list A) : option (A * A) :=
  match rev l with b :: a :: _ => Some (a, b) | _ => None end.
(** beep/features/core.py:852-871, 880-887: the place of the threshold on one axis *)
Definition on_axis (h : target_hyper) (beyond : bool) (rows : list nxrow) (a : nxrow -> Q) : result num :=
  let xs := map a rows in
  match col_min (map Some xs), col_max (map Some xs) with
  | Some lo, Some hi =>
      let points := sort_x (map (fun r => (a r, x_frac r)) rows) in
      if beyond then
        match last_two rows with
        | None => Err IndexError
        | Some (r1, r2) =>
            match x_frac r1, x_frac r2 with
            | Some y1, Some y2 =>
                if Qeq_bool y1 y2 then Ok None                                    (* infinite or missing *)
                else Ok (closest (extrapolate points) (h_threshold h)
                           (grid lo ((h_threshold h - (1 # 10) - y1) * (a r2 - a r1) / (y2 - y1) + a r1)))
            | _, _ => Ok None
            end
        end
      else Ok (closest (np_interp points) (h_threshold h) (grid lo hi))
  | _, _ => Err ValueError                                                        (* interp1d of nothing *)
  end.
(** for [targets], beep/features/core.py:808-916 get_threshold_targets *)
Definition positive (x : num) : bool := match x with Some v => Qlt_bool 0 v | None => false end.

Section Targets.
  (** str(threshold) (for [targets], beep/features/core.py:808-916 get_threshold_targets) *)
  Variable show : Q -> string.
  (** beep/features/core.py:808-916 get_threshold_targets *)
  Definition targets (h : target_hyper) (rows : list nxrow) : result (list (string * num)) :=
    let rows := cut_kinks (h_kinks h) rows in
    let! axes := mapM axis (h_axes h) in
    let above := match col_min (map x_frac rows) with Some m => Qlt_bool (h_threshold h) m | None => false end in
    if above && negb (h_extrapolate h) then Err UnboundLocalError                 (* 845-849: the error is made, not raised *)
    else
      let! xs := mapM (on_axis h above rows) axes in
      let! first := match xs with [] => Err IndexError | x :: _ => Ok x end in    (* 892 *)
      if negb (positive first) then Err (OtherError "BEEPFeaturizationError")
      else
        let! second := match xs with _ :: x :: _ => Ok x | _ => Err IndexError end in
        if negb (positive second) then Err (OtherError "BEEPFeaturizationError")
        else
          let init := match rows with r :: _ => x_init r | [] => None end in
          let named := combine (h_axes h) xs in
          let named := match sget named "normalized_regular_throughput" with
                       | Some x => named ++ [("real_regular_throughput"%string, match x, init with Some a, Some b => Some (a * b) | _, _ => None end)]
                       | None => named
                       end in
          Ok (fold_left (fun d p => sset d (h_type h ++ h_metric h ++ show (h_threshold h) ++ "_" ++ fst p)%string (snd p)) named
                [("initial_regular_throughput"%string, init)]).
  (** beep/features/core.py:774-806 create_features *)
  Definition diagnostic_properties (parameters : result (num * num)) (quantities : list string) (h : target_hyper)
      (diag : list drow) (summary : list srow) : result (list (string * num)) :=
    let types := uniq_s (map d_type diag) in
    let! tables := mapM (fun qt => nx parameters (fst qt) (snd qt) diag summary) (flat_map (fun q => map (fun t => (q, t)) types) quantities) in
    match tables with
    | [] => Err ValueError                                                        (* pd.concat of nothing *)
    | _ => targets h (concat tables)
    end.
End Targets.

(** ** beep/features/core.py:919-1075 ExclusionCriteria *)
Record exclusion_hyper := { e_n : nat; e_n_cutoff : Q; e_type : string; e_quantity : string; e_threshold : Q; e_cycles_cutoff : Q; e_cv : Q }.
(** A row of the features: a number or a truth value that is missing is [None].
    (for [exclusion], beep/features/core.py:967-1075 create_features) *)
Record xrow := { f_n : num; is_n : option bool; f_eot : num; is_eot : option bool; f_efc : num; is_efc : option bool; is_cv : bool; to_include : bool }.
(** bool(x): NaN is true (for [exclusion], beep/features/core.py:967-1075 create_features) *)
Definition truthy (b : option bool) : bool := match b with Some b => b | None => true end.
(** beep/features/core.py:1046-1063: whether no cycle before the end of life reaches constant voltage early *)
Fixpoint no_early_cv (cutoff : Q) (data : list (string * row)) (cycles : list Z) : result bool :=
  match cycles with
  | [] => Ok true
  | c :: r =>
      let rows := filter (fun p => Z.eqb (cycle_index (snd p)) c) data in
      let! cv := cv_default (map snd (filter (fun p => String.eqb (fst p) "charge") rows)) in
      match cv with
      | [] => Err IndexError
      | r0 :: _ =>
          let times := map (fun p => test_time (snd p)) rows in
          match test_time r0, col_min times, col_max times with
          | Some t, Some a, Some b =>
              if Qeq_bool b a then Err ZeroDivisionError
              else if Qlt_bool ((t - a) / (b - a)) cutoff then Ok false else no_early_cv cutoff data r
          | _, _, _ => no_early_cv cutoff data r                                  (* NaN is not below *)
          end
      end
  end.

Section Exclusion.
  (** the parameters of the run: diagnostic start and interval; capacity_nominal; the two currents *)
  Variables (parameters : result (num * num)) (lookup_nominal : result Q) (currents : result (Q * Q)).
  (** beep/features/core.py:967-1075 create_features *)
  Definition exclusion (h : exclusion_hyper) (nominal : option Q) (diag : list drow) (summary : list srow) (data : list (string * row))
      : result (list xrow) :=
    let nth := match nth_error summary (e_n h) with Some r => Some (fill0 (s_chg_thr r)) | None => None end in     (* 972-975 *)
    let! rows := nx parameters (e_quantity h) (e_type h) diag summary in
    let fracs := ffill (map x_frac rows) in
    let! last := match last_error fracs with Some l => Ok l | None => Err IndexError end in
    let eots := if ngt last 1 then match last_two fracs with Some (a, b) => [a; b] | None => [last] end else [last] in
    let below (x : num) := match x with Some v => Qlt_bool v (e_threshold h) | None => false end in
    let eot := hd None eots in
    let! cutoff := if below eot
                   then match find (fun r => below (x_frac r)) rows with Some r => Ok (x_cycle r) | None => Err IndexError end
                   else match last_error rows with Some r => Ok (x_cycle r) | None => Err IndexError end in        (* 1003-1009 *)
    let! capacity := match nominal with Some c => Ok c | None => lookup_nominal end in
    let before := filter (fun c => Z.leb c cutoff) (map s_cycle summary) in
    let last_regular := col_max (map (fun c => Some (inject_Z c)) before) in
    let throughputs := map snd (filter (fun p => match last_regular with Some c => Qeq_bool (inject_Z (fst p)) c | None => false end)
                                       (combine (map s_cycle summary) (ffill (map s_chg_thr summary)))) in
    if Qeq_bool capacity 0 && negb (length throughputs =? 0)%nat then Err ZeroDivisionError
    else
      let efcs := map (fun t => ndiv_finite t (Some capacity)) throughputs in
      let! (cc1, cc2) := currents in
      let! cv := if Qle_bool cc1 cc2 then Ok true else no_early_cv (e_cv h) data before in
      (* 983-1033: the rows are those of the first column that has any; other columns are aligned to them *)
      let n_features := match nth with Some _ => 1%nat | None => length eots end in
      let at_ {A} (l : list A) i := nth_error l i in
      Ok (map (fun i =>
            let f_n := match nth with Some v => if (i =? 0)%nat then Some v else None | None => None end in
            let is_n := option_map (fun v => Qlt_bool (e_n_cutoff h) v) f_n in
            let eot_i := match at_ eots i with Some v => v | None => None end in
            let is_eot := option_map below (at_ eots i) in
            let efc_i := match at_ efcs i with Some v => v | None => None end in
            let is_efc := option_map (fun v => ngt v (e_cycles_cutoff h)) (at_ efcs i) in
            {| f_n := f_n; is_n := is_n; f_eot := eot_i; is_eot := is_eot; f_efc := efc_i; is_efc := is_efc; is_cv := cv;
               to_include := truthy is_n && truthy is_eot && truthy is_efc && cv |}) (seq 0 n_features)).
End Exclusion.
