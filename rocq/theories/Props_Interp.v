(** C07: interpolation onto a grid.  [distinct_axis], [known] and [interpolant]
    are in Spec_Interp. *)
From Verif Require Import Py Num Model_Interp Spec_Interp Proofs_Interp.

(** C07: exactly [n] rows, whose axis values are the [n] equally spaced points
    from [a] to [b]. *)
Theorem C07_grid_rows :
  forall samples a b n out, distinct_axis samples -> a < b -> (2 <= n)%nat ->
  interpolate_df samples (Some (a, b)) n = Ok out ->
  length out = n /\
  forall i, (i < n)%nat -> exists x v, nth_error out i = Some (x, v) /\
    x == a + inject_Z (Z.of_nat i) * (b - a) / inject_Z (Z.of_nat (n - 1)).
Proof. exact idf_grid. Qed.

(** C07: every value is the piecewise-linear interpolant of the samples: NaN
    before the first known sample, linear between neighbours, the last known
    value after the last sample. *)
Theorem C07_values_are_interpolants :
  forall samples a b n out x v, distinct_axis samples ->
  interpolate_df samples (Some (a, b)) n = Ok out -> In (x, v) out -> interpolant samples x v.
Proof. exact idf_values. Qed.

(** C07: a grid point that is a sample gets the sample's value. *)
Theorem C07_exact_at_samples :
  forall samples a b n out x v xs y, distinct_axis samples ->
  interpolate_df samples (Some (a, b)) n = Ok out -> In (x, v) out -> known samples xs y -> xs == x ->
  exists w, v = Some w /\ w == y.
Proof. exact idf_exact. Qed.

(** C07: values never leave the range of the samples. *)
Theorem C07_stays_in_range :
  forall samples a b n out x v lo hi, distinct_axis samples ->
  interpolate_df samples (Some (a, b)) n = Ok out -> In (x, Some v) out ->
  (forall xs y, known samples xs y -> lo <= y <= hi) -> lo <= v <= hi.
Proof. exact idf_bounded. Qed.

(** C07: no exception on a NaN-free axis. *)
Theorem C07_no_exception :
  forall samples a b n, exists out, interpolate_df samples (Some (a, b)) n = Ok out.
Proof. exact idf_total. Qed.

(** Non-vacuity: unordered samples with a missing value. *)
Definition ex_samples : list sample := [(3, Some 30); (1, Some 10); (2, None); (4, Some 0)].
Example C07_hyps : distinct_axis ex_samples /\
  exists out, interpolate_df ex_samples (Some (0, 6)) 4 = Ok out /\
    map (fun p => (Qred (fst p), option_map Qred (snd p))) out =
      [(0, None); (2, Some 20); (4, Some 0); (6, Some 0)].
Proof.
  split.
  - unfold distinct_axis, ex_samples. repeat constructor; simpl; intro H; discriminate H.
  - eexists. split; [vm_compute; reflexivity|vm_compute; reflexivity].
Qed.

Print Assumptions C07_grid_rows.
Print Assumptions C07_values_are_interpolants.
Print Assumptions C07_exact_at_samples.
Print Assumptions C07_stays_in_range.
Print Assumptions C07_no_exception.
