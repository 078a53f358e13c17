(** C107 to C113: the half-cell fit of diagnostic cycles, first version. *)
From Coq Require Import Sorting.Sorted Sorting.Permutation Psatz Lqa.
From Verif Require Import Py Num Model_Text Model_Diagnostic Model_Interp Model_Degrade Model_Lookup Model_Hppc Model_Intracell Spec_Intracell Proofs_Interp Proofs_Intracell
  Model_Intracell_First Spec_Intracell_First Proofs_Intracell_First.
From Verif Require Proofs_Hppc Props_Intracell.

(** * C107: the fresh cell *)
Section C107.
Variable nothing : exn.
(** The profile of the fresh cell is that of the first diagnostic of the type: 1001 even states of charge from 0
    to 100, where 0 is the least and 100 the greatest capacity measured strictly between 2.7 V and 4.2 V; each
    voltage is known and read from the measured charge at the capacity of the state of charge. *)
Theorem C107_profile type summary data l lo hi : initial_profile nothing type summary data = Ok (l, (lo, hi)) -> exists c,
  first_diagnostic type summary c /\ capacity_limits data type c lo hi /\ evenly 0 100 1001 (map fst l) /\
  forall s v, In (s, v) l -> inside (measured data type c) (capacity_at lo hi s) v /\ exists y, v = Some y.
Proof.
  intro H. destruct (initial_spec _ _ _ _ _ _ _ H) as (c & C & CL & EV & RD). exists c. split; [exact C|]. split; [exact CL|]. split; [exact EV|].
  intros s v I. pose proof (RD s v I) as R. split; [exact R|]. assert (v <> None) by (eapply inside_known; [|exact R]; apply measured_known). destruct v as [y|]; [eauto|congruence].
Qed.
(** All measured voltages of the profile lie between the limits, and so does the profile. *)
Theorem C107_within type summary data l lo hi s v : initial_profile nothing type summary data = Ok (l, (lo, hi)) -> In (s, Some v) l -> 27 # 10 < v /\ v < 42 # 10.
Proof.
  intros H I. destruct (C107_profile _ _ _ _ _ _ H) as (c & _ & _ & _ & RD). destruct (RD s (Some v) I) as [R _].
  assert (ON : forall p, measured data type c p -> exists w, snd p = Some w /\ 27 # 10 < w /\ w < 42 # 10).
  { intros p (r & w & _ & _ & _ & _ & _ & _ & A & B & E). exists w. auto. }
  destruct R as [(p & P & _ & E)|(p & q & P & P' & L1 & L2 & _ & ST)].
  - destruct (ON p P) as (w & W & B). assert (v = w) by congruence. subst w. exact B.
  - destruct (ON p P) as (w & W & B). destruct (ON q P') as (w' & W' & B'). unfold straight in ST. rewrite W, W' in ST. destruct ST as (y & Y & EY). assert (v = y) by congruence. subst y.
    set (t := (capacity_at lo hi s - fst p) / (fst q - fst p)) in *.
    assert (T0 : 0 <= t) by (apply Qle_shift_div_l; lra). assert (T1 : t <= 1) by (apply Qle_shift_div_r; lra). clearbody t. clear - EY T0 T1 B B'. destruct (Qlt_le_dec w w'); assert (0 <= (1 - t) * (w - w') \/ 0 <= (1 - t) * (w' - w)) by (first [left; apply Qmult_le_0_compat; lra|right; apply Qmult_le_0_compat; lra]); assert (0 <= t * (w - w') \/ 0 <= t * (w' - w)) by (first [left; apply Qmult_le_0_compat; lra|right; apply Qmult_le_0_compat; lra]); split; nra.
Qed.
(** It exists if the charge has two capacities and each capacity is known. *)
Theorem C107_defined type summary data c p q : first_diagnostic type summary c -> capacities_known data type c ->
  measured data type c p -> measured data type c q -> fst p < fst q -> exists l lo hi, initial_profile nothing type summary data = Ok (l, (lo, hi)).
Proof. apply initial_total. Qed.
Theorem C107_no_diagnostic type summary data : (forall d, In d summary -> d_type d <> type) -> initial_profile nothing type summary data = Err IndexError.
Proof. intro N. unfold initial_profile. rewrite (initial_cycle_none type summary N). reflexivity. Qed.
End C107.

(** * C108: an aged cell *)
Section C108.
Variable nothing : exn.
(** The profile of a later diagnostic is on the scale of the fresh cell: 0 and 100 are the least and the greatest
    capacity of the fresh cell.  It has 1001 even states of charge from 0 to that of the last measured capacity;
    the voltage is read from the measured charge at the capacity of the state of charge, and is 2.7 V below the
    first and 4.2 V above the last measured capacity. *)
Theorem C108_profile type summary data0 data cycle l lo hi l' : initial_profile nothing type summary data0 = Ok (l, (lo, hi)) -> aged_profile nothing type (l, (lo, hi)) data cycle = Ok l' ->
  exists top, greatest (fun q => exists v, charged data type cycle (q, v)) top /\ evenly 0 (100 * (top - lo) / (hi - lo)) 1001 (map fst l') /\
  forall s v, In (s, v) l' ->
    ((exists p q, charged data type cycle p /\ charged data type cycle q /\ fst p <= capacity_at lo hi s <= fst q) -> inside (charged data type cycle) (capacity_at lo hi s) v) /\
    ((forall p, charged data type cycle p -> capacity_at lo hi s < fst p) -> v = Some (27 # 10)) /\
    ((forall p, charged data type cycle p -> fst p < capacity_at lo hi s) -> v = Some (42 # 10)).
Proof. apply aged_spec. Qed.
Theorem C108_defined type summary data0 data cycle l lo hi p : initial_profile nothing type summary data0 = Ok (l, (lo, hi)) -> charged data type cycle p ->
  exists l', aged_profile nothing type (l, (lo, hi)) data cycle = Ok l'.
Proof. apply aged_total. Qed.
Theorem C108_known type summary data0 data cycle l lo hi l' s v : initial_profile nothing type summary data0 = Ok (l, (lo, hi)) -> aged_profile nothing type (l, (lo, hi)) data cycle = Ok l' ->
  In (s, v) l' -> v <> None.
Proof.
  intros H0 H I. destruct (C108_profile _ _ _ _ _ _ _ _ _ H0 H) as (top & TOP & _ & RD). destruct (RD s v I) as (A & B & C).
  set (x := capacity_at lo hi s) in *. set (pts := charge_points type 0 data cycle).
  assert (IFF : forall p, In p pts <-> charged data type cycle p) by (intro p; apply charge_points_in).
  destruct (existsb (fun p : Q * num => Qle_bool (fst p) x) pts) eqn:X1.
  - apply existsb_exists in X1 as (p & P & LP). apply Qle_bool_iff in LP. apply IFF in P. destruct (existsb (fun p : Q * num => Qle_bool x (fst p)) pts) eqn:X2.
    + apply existsb_exists in X2 as (q & P' & LQ). apply Qle_bool_iff in LQ. apply IFF in P'. eapply (inside_known (charged data type cycle)); [|apply A; exists p, q; auto].
      intros r (y & w & _ & _ & _ & _ & _ & _ & _ & _ & E). congruence.
    + rewrite C; [discriminate|]. intros q P'. apply IFF in P'. apply Qnot_le_lt. intro L. apply Qle_bool_iff in L.
      assert (existsb (fun p : Q * num => Qle_bool x (fst p)) pts = true) by (apply existsb_exists; eauto). congruence.
  - rewrite B; [discriminate|]. intros q P'. apply IFF in P'. apply Qnot_le_lt. intro L. apply Qle_bool_iff in L.
    assert (existsb (fun p : Q * num => Qle_bool (fst p) x) pts = true) by (apply existsb_exists; eauto). congruence.
Qed.
End C108.

(** * C109: matching the fresh cell *)
Section C109.
Variable nothing : exn.
Variable quadratic : list (Q * Q) -> result (Q -> num).
Variable root : Q -> Q.
(** The matched electrodes are the tables, the positive one first stretched by the first and moved by the second
    parameter, both then moved and scaled alike, so that the place of the cell closest to 2.7 V is at 0 and the
    last place of the cell within its limits is at 100. *)
Theorem C109_matched pe ne real x pe' ne' r e : initial_matching nothing quadratic pe ne real x = Ok (pe', ne', r, e) ->
  exists k d z m, nth_error x 0 = Some k /\ nth_error x 1 = Some d /\ ~ m == 0 /\ map fst pe' = map fst ne' /\ length pe' = 1001%nat /\
    (0 < k -> forall s v, In (s, v) pe' -> reads (fun p => In p (as_curve pe)) ((z + s * m / 100 - d) / k) v) /\
    (forall s v, In (s, v) ne' -> reads (fun p => In p (as_curve ne)) (z + s * m / 100) v) /\
    ((exists i s, closest_place pe' ne' (27 # 10) i s /\ s == 0) \/ forall i q a b, ~ electrodes_at pe' ne' i q a b) /\
    (0 < m -> exists top, greatest (fun s => exists v, cell_point pe' ne' (s, v)) top /\ top == 100).
Proof.
  intro H. destruct (matched_spec _ _ _ _ _ _ _ _ _ _ H) as (k & d & z & m & A & B & C & D & L & _ & E & F & G & I). exists k, d, z, m. repeat (split; [assumption|]). exact I.
Qed.
(** The error minimised is the root of the sum of the squares of the differences in voltage, plus a hundredth for
    each of the 1001 places where the emulated cell has no voltage. *)
Theorem C109_error pe ne real x v : initial_error nothing quadratic root pe ne real x = Ok v -> exists pe' ne' r e ss n,
  initial_matching nothing quadratic pe ne real x = Ok (pe', ne', r, e) /\ v = Some (root ss + (1 # 100) * inject_Z (Z.of_nat n)) /\ ss == squares r e /\ unknown e n.
Proof. apply initial_error_spec. Qed.
(** Tables of another length than 1001 are refused. *)
Theorem C109_length pe ne real x pe' ne' r e : initial_matching nothing quadratic pe ne real x = Ok (pe', ne', r, e) -> length pe = 1001%nat /\ length ne = 1001%nat.
Proof.
  intro H. destruct (initial_matching_inv _ _ _ _ _ _ _ _ _ _ H) as (k & d & pe1 & ne1 & p & m & f & g & _ & _ & O & _).
  destruct (overlay_inv _ _ _ _ _ O) as (lo & hi & f' & g' & L1 & L2 & _). rewrite affine_length in L1. unfold as_curve in *. rewrite map_length in *. auto.
Qed.
End C109.

(** * C110: imposing losses *)
Section C110.
Variable nothing : exn.
(** A loss of positive material shrinks that electrode around the place where the cell is closest to 4.2 V; a loss
    of negative material shrinks that electrode around the place where the cell is lowest, and a loss of lithium
    moves it.  Both are then given at the same 1001 states of charge. *)
Theorem C110_degraded pe ne y pe' ne' : degrade nothing pe ne y = Ok (pe', ne') -> exists i sp sn,
  closest_place pe ne (42 # 10) i sp /\ lowest_place pe ne sn /\ length pe' = 1001%nat /\ map fst pe' = map fst ne' /\
  (l_pe y < 100 -> forall s v, In (s, v) pe' -> reads (fun p => In p pe) (sp + (s - sp) / (1 - l_pe y / 100)) v) /\
  (l_ne y < 100 -> forall s v, In (s, v) ne' -> reads (fun p => In p ne) (sn + (s - l_lli y - sn) / (1 - l_ne y / 100)) v).
Proof.
  intro H. destruct (degrade_spec _ _ _ _ _ _ H) as (i & sp & sn & A & B & _ & _ & C & _ & D & E & F). exists i, sp, sn. repeat (split; [assumption|]). exact F.
Qed.
(** Losing nothing changes nothing. *)
Theorem C110_nothing_lost pe ne a b pe' ne' : a < b -> evenly a b 1001 (map fst pe) -> map fst pe = map fst ne ->
  degrade nothing pe ne {| l_lli := 0; l_pe := 0; l_ne := 0 |} = Ok (pe', ne') ->
  Forall2 (fun p p' => fst p' == fst p /\ snd p' = snd p) pe pe' /\ Forall2 (fun p p' => fst p' == fst p /\ snd p' = snd p) ne ne'.
Proof. apply degrade_none. Qed.
(** It is defined for electrodes of 1001 places that overlap, and a KeyError if they do not. *)
Theorem C110_defined pe ne y : length pe = 1001%nat -> length ne = 1001%nat ->
  ((exists i q a b, electrodes_at pe ne i q a b) -> exists pe' ne', degrade nothing pe ne y = Ok (pe', ne')) /\
  ((forall i q a b, ~ electrodes_at pe ne i q a b) -> degrade nothing pe ne y = Err KeyError).
Proof. intros L1 L2. split; [intros (i & q & a & b & E); exact (degrade_total nothing pe ne y i q a b L1 L2 E)|apply degrade_apart]. Qed.
End C110.

(** * C111: matching an aged cell *)
Section C111.
Variable nothing : exn.
Variable root : Q -> Q.
(** The electrodes are the degraded ones, moved so that the cell starts at 0.  Measured and emulated profile are
    given at the same 1001 states of charge of the measured one: the emulated voltage is that of the cell, or
    missing beyond it; the measured one is read from the measured profile. *)
Theorem C111_matched pe ne real x pe' ne' r e : aged_matching nothing pe ne real x = Ok (pe', ne', r, e) -> exists lli lpe lne x2 pe1 ne1 z a b,
  nth_error x 0 = Some lli /\ nth_error x 1 = Some lpe /\ nth_error x 2 = Some lne /\ nth_error x 3 = Some x2 /\
  degrade nothing pe ne {| l_lli := lli; l_pe := lpe; l_ne := lne |} = Ok (pe1, ne1) /\ least (cell_has_voltage pe1 ne1) z /\ moved z pe1 pe' /\ moved z ne1 ne' /\
  least (has_voltage real) a /\ greatest (has_voltage real) b /\ map fst r = map fst e /\ evenly a b 1001 (map fst e) /\
  (forall s v, In (s, v) e -> reads (cell_any pe' ne') s v) /\ (forall s v, In (s, v) r -> inside (fun p => In p real /\ snd p <> None) s v).
Proof.
  intro H. destruct (aged_matching_spec _ _ _ _ _ _ _ _ _ H) as (y & pe1 & ne1 & z & a & b & Y & D & Z0 & M1 & M2 & A & B & S & EV & RE & RR).
  unfold loss_of, x_at in Y. destruct (nth_error x 0) as [u0|] eqn:X0; [|discriminate]. destruct (nth_error x 1) as [u1|] eqn:X1; [|discriminate].
  destruct (nth_error x 2) as [u2|] eqn:X2; [|discriminate]. destruct (nth_error x 3) as [u3|] eqn:X3; [|discriminate]. cbn [bind] in Y. injection Y as <-.
  exists u0, u1, u2, u3, pe1, ne1, z, a, b. repeat (split; [first [assumption|reflexivity]|]). intros s v I. apply (inside_iff (fun p => In p (known_part real))); [intro p; apply known_in|apply RR, I].
Qed.
Theorem C111_defined pe ne real x y pe1 ne1 : loss_of x = Ok y -> degrade nothing pe ne y = Ok (pe1, ne1) ->
  (exists q, cell_has_voltage pe1 ne1 q) -> (exists q, has_voltage real q) -> exists pe' ne' r e, aged_matching nothing pe ne real x = Ok (pe', ne', r, e).
Proof.
  intros Y D (q & C) (q' & v & R). unfold aged_matching. rewrite Y. cbn [bind]. rewrite D. cbn [bind].
  pose proof (proj2 (cell_voltage pe1 ne1 q) C) as HV. destruct (relative_spec _ _ HV) as (z & hi & -> & _).
  assert (N1 : known_part real <> []). { intro E. assert (I : In (q', Some v) (known_part real)) by (apply known_in; split; [exact R|discriminate]). rewrite E in I. destruct I. }
  assert (N2 : known_part (shift z (cell_curve pe1 ne1)) <> []).
  { destruct HV as (w & W). intro E. assert (I : In (q - z, Some w) (known_part (shift z (cell_curve pe1 ne1)))) by (apply known_in; split; [apply in_map_iff; exists (q, Some w); split; [reflexivity|exact W]|discriminate]). rewrite E in I. destruct I. }
  destruct (span_total nothing _ N1) as (a & b & ->). cbn [bind]. unfold resample.
  destruct (interp1d_total nothing None None _ N2) as (f & ->). destruct (interp1d_total nothing None None _ N1) as (g & ->). cbn [bind]. eauto.
Qed.
(** Resampling both profiles before they are compared changes nothing. *)
Theorem C111_resampled pe ne real x pe' ne' r e q q' : has_voltage real q -> has_voltage real q' -> q < q' -> v_over_soc nothing pe ne real x = Ok (pe', ne', r, e) -> exists r0 e0,
  aged_matching nothing pe ne real x = Ok (pe', ne', r0, e0) /\ Forall2 (fun p p' => fst p' == fst p /\ snd p' = snd p) r0 r /\ Forall2 (fun p p' => fst p' == fst p /\ snd p' = snd p) e0 e.
Proof. apply v_over_soc_same. Qed.
(** The error minimised is the root of the sum of the squares of the differences in voltage, plus a thousandth for
    each of the 1001 places where the emulated cell has no voltage. *)
Theorem C111_error pe ne real x pe' ne' r e : v_over_soc nothing pe ne real x = Ok (pe', ne', r, e) -> exists ss n,
  aged_error nothing root pe ne real x = Ok (Some (root ss + (1 # 1000) * inject_Z (Z.of_nat n))) /\ ss == squares r e /\ unknown e n.
Proof.
  intro H. destruct (v_over_soc_known _ _ _ _ _ _ _ _ _ H) as (E & K). destruct (profile_error_spec root r e E K) as (ss & n & P & B & U). exists ss, n. split; [|auto].
  unfold aged_error. rewrite H. cbn [bind except_value]. rewrite P. reflexivity.
Qed.
(** Where the profiles cannot be compared for a ValueError, the error is 100; any other exception ends the fit. *)
Theorem C111_cannot_compare pe ne real x ex : v_over_soc nothing pe ne real x = Err ex ->
  aged_error nothing root pe ne real x = match ex with ValueError => Ok (Some 100) | _ => Err ex end.
Proof. intro H. unfold aged_error. rewrite H. destruct ex; reflexivity. Qed.
End C111.
(** Finding: a place where the emulated cell has no voltage weighs so little that an emulated cell with a single
    voltage is better than one that is 50 mV off everywhere. *)
Definition flat (v : num) : curve := map (fun i => (inject_Z (Z.of_nat i), v)) (seq 0 1001).
Theorem C111_missing_refuted (root : Q -> Q) : (forall a b, a <= b -> root a <= root b) -> root 0 == 0 -> root (9 # 4) == 3 # 2 ->
  exists r e e' v v', map fst e = map fst r /\ map fst e' = map fst r /\ length r = 1001%nat /\ unknown e 1000 /\
    Forall2 (fun p p' => exists a b, snd p = Some a /\ snd p' = Some b /\ Qabs (a - b) <= 1 # 20) r e' /\
    profile_error root r e = Some v /\ profile_error root r e' = Some v' /\ v < v'.
Proof.
  intros MONO R0 R1. set (r := flat (Some 4)). set (e := (0, Some 4) :: tl (flat None)). set (e' := flat (Some (79 # 20))).
  assert (F : map fst e = map fst r /\ map fst e' = map fst r) by (split; vm_compute; reflexivity). destruct F as [F F'].
  assert (K : forall p, In p r -> snd p <> None) by (intros p P; unfold r, flat in P; apply in_map_iff in P as (i & <- & _); discriminate).
  destruct (profile_error_spec root r e (eq_sym F) K) as (ss & n & P & S & U). destruct (profile_error_spec root r e' (eq_sym F') K) as (ss' & n' & P' & S' & U').
  exists r, e, e'. do 2 eexists. split; [exact F|]. split; [exact F'|]. split; [reflexivity|]. split; [vm_compute; reflexivity|]. split.
  { unfold r, e', flat. induction (seq 0 1001) as [|i l IH]; cbn [map]; constructor; [|exact IH]. exists 4, (79 # 20). split; [reflexivity|]. split; [reflexivity|]. vm_compute. discriminate. }
  split; [exact P|]. split; [exact P'|].
  assert (E0 : squares r e == 0) by (vm_compute; reflexivity). assert (E1 : (9 # 4) <= squares r e') by (vm_compute; discriminate).
  assert (N : n = 1000%nat) by (rewrite U; vm_compute; reflexivity). assert (N' : n' = 0%nat) by (rewrite U'; vm_compute; reflexivity). subst n n'.
  change (inject_Z (Z.of_nat 1000)) with 1000. change (inject_Z (Z.of_nat 0)) with 0.
  assert (root ss <= root 0) by (apply MONO; lra). assert (root (9 # 4) <= root ss') by (apply MONO; lra). lra.
Qed.

(** * C112: the state of the electrodes *)
Section C112.
(** The values of two electrodes given at the same, distinct, states of charge: for each, its voltage where the
    cell is closest to 4.2 V and to 2.7 V, its own state of charge at these two places, and the range over which
    it has a voltage; and the range over which the cell has one.  An electrode's own states of charge are right
    if it has each voltage at one place only. *)
Theorem C112_values pe ne i0 q0 a0 b0 : length pe = length ne -> map fst pe = map fst ne -> distinct_socs pe -> electrodes_at pe ne i0 q0 a0 b0 ->
  exists i j up down pu nu pl nl xu xl wp yu yl wn wc,
    halfcell_values pe ne = Ok [Some pu; Some pl; xu; xl; Some wp; Some nu; Some nl; yu; yl; Some wn; Some wc] /\
    closest_place pe ne (42 # 10) i up /\ electrodes_at pe ne i up pu nu /\ closest_place pe ne (27 # 10) j down /\ electrodes_at pe ne j down pl nl /\
    range_of (has_voltage pe) wp /\ range_of (has_voltage ne) wn /\ range_of (cell_has_voltage pe ne) wc /\
    (strictly pe -> 0 < wp -> exists a b, xu = Some a /\ xl = Some b /\ own_soc pe up a /\ own_soc pe down b) /\
    (strictly ne -> 0 < wn -> exists a b, yu = Some a /\ yl = Some b /\ own_soc ne up a /\ own_soc ne down b).
Proof. apply halfcell_values_spec. Qed.
(** The electrodes of an aged cell are such, unless all their states of charge are one. *)
Theorem C112_aged nothing pe ne real x pe' ne' r e : aged_matching nothing pe ne real x = Ok (pe', ne', r, e) ->
  length pe' = length ne' /\ map fst pe' = map fst ne' /\ (exists i q a b, electrodes_at pe' ne' i q a b) /\
  ((exists p q, In p pe' /\ In q pe' /\ ~ fst p == fst q) -> distinct_socs pe').
Proof.
  intro H. split; [|split; [|split]]; [| | |apply (aged_distinct _ _ _ _ _ _ _ _ _ H)].
  all: destruct (aged_matching_inv _ _ _ _ _ _ _ _ _ H) as (y & pe1 & ne1 & z & a & b & f & g & _ & D & Z0 & _ & _ & _ & -> & -> & _ & _);
    destruct (degrade_spec _ _ _ _ _ _ D) as (_ & _ & _ & _ & _ & _ & _ & L1 & L2 & E & _).
  - unfold shift. rewrite !map_length. congruence.
  - assert (SH : forall l, map fst (shift z l) = map (fun q => q - z) (map fst l)) by (intro l; unfold shift; rewrite !map_map; reflexivity). rewrite !SH, E. reflexivity.
  - destruct (cell_min_spec _ _ _ Z0) as ((i & u & v & EL) & _). exists i, (z - z), u, v. apply shift_electrodes. eauto.
Qed.
(** Finding: where the voltage of an electrode stays the same, its own state of charge is that of the first place
    with this voltage. *)
Theorem C112_plateau_refuted : exists pe ne vs x, halfcell_values pe ne = Ok vs /\ map fst pe = map fst ne /\ distinct_socs pe /\
  closest_place pe ne (42 # 10) 2 100 /\ own_soc pe 100 100 /\ nth_error vs 2 = Some (Some x) /\ x == 50.
Proof.
  exists [(0, Some (7 # 2)); (50, Some 4); (100, Some 4)], [(0, Some (1 # 2)); (50, Some (1 # 2)); (100, Some 0)]. do 2 eexists. split; [vm_compute; reflexivity|]. split; [reflexivity|]. split.
  { intros [|[|[|i]]] [|[|[|j]]] p q I J E; cbn in *; try discriminate; try reflexivity; try (destruct i; discriminate); try (destruct j; discriminate); injection I as <-; injection J as <-; cbn in E; lra. }
  split. { exists 4, 0. split; [split; [reflexivity|exists 100; reflexivity]|]. intros [|[|[|j]]] q a b (A & q' & B); cbn in *; try discriminate; try (destruct j; discriminate); injection A as <- <-; injection B as <- <-; vm_compute; discriminate. }
  split. { exists 0, 100. split; [split; [exists (7 # 2); left; reflexivity|]|split; [split; [exists 4; right; right; left; reflexivity|]|reflexivity]].
    all: intros x (v & [I|[I|[I|[]]]]); injection I as <- _; lra. }
  split; [reflexivity|vm_compute; reflexivity].
Qed.
End C112.

(** * C113: the features *)
Section C113.
Variable nothing : exn.
Variable quadratic : list (Q * Q) -> result (Q -> num).
Variable root : Q -> Q.
Variable slope : Q -> list num -> list num -> list num.
Variable optimise : (vector -> result num) -> bounds -> result vector.
Let fit_fresh := fit_fresh nothing quadratic root optimise.
Let fit_cycle := fit_cycle nothing root slope optimise.
Let all_losses := all_losses nothing quadratic root slope optimise.
Let two_losses := two_losses nothing quadratic root slope optimise.
(** The fresh cell is fitted once: its electrodes are those matched with the parameters that minimise its error. *)
Theorem C113_fresh a data summary fr : fit_fresh a data summary = Ok fr -> exists x r e,
  initial_profile nothing (a_type a) summary data = Ok (fr_profile fr) /\
  optimise (initial_error nothing quadratic root (a_pe a) (a_ne a) (fst (fr_profile fr))) [(8 # 10, 12 # 10); (-20, 20); (1, 1); (1 # 10, 1 # 10); (1 # 10, 1 # 10)] = Ok x /\
  initial_matching nothing quadratic (a_pe a) (a_ne a) (fst (fr_profile fr)) x = Ok (fr_pe fr, fr_ne fr, r, e).
Proof.
  unfold fit_fresh, Model_Intracell_First.fit_fresh. intro H. inv H init IP. inv H x X. inv H ms M. destruct ms as [[[pe ne] r] e].
  match type of H with Ok ?y = _ => assert (E : fr = y) by congruence end. subst fr. exists x, r, e. cbn [fr_profile fr_pe fr_ne]. auto.
Qed.
(** A row holds the parameters that minimise the error of the diagnostic, and the state of the electrodes there,
    under the names of the columns. *)
Theorem C113_row a fr data cycle row : fit_cycle a fr data cycle = Ok row -> exists real lli lpe lne x2 ar ae more pe ne r e values,
  aged_profile nothing (a_type a) (fr_profile fr) data cycle = Ok real /\
  optimise (aged_error nothing root (fr_pe fr) (fr_ne fr) real) [(-10, 50); (-10, 50); (-10, 50); (1, 1); (1 # 10, 1 # 10); (1 # 10, 1 # 10)] = Ok ([lli; lpe; lne; x2; ar; ae] ++ more) /\
  aged_matching nothing (fr_pe fr) (fr_ne fr) real ([lli; lpe; lne; x2; ar; ae] ++ more) = Ok (pe, ne, r, e) /\ halfcell_values pe ne = Ok values /\
  length row = 17%nat /\ NoDup first_columns /\
  combine first_columns row = [("LLI", Some lli); ("LAM_PE", Some lpe); ("LAM_NE", Some lne); ("x_NE_2", Some x2); ("alpha_real", Some ar); ("alpha_emulated", Some ae)]%string ++
    combine ["PE_upper_voltage"; "PE_lower_voltage"; "PE_upper_SOC"; "PE_lower_SOC"; "PE_mass"; "NE_upper_voltage"; "NE_lower_voltage"; "NE_upper_SOC"; "NE_lower_SOC"; "NE_mass"; "Li_mass"]%string values.
Proof.
  unfold fit_cycle, Model_Intracell_First.fit_cycle. intro H. inv H real R. inv H x X. inv H pn F. destruct pn as [pe ne]. inv H values V. inv H six FI.
  match type of H with Ok ?y = _ => assert (E : row = y) by congruence end. clear H.
  unfold final_profiles in F. inv F ms M. destruct ms as [[[pe' ne'] r] e]. inv F d1 D1. inv F d2 D2. assert (pe' = pe /\ ne' = ne) by (split; congruence). destruct H as [-> ->].
  assert (XS : exists lli lpe lne x2 ar ae more, x = [lli; lpe; lne; x2; ar; ae] ++ more /\ six = [lli; lpe; lne; x2; ar; ae]).
  { cbn [mapM x_at] in FI. destruct x as [|u0 [|u1 [|u2 [|u3 [|u4 [|u5 x]]]]]]; cbn in FI; try discriminate. injection FI as <-. exists u0, u1, u2, u3, u4, u5, x. split; reflexivity. }
  destruct XS as (lli & lpe & lne & x2 & ar & ae & more & -> & ->).
  exists real, lli, lpe, lne, x2, ar, ae, more, pe, ne, r, e, values. split; [exact R|]. split; [exact X|]. split; [exact M|]. split; [exact V|].
  assert (LV : length values = 11%nat).
  { unfold halfcell_values in V. inv V u U. inv V d D. inv V p P. inv V n NV. assert (EV : values = p ++ n ++ [width (cell_curve pe ne)]) by congruence. subst values.
    unfold electrode_values in P, NV. inv P p1 P1. inv P p2 P2. inv P p3 P3. inv P p4 P4. inv NV n1 N1. inv NV n2 N2. inv NV n3 N3. inv NV n4 N4. injection P as <-. injection NV as <-. reflexivity. }
  subst row. split; [transitivity (6 + length values)%nat; [reflexivity|rewrite LV; reflexivity]|]. split; [repeat constructor; cbn; intuition discriminate|]. reflexivity.
Qed.
Lemma usable_first type summary c : In c (chosen_cycles first_threshold type summary) <-> usable type (3388 # 1000) summary c.
Proof.
  rewrite chosen_in. assert (E : first_threshold == 3388 # 1000) by reflexivity. unfold usable. split; intros (d & q & A & B & C & D & L); exists d, q; repeat split; auto; rewrite E in *; exact L.
Qed.
(** One row for every diagnostic of the type that still discharges more than 70% of 4.84 Ah, in the order of the
    summary; the row of a diagnostic depends on its own charge and on the fresh cell only. *)
Theorem C113_rows a data summary rows : NoDup (chosen_cycles first_threshold (a_type a) summary) -> all_losses a data summary = Ok rows ->
  map fst rows = chosen_cycles first_threshold (a_type a) summary /\ (forall c, In c (map fst rows) <-> usable (a_type a) (3388 # 1000) summary c) /\
  exists fr, fit_fresh a data summary = Ok fr /\ forall c row, In (c, row) rows -> fit_cycle a fr data c = Ok row.
Proof.
  intros N H. unfold all_losses, Model_Intracell_First.all_losses in H. inv H fr F. rewrite (rows_of_distinct _ _ _ N H). split; [reflexivity|]. split.
  - intro c. apply usable_first.
  - exists fr. split; [exact F|]. apply (rows_of_ok _ _ _ _ H). intros c r [].
Qed.
Theorem C113_repeated a data summary rows : all_losses a data summary = Ok rows ->
  NoDup (map fst rows) /\ (forall c, In c (map fst rows) <-> usable (a_type a) (3388 # 1000) summary c) /\
  exists fr, fit_fresh a data summary = Ok fr /\ forall c row, In (c, row) rows -> fit_cycle a fr data c = Ok row.
Proof.
  intro H. unfold all_losses, Model_Intracell_First.all_losses in H. inv H fr F. rewrite (rows_of_fst _ _ _ _ H). cbn [map].
  destruct (add_new_spec (chosen_cycles first_threshold (a_type a) summary) [] (NoDup_nil _)) as [A B].
  split; [exact A|]. split; [intro c; rewrite B, usable_first; cbn [In]; tauto|]. exists fr. split; [exact F|]. apply (rows_of_ok _ _ _ _ H). intros c r [].
Qed.
(** All rows are there if the fresh cell and every usable diagnostic can be fitted. *)
Theorem C113_made a data summary fr : fit_fresh a data summary = Ok fr -> (forall c, usable (a_type a) (3388 # 1000) summary c -> exists row, fit_cycle a fr data c = Ok row) ->
  exists rows, all_losses a data summary = Ok rows.
Proof.
  intros F T. unfold all_losses, Model_Intracell_First.all_losses. fold fit_fresh. rewrite F. cbn [bind]. apply rows_of_total. intros c C. apply T, usable_first, C.
Qed.
(** A run is accepted iff it has both tables, a usable diagnostic of the type and an RPT. *)
Theorem C113_accepted type has_both summary : intracell_valid first_threshold type has_both summary = true <->
  has_both = true /\ (exists c, usable type (3388 # 1000) summary c) /\ exists d, In d summary /\ contains "rpt" (d_type d) = true.
Proof.
  unfold intracell_valid, check_diagnostic_validation. destruct has_both; cbn [andb]; [|split; [discriminate|intros [? _]; discriminate]].
  destruct summary as [|d0 summary]; [cbn; split; [discriminate|intros (_ & (c & d & q & [] & _) & _)]|]. remember (d0 :: summary) as s eqn:ES. cbn [length]. replace (length s) with (S (length summary)) by (subst s; reflexivity).
  destruct (chosen_cycles first_threshold type s) as [|c l] eqn:C.
  - split; [discriminate|]. intros (_ & (c & U) & _). apply usable_first in U. rewrite C in U. destruct U.
  - rewrite existsb_exists. split.
    + intros (d & D & R). split; [reflexivity|]. split; [|exists d; auto]. exists c. apply usable_first. rewrite C. left. reflexivity.
    + intros (_ & _ & d & D & R). exists d. auto.
Qed.
(** The features of a run: the two first diagnostics. *)
Theorem C113_two a data summary c0 c1 rest fs : chosen_cycles first_threshold (a_type a) summary = c0 :: c1 :: rest -> c0 <> c1 ->
  two_losses a data summary = Ok fs -> exists fr r0 r1, fit_fresh a data summary = Ok fr /\ fit_cycle a fr data c0 = Ok r0 /\ fit_cycle a fr data c1 = Ok r1 /\
  fs = map (fun p => ("diag_0_" ++ fst p, snd p)%string) (combine first_columns r0) ++ map (fun p => ("diag_1_" ++ fst p, snd p)%string) (combine first_columns r1).
Proof.
  intros C N H. unfold two_losses, Model_Intracell_First.two_losses in H. inv H fr F. rewrite C in H. cbn [firstn] in H. inv H rows R. cbn [rows_of] in R. inv R r0 R0. inv R r1 R1. cbn [d_update] in R.
  rewrite (proj2 (Z.eqb_neq c0 c1) N) in R. injection R as <-. cbn [first_two] in H. exists fr, r0, r1. split; [exact F|]. split; [exact R0|]. split; [exact R1|].
  match type of H with Ok ?y = _ => assert (E : fs = y) by congruence end. clear H.
  destruct (C113_row _ _ _ _ _ R0) as (? & ? & ? & ? & ? & ? & ? & ? & ? & ? & ? & ? & ? & _ & _ & _ & _ & L0 & _). destruct (C113_row _ _ _ _ _ R1) as (? & ? & ? & ? & ? & ? & ? & ? & ? & ? & ? & ? & ? & _ & _ & _ & _ & L1 & _).
  subst fs. assert (CM : forall (f : string -> string) (u : list string) (w : list num), combine (map f u) w = map (fun p => (f (fst p), snd p)) (combine u w)).
  { intros f. induction u as [|k u IH]; intros [|v w]; cbn; [reflexivity|reflexivity|reflexivity|]. rewrite IH. reflexivity. }
  assert (CA : forall (u1 u2 : list string) (w1 w2 : list num), length u1 = length w1 -> combine (u1 ++ u2) (w1 ++ w2) = combine u1 w1 ++ combine u2 w2).
  { clear. induction u1 as [|k u1 IH]; intros u2 [|v w1] w2 L; cbn in L; try discriminate; cbn [combine app]; [reflexivity|]. rewrite IH by congruence. reflexivity. }
  rewrite CA by (rewrite map_length, L0; reflexivity). rewrite (CM (fun n => "diag_0_" ++ n)%string), (CM (fun n => "diag_1_" ++ n)%string). reflexivity.
Qed.
(** Finding: a run with one usable diagnostic is accepted and then raises an IndexError. *)
Theorem C113_single_refuted a data summary fr c row : chosen_cycles first_threshold (a_type a) summary = [c] -> fit_fresh a data summary = Ok fr -> fit_cycle a fr data c = Ok row ->
  two_losses a data summary = Err IndexError.
Proof. intros C F W. unfold two_losses, Model_Intracell_First.two_losses. fold fit_fresh. rewrite F. cbn [bind]. rewrite C. cbn [firstn rows_of]. fold fit_cycle. rewrite W. reflexivity. Qed.
(** Finding: the step type of the settings has no effect; the charge is used whatever is asked for. *)
Theorem C113_step_refuted a step data summary :
  all_losses {| a_type := a_type a; a_step := step; a_pe := a_pe a; a_ne := a_ne a |} data summary = all_losses a data summary /\
  two_losses {| a_type := a_type a; a_step := step; a_pe := a_pe a; a_ne := a_ne a |} data summary = two_losses a data summary.
Proof. split; reflexivity. Qed.
End C113.

(** * Cases *)
Import Props_Intracell.
Definition a_summary : list drow := [a_diagnostic 37 4; a_diagnostic 142 (7 # 2)].
Definition an_analysis : analysis := {| a_type := "rpt_0.2C"; a_step := 0; a_pe := ramp (35 # 10) (44 # 10); a_ne := ramp (8 # 10) (1 # 10) |}.
Definition toy_quadratic (l : list (Q * Q)) : result (Q -> num) := Ok (fun s => Some ((27 # 10) + (15 # 10) * (s / 100))).
Definition first_optimise (f : vector -> result num) (b : bounds) : result vector :=
  Ok (if (length b =? 5)%nat then [1; 0; 1; 1 # 10; 1 # 10] else [0; 0; 0; 1; 1 # 10; 1 # 10]).
Definition toy_root (x : Q) : Q := x * (2 # 3).
Definition first_slope (w : Q) := toy_slope.
Lemma case_first : first_diagnostic "rpt_0.2C" a_summary 37.
Proof. exists [], (a_diagnostic 37 4), [a_diagnostic 142 (7 # 2)]. repeat split. intros d []. Qed.
Lemma case_capacities : capacities_known run "rpt_0.2C" 37.
Proof. intros r v I _ _ _ _ _ _. cbn in I. destruct I as [<-|[<-|[<-|[<-|[<-|[<-|[]]]]]]]; discriminate. Qed.
Lemma case_measured : measured run "rpt_0.2C" 37 (1, Some (30 # 10)) /\ measured run "rpt_0.2C" 37 (3, Some (39 # 10)).
Proof.
  split; [exists (irow 37 0 (30 # 10) 1 0), (30 # 10)|exists (irow 37 0 (39 # 10) 3 0), (39 # 10)]; cbn; repeat split; auto; lra.
Qed.
Lemma case_range p : measured run "rpt_0.2C" 37 p -> 1 <= fst p <= 3.
Proof.
  intros (r & v & I & _ & C & S0 & Q0 & V & L1 & L2 & _). cbn in I. destruct I as [<-|[<-|[<-|[<-|[<-|[<-|[]]]]]]]; cbn in *; try discriminate; injection Q0 as <-; injection V as <-; lra.
Qed.
Example C107_case : exists l lo hi, initial_profile ValueError "rpt_0.2C" a_summary run = Ok (l, (lo, hi)) /\ lo == 1 /\ hi == 3 /\
  first_diagnostic "rpt_0.2C" a_summary 37 /\ capacities_known run "rpt_0.2C" 37 /\ (exists p q, measured run "rpt_0.2C" 37 p /\ measured run "rpt_0.2C" 37 q /\ fst p < fst q) /\
  (forall d, In d [a_diagnostic 37 4] -> d_type d <> "reset"%string).
Proof.
  destruct case_measured as [M1 M2]. destruct (C107_defined ValueError "rpt_0.2C" a_summary run 37 _ _ case_first case_capacities M1 M2 ltac:(reflexivity)) as (l & lo & hi & H). exists l, lo, hi. split; [exact H|].
  destruct (C107_profile _ _ _ _ _ _ _ H) as (c & C & CL & _). assert (c = 37%Z).
  { destruct C as (before & d & after & E & T & C & NB). destruct before as [|b before]; [|exfalso; cbn [app] in E; injection E as <- _; apply (NB (a_diagnostic 37 4) (or_introl eq_refl)); reflexivity]. cbn [app] in E. injection E as <- _. symmetry. exact C. }
  subst c. destruct CL as (((v & A1) & A2) & ((w & B1) & B2) & _). pose proof (case_range _ A1) as U1. pose proof (case_range _ B1) as U2. cbn [fst] in *.
  assert (lo <= 1) by (apply A2; exists (Some (30 # 10)); exact M1). assert (3 <= hi) by (apply B2; exists (Some (39 # 10)); exact M2).
  split; [lra|]. split; [lra|]. split; [exact case_first|]. split; [exact case_capacities|]. split; [eexists; eexists; split; [exact M1|]; split; [exact M2|reflexivity]|].
  intros d [<-|[]]. discriminate.
Qed.
Lemma case_charged c : In c [37%Z; 142%Z] -> exists p, charged run "rpt_0.2C" c p /\ 1 < fst p.
Proof.
  intros [<-|[<-|[]]]; [exists (3, Some (39 # 10)); split; [exists (irow 37 0 (39 # 10) 3 0), (39 # 10)|reflexivity]|exists (2, Some (40 # 10)); split; [exists (irow 142 0 (40 # 10) 2 0), (40 # 10)|reflexivity]]; cbn; repeat split; auto 10; lra.
Qed.
(** the profile of both diagnostics starts at 0 and is not a point *)
Lemma case_aged c : In c [37%Z; 142%Z] -> exists l lo hi l' top, initial_profile ValueError "rpt_0.2C" a_summary run = Ok (l, (lo, hi)) /\ aged_profile ValueError "rpt_0.2C" (l, (lo, hi)) run c = Ok l' /\
  0 < top /\ evenly 0 top 1001 (map fst l') /\ forall s v, In (s, v) l' -> v <> None.
Proof.
  intro C. destruct C107_case as (l & lo & hi & H & L & U & _). destruct (case_charged c C) as (p & P & P1). destruct (C108_defined _ _ _ _ _ c _ _ _ p H P) as (l' & A).
  destruct (C108_profile _ _ _ _ _ _ _ _ _ _ H A) as (top & (_ & TOP) & EV & _). exists l, lo, hi, l'. eexists. split; [exact H|]. split; [exact A|]. split; [|split; [exact EV|]].
  - assert (fst p <= top) by (apply TOP; exists (snd p); destruct p; exact P). apply Qlt_shift_div_l; lra.
  - intros s v I. exact (C108_known _ _ _ _ _ _ _ _ _ _ _ _ H A I).
Qed.
Example C108_case : exists l lo hi l', initial_profile ValueError "rpt_0.2C" a_summary run = Ok (l, (lo, hi)) /\ aged_profile ValueError "rpt_0.2C" (l, (lo, hi)) run 142 = Ok l' /\ exists p, charged run "rpt_0.2C" 142 p.
Proof.
  destruct (case_aged 142) as (l & lo & hi & l' & top & H & A & _); [right; left; reflexivity|]. destruct (case_charged 142) as (p & P & _); [right; left; reflexivity|]. exists l, lo, hi, l'. split; [exact H|]. split; [exact A|]. exists p. exact P.
Qed.
(** the fresh cell of the case, computed *)
Definition start_known (fr : fresh) : bool :=
  match fr_pe fr, fr_ne fr with
  | (s, Some v) :: (s', _) :: _, (_, Some w) :: _ => Qlt_bool s s' && Qle_bool (27 # 10) (v - w)
  | _, _ => false
  end.
Lemma case_fresh : exists fr, fit_fresh ValueError toy_quadratic toy_root first_optimise an_analysis run a_summary = Ok fr /\ start_known fr = true.
Proof.
  assert (H : match fit_fresh ValueError toy_quadratic toy_root first_optimise an_analysis run a_summary with Ok fr => start_known fr | Err _ => false end = true) by (vm_compute; reflexivity).
  destruct (fit_fresh ValueError toy_quadratic toy_root first_optimise an_analysis run a_summary) as [fr|]; [|discriminate]. exists fr. auto.
Qed.
Lemma even_mapped l a b k d : evenly a b points (map fst l) -> evenly (a * k + d) (b * k + d) points (map fst (mapped (fun x => x * k + d) l)).
Proof.
  intros (L & EV). unfold mapped. rewrite map_map. cbn [fst]. split; [rewrite map_length in *; exact L|]. intros i x H. rewrite nth_error_map in H. destruct (nth_error l i) as [p|] eqn:N; [|discriminate]. injection H as <-.
  rewrite (EV i (fst p) (map_nth_error fst i l N)). assert (NZ : ~ inject_Z (Z.of_nat (points - 1)) == 0) by (vm_compute; discriminate).
  set (n := inject_Z (Z.of_nat (points - 1))) in *. set (u := inject_Z (Z.of_nat i)). clearbody n u. field. exact NZ.
Qed.
Lemma matched_even nothing quadratic pe ne real x pe' ne' r e : initial_matching nothing quadratic pe ne real x = Ok (pe', ne', r, e) -> exists a b, evenly a b 1001 (map fst pe').
Proof.
  intro H. destruct (initial_matching_inv _ _ _ _ _ _ _ _ _ _ H) as (k & d & pe1 & ne1 & p & m & f & g & _ & _ & O & _ & _ & MZ & _ & _ & -> & _).
  destruct (overlay_inv _ _ _ _ _ O) as (lo & hi & f' & g' & _ & _ & _ & _ & _ & _ & -> & _).
  assert (E0 : evenly lo hi points (map fst (sample_on f' (linspace lo hi points)))) by (rewrite sample_fst; apply linspace_evenly, points_2).
  apply (even_mapped _ lo hi (100 / m) (- (fst p * 100 / m))) in E0. eexists. eexists. rewrite percent_shift. destruct E0 as (L & EV). unfold mapped in *. rewrite !map_map in *. cbn [fst] in *.
  split; [rewrite map_length in *; exact L|]. intros i y Y. rewrite nth_error_map in Y. destruct (nth_error (sample_on f' (linspace lo hi points)) i) as [q|] eqn:N; [|discriminate]. injection Y as <-.
  change (1001 - 1)%nat with (points - 1)%nat. rewrite <- (EV i (fst q * (100 / m) + - (fst p * 100 / m))); [|rewrite nth_error_map, N; reflexivity]. field. exact MZ.
Qed.
(** the electrodes of the fresh cell *)
Lemma case_electrodes fr : fit_fresh ValueError toy_quadratic toy_root first_optimise an_analysis run a_summary = Ok fr -> start_known fr = true ->
  exists a b q v w, a < b /\ evenly a b 1001 (map fst (fr_pe fr)) /\ map fst (fr_pe fr) = map fst (fr_ne fr) /\ length (fr_pe fr) = 1001%nat /\ length (fr_ne fr) = 1001%nat /\ electrodes_at (fr_pe fr) (fr_ne fr) 0 q v w.
Proof.
  intros F SK. destruct (C113_fresh _ _ _ _ _ _ _ _ F) as (x & r & e & _ & _ & M). destruct (matched_even _ _ _ _ _ _ _ _ _ _ M) as (a & b & EV).
  destruct (matched_spec _ _ _ _ _ _ _ _ _ _ M) as (_ & _ & _ & _ & _ & _ & _ & SAME & L1 & L2 & _). clear F M.
  unfold start_known in SK. destruct (fr_pe fr) as [|(s & [v|]) [|(s' & v') pe]]; try discriminate. destruct (fr_ne fr) as [|(u & [w|]) ne]; try discriminate.
  apply andb_true_iff in SK as (LT & _). apply Qlt_bool_iff in LT. exists a, b, s, v, w. split.
  - destruct EV as (_ & EV). pose proof (EV 0%nat s eq_refl) as E0. pose proof (EV 1%nat s' eq_refl) as E1. change (inject_Z (Z.of_nat (1001 - 1))) with 1000 in *. change (inject_Z (Z.of_nat 0)) with 0 in E0. change (inject_Z (Z.of_nat 1)) with 1 in E1.
    apply Qnot_le_lt. intro C. assert ((b - a) / 1000 <= 0) by (apply Qle_shift_div_r; lra). lra.
  - split; [exact EV|]. split; [exact SAME|]. split; [exact L1|]. split; [exact L2|]. split; [reflexivity|exists u; reflexivity].
Qed.
Example C109_case : exists pe ne real x pe' ne' r e v, initial_matching ValueError toy_quadratic pe ne real x = Ok (pe', ne', r, e) /\ initial_error ValueError toy_quadratic toy_root pe ne real x = Ok v /\
  length pe = 1001%nat /\ nth_error x 0 = Some 1.
Proof.
  destruct case_fresh as (fr & F & _). destruct (C113_fresh _ _ _ _ _ _ _ _ F) as (x & r & e & _ & X & M). exists (a_pe an_analysis), (a_ne an_analysis), (fst (fr_profile fr)), x, (fr_pe fr), (fr_ne fr), r, e. eexists.
  split; [exact M|]. split; [unfold initial_error; rewrite M; cbn [bind]; reflexivity|]. split; [apply ramp_length|]. unfold first_optimise in X. cbn [length Nat.eqb] in X. assert (E : x = [1; 0; 1; 1 # 10; 1 # 10]) by congruence. rewrite E. reflexivity.
Qed.
Example C110_case : exists pe ne a b pe' ne', a < b /\ evenly a b 1001 (map fst pe) /\ map fst pe = map fst ne /\ degrade ValueError pe ne {| l_lli := 0; l_pe := 0; l_ne := 0 |} = Ok (pe', ne') /\
  length pe = 1001%nat /\ length ne = 1001%nat /\ exists q v w, electrodes_at pe ne 0 q v w.
Proof.
  destruct case_fresh as (fr & F & SK). destruct (case_electrodes fr F SK) as (a & b & q & v & w & AB & EV & SAME & L1 & L2 & EL).
  destruct (proj1 (C110_defined ValueError _ _ {| l_lli := 0; l_pe := 0; l_ne := 0 |} L1 L2)) as (pe' & ne' & D); [exists 0%nat, q, v, w; exact EL|].
  exists (fr_pe fr), (fr_ne fr), a, b, pe', ne'. repeat (split; [assumption|]). exists q, v, w. exact EL.
Qed.
(** Finding: the negative electrode is shrunk around the place where the cell is lowest, not where it is closest to
    2.7 V.  Here the cell is at 2.7 V at 10%, but after a loss of half the material the voltage of the electrode
    there has changed. *)
Definition low_pe : curve := as_curve (ramp (33 # 10) (45 # 10)).
Definition low_ne : curve := as_curve (ramp (8 # 10) 0).
Theorem C110_setpoint_refuted : exists pe' ne' s v, degrade ValueError low_pe low_ne {| l_lli := 0; l_pe := 0; l_ne := 50 |} = Ok (pe', ne') /\
  (exists q a b, electrodes_at low_pe low_ne 100 q a b /\ q == 10 /\ a - b == 27 # 10 /\ b == 72 # 100) /\ nth_error ne' 100 = Some (s, Some v) /\ s == 10 /\ v == 64 # 100.
Proof.
  assert (H : match degrade ValueError low_pe low_ne {| l_lli := 0; l_pe := 0; l_ne := 50 |} with
    Ok (_, ne') => match nth_error ne' 100 with Some (s, Some v) => Qeq_bool s 10 && Qeq_bool v (64 # 100) | _ => false end | Err _ => false end = true) by (lazy; reflexivity).
  destruct (degrade ValueError low_pe low_ne {| l_lli := 0; l_pe := 0; l_ne := 50 |}) as [[pe' ne']|]; [|discriminate].
  destruct (nth_error ne' 100) as [(s & [v|])|] eqn:N; try discriminate. apply andb_true_iff in H as (A & B). apply Qeq_bool_iff in A, B. exists pe', ne', s, v. split; [reflexivity|]. split; [|auto].
  exists 10, (171 # 50), (18 # 25). split; [split; [vm_compute; reflexivity|exists 10; vm_compute; reflexivity]|]. repeat split; reflexivity.
Qed.
(** nothing is lost in the case *)
Lemma case_matching c : In c [37%Z; 142%Z] -> exists fr real pe ne r e q u, fit_fresh ValueError toy_quadratic toy_root first_optimise an_analysis run a_summary = Ok fr /\
  aged_profile ValueError "rpt_0.2C" (fr_profile fr) run c = Ok real /\ aged_matching ValueError (fr_pe fr) (fr_ne fr) real [0; 0; 0; 1; 1 # 10; 1 # 10] = Ok (pe, ne, r, e) /\
  has_voltage r q /\ has_voltage e u /\ distinct_socs pe /\ exists q1 q2, has_voltage real q1 /\ has_voltage real q2 /\ q1 < q2.
Proof.
  intro C. destruct case_fresh as (fr & F & SK). destruct (case_electrodes fr F SK) as (a & b & q & v & w & AB & EV & SAME & L1 & L2 & EL).
  destruct (C113_fresh _ _ _ _ _ _ _ _ F) as (x0 & r0 & e0 & IP & _ & _). destruct (case_aged c C) as (l & lo & hi & real & top & H & A & TOP & ER & KN).
  assert (PR : fr_profile fr = (l, (lo, hi))) by (cbn [a_type an_analysis] in IP; congruence). rewrite <- PR in A.
  destruct (proj1 (C110_defined ValueError _ _ {| l_lli := 0; l_pe := 0; l_ne := 0 |} L1 L2)) as (pe1 & ne1 & D); [exists 0%nat, q, v, w; exact EL|].
  destruct (C110_nothing_lost _ _ _ _ _ _ _ AB EV SAME D) as (F1 & F2).
  destruct (even_ends real 0 top TOP ER) as ((p1 & P1 & E1) & (p2 & P2 & E2) & RG).
  assert (HV : forall p, In p real -> has_voltage real (fst p)). { intros (s & y) P. pose proof (KN s y P). destruct y as [y|]; [exists y; exact P|congruence]. }
  assert (CV : exists y, cell_has_voltage pe1 ne1 y).
  { destruct EL as (X1 & u & X2). destruct (F2_left _ _ _ F1 0%nat _ X1) as ((s1 & v1) & Y1 & _ & Z1). destruct (F2_left _ _ _ F2 0%nat _ X2) as ((s2 & v2) & Y2 & _ & Z2). cbn [snd] in *. subst v1 v2.
    exists s1, 0%nat, v, w. split; [exact Y1|exists s2; exact Y2]. }
  destruct (C111_defined ValueError (fr_pe fr) (fr_ne fr) real [0; 0; 0; 1; 1 # 10; 1 # 10] _ pe1 ne1 eq_refl D CV) as (pe & ne & r & e & M); [exists (fst p1); apply HV, P1|].
  destruct (C111_matched _ _ _ _ _ _ _ _ _ M) as (lli & lpe & lne & x2 & pe2 & ne2 & z & ra & rb & X0 & X1 & X2 & X3 & D2 & LZ & M1 & M2 & RA & RB & SR & EE & RE & RR).
  injection X0 as <-. injection X1 as <-. injection X2 as <-. rewrite D in D2. assert (pe2 = pe1 /\ ne2 = ne1) as [-> ->] by (split; congruence).
  assert (RA0 : ra == 0). { destruct RA as (RA1 & RA2). pose proof (RA2 _ (HV p1 P1)). destruct RA1 as (y & Y). pose proof (RG _ Y). cbn [fst] in *. lra. }
  destruct e as [|(u & v') e]; [destruct EE as (EE & _); discriminate|]. destruct r as [|(u' & w') r]; [discriminate|].
  assert (U0 : u == 0). { destruct EE as (_ & EE). specialize (EE 0%nat u eq_refl). change (inject_Z (Z.of_nat 0)) with 0 in EE. lra. }
  assert (W : w' <> None). { eapply (inside_known (fun p => In p real /\ snd p <> None)); [|apply (RR u' w'); left; reflexivity]. intros p (_ & K). exact K. }
  assert (V : v' <> None).
  { assert (CZ : exists p, cell_any pe ne p /\ fst p == 0).
    { destruct LZ as ((i & g & h & (G1 & k & G2)) & _). destruct (F2_left _ _ _ M1 i _ G1) as ((s1 & v1) & Y1 & T1 & Z1). destruct (F2_left _ _ _ M2 i _ G2) as ((s2 & v2) & Y2 & _ & Z2). cbn [fst snd] in *. subst v1 v2.
      exists (s1, Some (g - h)). split; [exists i, g, h; split; [split; [exact Y1|exists s2; exact Y2]|reflexivity]|cbn [fst]; lra]. }
    destruct CZ as (p & CP & CZ). destruct (RE u v' (or_introl eq_refl)) as [R|([O|O] & _)].
    - eapply (inside_known (cell_any pe ne)); [|exact R]. intros y (i & g & h & _ & E). congruence.
    - specialize (O p CP). lra.
    - specialize (O p CP). lra. }
  destruct w' as [w'|]; [|congruence]. destruct v' as [v'|]; [|congruence].
  exists fr, real, pe, ne, ((u', Some w') :: r), ((u, Some v') :: e), u', u. split; [exact F|]. split; [exact A|]. split; [exact M|]. split; [exists w'; left; reflexivity|]. split; [exists v'; left; reflexivity|]. split.
  - apply (aged_distinct _ _ _ _ _ _ _ _ _ M). destruct (even_ends _ a b AB EV) as ((g & G & EG) & (h & HH & EH) & _).
    apply In_nth_error in G as (i & G). apply In_nth_error in HH as (j & HH). destruct (F2_left _ _ _ F1 i _ G) as (g1 & G1 & T1 & _). destruct (F2_left _ _ _ F1 j _ HH) as (h1 & H1 & T2 & _).
    destruct (F2_left _ _ _ M1 i _ G1) as (g2 & G2 & T3 & _). destruct (F2_left _ _ _ M1 j _ H1) as (h2 & H2 & T4 & _).
    exists g2, h2. split; [exact (nth_error_In _ _ G2)|]. split; [exact (nth_error_In _ _ H2)|]. lra.
  - exists (fst p1), (fst p2). split; [apply HV, P1|]. split; [apply HV, P2|]. lra.
Qed.
Example C111_case : exists pe ne real x pe' ne' r e q1 q2, aged_matching ValueError pe ne real x = Ok (pe', ne', r, e) /\ has_voltage real q1 /\ has_voltage real q2 /\ q1 < q2 /\
  exists r' e', v_over_soc ValueError pe ne real x = Ok (pe', ne', r', e').
Proof.
  destruct (case_matching 142) as (fr & real & pe & ne & r & e & q & u & _ & _ & M & HR & HE & _ & q1 & q2 & H1 & H2 & LT); [right; left; reflexivity|].
  exists (fr_pe fr), (fr_ne fr), real, [0; 0; 0; 1; 1 # 10; 1 # 10], pe, ne, r, e, q1, q2. split; [exact M|]. split; [exact H1|]. split; [exact H2|]. split; [exact LT|].
  destruct (C111_matched _ _ _ _ _ _ _ _ _ M) as (lli & lpe & lne & x2 & pe2 & ne2 & z & ra & rb & _ & _ & _ & _ & _ & _ & _ & _ & _ & _ & SR & _ & _ & RR).
  unfold v_over_soc. rewrite M. cbn [bind]. destruct HR as (v & HR).
  assert (N1 : known_part r <> []). { intro E. assert (I : In (q, Some v) (known_part r)) by (apply known_in; split; [exact HR|discriminate]). rewrite E in I. destruct I. }
  assert (N2 : chosen_by r e <> []).
  { pose proof (f_equal (@length Q) SR) as LE. rewrite !map_length in LE. rewrite (Proofs_Intracell_First.chosen_all r e LE); [intro E; rewrite E in HE; destruct HE as (y & [])|].
    intros (s & y) P. apply (inside_known (fun p => In p real /\ snd p <> None) s y); [intros p (_ & K); exact K|apply RR, P]. }
  destruct (span_total ValueError _ N1) as (a & b & ->). cbn [bind]. unfold resample.
  destruct (interp1d_total ValueError None None _ N2) as (f & ->). destruct (interp1d_total ValueError None None _ N1) as (g & ->). cbn [bind]. eauto.
Qed.
Example C111_bad_case : v_over_soc ValueError [] [] [] [] = Err IndexError /\ (forall a b, a <= b -> toy_root a <= toy_root b) /\ toy_root 0 == 0 /\ toy_root (9 # 4) == 3 # 2 /\
  exists pe ne real x, v_over_soc ValueError pe ne real x = Err ValueError.
Proof.
  split; [reflexivity|]. split; [intros a b L; unfold toy_root; lra|]. split; [reflexivity|]. split; [reflexivity|].
  exists [(0, Some 4)], [(0, Some 1)], [], [0; 0; 0; 1]. vm_compute. reflexivity.
Qed.
Definition small_pe : curve := [(0, Some (7 # 2)); (50, Some 4); (100, Some (42 # 10))].
Definition small_ne : curve := [(0, Some (8 # 10)); (50, Some (1 # 2)); (100, Some 0)].
Example C112_case : exists vs, halfcell_values small_pe small_ne = Ok vs /\ length small_pe = length small_ne /\ map fst small_pe = map fst small_ne /\ distinct_socs small_pe /\
  electrodes_at small_pe small_ne 0 0 (7 # 2) (8 # 10) /\ strictly small_pe /\ strictly small_ne /\ vs = [Some (42 # 10); Some (7 # 2); nth 2 vs None; nth 3 vs None; Some 100; Some 0; Some (8 # 10); nth 7 vs None; nth 8 vs None; Some 100; Some 100] /\
  exists x, nth 2 vs None = Some x /\ x == 100.
Proof.
  eexists. split; [vm_compute; reflexivity|]. split; [reflexivity|]. split; [reflexivity|]. split.
  { intros [|[|[|i]]] [|[|[|j]]] p q I J E; cbn in *; try discriminate; try reflexivity; try (destruct i; discriminate); try (destruct j; discriminate); injection I as <-; injection J as <-; cbn in E; lra. }
  split; [split; [reflexivity|exists 0; reflexivity]|]. split; [|split].
  1, 2: intros p q v w [I|[I|[I|[]]]] [J|[J|[J|[]]]] E; injection I as <- <-; injection J as <- <-; first [reflexivity|exfalso; lra].
  split; [reflexivity|]. eexists. split; reflexivity.
Qed.
Lemma case_cycle c : In c [37%Z; 142%Z] -> exists fr row, fit_fresh ValueError toy_quadratic toy_root first_optimise an_analysis run a_summary = Ok fr /\
  fit_cycle ValueError toy_root first_slope first_optimise an_analysis fr run c = Ok row.
Proof.
  intro C. destruct (case_matching c C) as (fr & real & pe & ne & r & e & q & u & F & A & M & HR & HE & D & _). exists fr.
  unfold fit_cycle. cbn [a_type an_analysis]. rewrite A. cbn [bind]. match goal with |- context [first_optimise ?f loss_bounds] => change (first_optimise f loss_bounds) with (@Ok vector [0; 0; 0; 1; 1 # 10; 1 # 10]) end. cbn [bind]. unfold final_profiles. rewrite M. cbn [bind].
  unfold first_slope. destruct (dqdv_total _ _ HR) as (d1 & ->). cbn [bind]. destruct (dqdv_total _ _ HE) as (d2 & ->). cbn [bind].
  destruct (C112_aged _ _ _ _ _ _ _ _ _ M) as (LN & SAME & (i & y & v & w & EL) & _).
  destruct (C112_values _ _ _ _ _ _ LN SAME D EL) as (? & ? & ? & ? & ? & ? & ? & ? & ? & ? & ? & ? & ? & ? & ? & -> & _). cbn [bind mapM x_at nth_error]. eexists. split; [exact F|]. reflexivity.
Qed.
Example C113_case : exists rows fs, all_losses ValueError toy_quadratic toy_root first_slope first_optimise an_analysis run a_summary = Ok rows /\ map fst rows = [37; 142]%Z /\
  NoDup (chosen_cycles first_threshold "rpt_0.2C" a_summary) /\ two_losses ValueError toy_quadratic toy_root first_slope first_optimise an_analysis run a_summary = Ok fs /\ length fs = 34%nat /\
  intracell_valid first_threshold "rpt_0.2C" true a_summary = true /\ intracell_valid first_threshold "rpt_0.2C" true [a_diagnostic 37 3] = false.
Proof.
  destruct (case_cycle 37) as (fr & r0 & F & R0); [left; reflexivity|]. destruct (case_cycle 142) as (fr' & r1 & F' & R1); [right; left; reflexivity|]. assert (fr' = fr) by congruence. subst fr'.
  assert (CH : chosen_cycles first_threshold "rpt_0.2C" a_summary = [37; 142]%Z) by (vm_compute; reflexivity).
  pose proof (rows_two _ 37 142 r0 r1 eq_refl R0 R1) as RW.
  destruct (C113_row _ toy_quadratic _ _ _ _ _ _ _ _ R0) as (? & ? & ? & ? & ? & ? & ? & ? & ? & ? & ? & ? & ? & _ & _ & _ & _ & L0 & _). destruct (C113_row _ toy_quadratic _ _ _ _ _ _ _ _ R1) as (? & ? & ? & ? & ? & ? & ? & ? & ? & ? & ? & ? & ? & _ & _ & _ & _ & L1 & _).
  assert (TS : exists fs, first_two first_columns [(37%Z, r0); (142%Z, r1)] = Ok fs /\ length fs = 34%nat) by (eexists; split; [reflexivity|rewrite combine_length, !app_length, !map_length, L0, L1; reflexivity]).
  destruct TS as (fs & FS & LF). exists [(37%Z, r0); (142%Z, r1)], fs. unfold all_losses, two_losses. rewrite F. cbn [bind a_type an_analysis]. rewrite CH. cbn [firstn]. rewrite RW. cbn [bind].
  split; [reflexivity|]. split; [reflexivity|]. split; [repeat constructor; cbn; intuition discriminate|]. split; [exact FS|]. split; [exact LF|]. split; vm_compute; reflexivity.
Qed.

Print Assumptions C107_profile.
Print Assumptions C107_within.
Print Assumptions C107_defined.
Print Assumptions C107_no_diagnostic.
Print Assumptions C108_profile.
Print Assumptions C108_defined.
Print Assumptions C108_known.
Print Assumptions C109_matched.
Print Assumptions C109_error.
Print Assumptions C109_length.
Print Assumptions C110_degraded.
Print Assumptions C110_nothing_lost.
Print Assumptions C110_defined.
Print Assumptions C111_matched.
Print Assumptions C111_defined.
Print Assumptions C111_resampled.
Print Assumptions C111_error.
Print Assumptions C111_cannot_compare.
Print Assumptions C111_missing_refuted.
Print Assumptions C112_values.
Print Assumptions C112_aged.
Print Assumptions C112_plateau_refuted.
Print Assumptions C113_fresh.
Print Assumptions C113_row.
Print Assumptions C113_rows.
Print Assumptions C113_repeated.
Print Assumptions C113_made.
Print Assumptions C113_accepted.
Print Assumptions C113_two.
Print Assumptions C113_single_refuted.
Print Assumptions C113_step_refuted.
Print Assumptions C110_setpoint_refuted.
