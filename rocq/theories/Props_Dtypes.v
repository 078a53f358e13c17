(** C143: the column types of structured data: what casting keeps of the values, what it refuses, and that a stored frame is loaded
    with the same values. *)
From Verif Require Import Py Num Model_Stamp Model_Dtypes Spec_Dtypes Proofs_Dtypes.
Local Open Scope string_scope.

(** Columns in the table become columns of their type: integers without their fraction where they are in range, numbers with 24
    binary digits next to the given ones, missing numbers stay missing; every other column is as before. *)
Theorem C143_kept key f g : cast_dtypes key f = Ok g -> Forall2 (column_becomes key) f g.
Proof. apply kept. Qed.
(** A cast fails for an unknown frame, or for a missing integer or a text in a column of numbers. *)
Theorem C143_refused key f e : cast_dtypes key f = Err e <->
  (~ is_frame key /\ e = KeyError) \/ (is_frame key /\ e = ValueError /\ exists name col ty c, In (name, col) f /\ typed key name ty /\ In c col /\ misfit ty c).
Proof. apply refused. Qed.
(** Values that have the types already are not changed. *)
Theorem C143_exact key f : is_frame key -> all_fit key f -> exists g, cast_dtypes key f = Ok g /\ same_frame g f.
Proof. apply exact_cast. Qed.
(** A second cast changes nothing. *)
Theorem C143_again key f g : cast_dtypes key f = Ok g -> exists h, cast_dtypes key g = Ok h /\ same_frame h g.
Proof. intro H. apply (again _ _ _ H). Qed.
(** The values of a cast frame come back when it is loaded. *)
Theorem C143_loaded key f g : cast_dtypes key f = Ok g -> exists h, load_dtypes key g = Ok h /\ same_frame h g.
Proof. intro H. apply (again _ _ _ H). Qed.
(** A file is refused when a column of integers has a cell that is no integer of the type, or a column of numbers has a text. *)
Theorem C143_load_refused key f : (exists e, load_dtypes key f = Err e) <-> exists name col ty c, In (name, col) f /\ typed key name ty /\ In c col /\ unfit ty c.
Proof. apply load_refused. Qed.
(** The columns of integers, of categories and of objects; all others are numbers. *)
Theorem C143_types key name ty : typed key name ty ->
  (In ty ["int32"; "int16"] <-> In name ["cycle_index"; "step_index"; "step_index_counter"; "paused"]) /\ (ty = "int16" <-> In name ["step_index"; "step_index_counter"]) /\
  (ty = "category" <-> In name ["step_type"; "cycle_type"]) /\ (ty = "object" <-> name = "date_time_iso") /\
  (ty = "float64" <-> In name ["test_time"; "time_temperature_integrated"; "coulombic_efficiency"] \/
                      (In name ["charge_capacity"; "discharge_capacity"; "charge_energy"; "discharge_energy"] /\ key <> "cycles_interpolated")) /\
  In ty ["int32"; "int16"; "category"; "object"; "float64"; "float32"].
Proof.
  intros (types & I & J). cbn in I.
  repeat (destruct I as [I|I]; [injection I as <- <-; cbn in J; repeat (destruct J as [J|J]; [injection J as <- <-; cbn; intuition congruence|]); destruct J|]). destruct I.
Qed.
(** The columns that have a type, of every frame. *)
Theorem C143_columns key name : (exists ty, typed key name ty) <->
  (key = "cycles_interpolated" /\ In name ["test_time"; "cycle_index"; "current"; "voltage"; "temperature"; "internal_resistance"; "charge_capacity"; "discharge_capacity"; "charge_energy"; "discharge_energy"; "step_type"; "step_index"]) \/
  (key = "summary" /\ In name ["cycle_index"; "discharge_capacity"; "charge_capacity"; "discharge_energy"; "charge_energy"; "dc_internal_resistance"; "temperature_maximum"; "temperature_average"; "temperature_minimum"; "date_time_iso";
    "energy_efficiency"; "charge_throughput"; "energy_throughput"; "charge_duration"; "time_temperature_integrated"; "paused"; "CV_time"; "CV_current"; "CV_capacity"]) \/
  (key = "diagnostic_summary" /\ In name ["discharge_capacity"; "charge_capacity"; "discharge_energy"; "charge_energy"; "temperature_maximum"; "temperature_average"; "temperature_minimum"; "date_time_iso"; "cycle_index"; "coulombic_efficiency";
    "paused"; "cycle_type"; "CV_time"; "CV_current"; "CV_capacity"]) \/
  (key = "diagnostic_interpolated" /\ In name ["voltage"; "current"; "charge_capacity"; "discharge_capacity"; "charge_energy"; "discharge_energy"; "internal_resistance"; "temperature"; "test_time"; "cycle_index"; "cycle_type"; "step_index";
    "step_index_counter"; "step_type"; "discharge_dQdV"; "charge_dQdV"]).
Proof.
  assert (N : forall types, (exists ty : string, In (name, ty) types) <-> In name (map fst types)).
  { intro types. rewrite in_map_iff. split; [intros (ty & I); exists (name, ty); split; [reflexivity|exact I]|]. intros ([n ty] & E & I). cbn in E. subst n. exists ty. exact I. }
  split.
  - intros (ty & types & I & J). assert (M : In name (map fst types)) by (apply N; exists ty; exact J). clear J. cbn [structure_dtypes In] in I. destruct I as [I|[I|[I|[I|[]]]]]; injection I as <- <-; cbn [map fst] in M; tauto.
  - intros [[-> H]|[[-> H]|[[-> H]|[-> H]]]]; match goal with |- exists ty, typed ?k _ _ => destruct (sget structure_dtypes k) as [types|] eqn:K; [|vm_compute in K; discriminate K] end;
      (assert (M : exists ty, In (name, ty) types) by (apply N; vm_compute in K; injection K as <-; exact H)); destruct M as (ty & M); exists ty, types; (split; [apply sget_is; [apply keys_nodup|exact K]|exact M]).
Qed.
(** A step number outside of 16 bits does not stay what it was. *)
Theorem C143_wraps_refuted : ~ forall key f g, cast_dtypes key f = Ok g -> (forall name col q, In (name, col) f -> In (Num q) col -> exists z, q == inject_Z z) -> same_frame g f.
Proof.
  intro H. specialize (H "cycles_interpolated" [("step_index", [Num 32768])] [("step_index", [Num (-32768)])]).
  assert (A : same_frame [("step_index", [Num (-32768)])] [("step_index", [Num 32768])]).
  { apply H; [vm_compute; reflexivity|]. intros name col q [E|[]] J. injection E as <- <-. destruct J as [J|[]]. injection J as <-. exists 32768%Z. reflexivity. }
  inversion A as [|? ? ? ? [_ B]]; subst. inversion B as [|? ? ? ? C]; subst. cbn in C. discriminate C.
Qed.
(** A fraction in a column of integers is cut off without an error. *)
Theorem C143_cut_refuted : ~ forall key f g, cast_dtypes key f = Ok g -> forall name col c, In (name, col) f -> In c col -> exists col' d, In (name, col') g /\ In d col' /\ same_cell d c.
Proof.
  intro H. specialize (H "summary" [("paused", [Num (29 # 10)])] [("paused", [Num 2])] eq_refl "paused" [Num (29 # 10)] (Num (29 # 10)) (or_introl eq_refl) (or_introl eq_refl)).
  destruct H as (col & d & [E|[]] & J & S). injection E as <-. destruct J as [<-|[]]. cbn in S. discriminate S.
Qed.

(** Non-vacuity. *)
Example cast_example : cast_dtypes "summary" [("cycle_index", [Num 0; Num (5 # 2)]); ("temperature_average", [Num (1 # 10); Missing]); ("note", [Words "x"; Missing]); ("charge_capacity", [Num (1 # 10); Missing])]
  = Ok [("cycle_index", [Num 0; Num 2]); ("temperature_average", [Num (float32 (1 # 10)); Missing]); ("note", [Words "x"; Missing]); ("charge_capacity", [Num (1 # 10); Missing])].
Proof. reflexivity. Qed.
Example tenth_example : float32 (1 # 10) == 13421773 # 134217728.
Proof. reflexivity. Qed.
Example missing_example : cast_dtypes "summary" [("paused", [Num 0; Missing])] = Err ValueError /\ cast_dtypes "raw" [] = Err KeyError.
Proof. split; reflexivity. Qed.
Example load_example : load_dtypes "summary" [("paused", [Num 0; Num (5 # 2)])] = Err ValueError /\ load_dtypes "cycles_interpolated" [("step_index", [Num 32768])] = Err ValueError.
Proof. split; reflexivity. Qed.
Example fit_example : all_fit "summary" [("paused", [Num 3]); ("CV_time", [Missing; Num (1 # 2)])].
Proof.
  intros name col ty c [E|[E|[]]] Y C; apply (typed_is "summary" _ _ _ eq_refl) in Y; injection E as <- <-; vm_compute in Y; injection Y as <-.
  - destruct C as [<-|[]]. split; [intros _; exists 3, 3%Z; split; [reflexivity|]; split; [reflexivity|]; unfold in_range; lia|]. split; [intro H; discriminate H|]. split; intro H; discriminate H.
  - split; [intro H; discriminate H|]. split; [intro H; discriminate H|]. split; [intros _|intro H; discriminate H]. destruct C as [<-|[<-|[]]]; [left; reflexivity|]. right. exists (1 # 2). split; [reflexivity|]. exists 1%Z, (-1)%Z. split; [cbn; lia|reflexivity].
Qed.
Example typed_example : typed "summary" "paused" "int32" /\ ~ is_frame "raw".
Proof.
  split.
  - eexists. split; [right; left; reflexivity|]. cbn. do 15 right. left. reflexivity.
  - unfold is_frame. cbn. intuition discriminate.
Qed.

Print Assumptions C143_kept.
Print Assumptions C143_refused.
Print Assumptions C143_exact.
Print Assumptions C143_again.
Print Assumptions C143_loaded.
Print Assumptions C143_load_refused.
Print Assumptions C143_types.
Print Assumptions C143_columns.
Print Assumptions C143_wraps_refuted.
Print Assumptions C143_cut_refuted.
