(** C98: the interpolated diagnostic data as images.  C99: the cycles at which capacities are reached. *)
From Coq Require Import Psatz Lqa.
From Verif Require Import Py Num Model_Text Model_Diagnostic Model_Summary Model_Features Model_Stats Model_Degrade Model_Lookup Model_Hppc Spec_Hppc Spec_Life Model_Image Spec_Image Proofs_Stats Proofs_Life Proofs_Image.
From Verif Require Proofs_Structure.

(** For every type whose first diagnostic has two steps, every metric, both steps and every position
    there is one channel, in this order; its name tells these, and it shows the metric over the records
    of that step of that diagnostic. *)
Theorem C98_channels metrics types positions impute data cs :
  images metrics types positions impute data = Ok cs ->
  Forall2 (fun ch cv => let '(t, m, i, p) := ch in
             fst cv = channel_name ch /\ exists l, step_at data t p i l /\ is_image impute m l (snd cv))
          (channels metrics (filter (two_steps data) types) positions) cs.
Proof. exact (images_are metrics types positions impute data cs). Qed.
(** The images are made if every type is present, those with two steps have them at every position, and
    there is something to show. *)
Theorem C98_made metrics types positions impute data :
  (forall t, In t types -> typed t data <> []) ->
  (forall m, In m metrics -> usable m) ->
  (forall t p i, In t types -> two_steps data t = true -> In p positions -> (i < 2)%nat -> exists l, step_at data t p i l) ->
  channels metrics (filter (two_steps data) types) positions <> [] ->
  exists cs, images metrics types positions impute data = Ok cs.
Proof. exact (images_run metrics types positions impute data). Qed.

(** One value for every record. *)
Theorem C98_one_value_per_record impute metric l v : is_image impute metric l v -> length v = length l.
Proof.
  intros (raw & H). destruct (String.eqb metric "test_time").
  - destruct H as (s & _ & F & C). apply Proofs_Structure.F2_length in F. destruct impute; cbn in C; [apply Proofs_Structure.F2_length in C|subst v]; unfold num in *; congruence.
  - destruct (quantities metric) as [[c d]|].
    + destruct (String.eqb metric "dQdV").
      * destruct H as (F & C). apply Proofs_Structure.F2_length in F. destruct impute; cbn in C; [apply Proofs_Structure.F2_length in C|subst v]; unfold num in *; congruence.
      * destruct H as (t & _ & F & C). apply Proofs_Structure.F2_length in F. destruct impute; cbn in C; [destruct C as [C _]|subst v]; unfold num in *; congruence.
    + destruct H as (f & _ & -> & ->). apply map_length.
Qed.
(** In a charge (nothing is discharged) the capacity shown is the charged capacity; in a discharge (the
    charged capacity stays the same) it is what is left of it. *)
Theorem C98_charge_and_discharge metric c d l v : quantities metric = Some (c, d) -> metric <> "dQdV"%string -> is_image false metric l v ->
  ((forall r, In r l -> (exists q, c r = Some q) /\ exists z, d r = Some z /\ z == 0) -> Forall2 (fun r x => exists q q', c r = Some q /\ x = Some q' /\ q' == q) l v) /\
  (forall m, (forall r, In r l -> (exists q, c r = Some q /\ q == m) /\ exists z, d r = Some z /\ 0 <= z) ->
     Forall2 (fun r x => exists z q, d r = Some z /\ x = Some q /\ q == m - z) l v).
Proof.
  intros M ND (raw & H). destruct (String.eqb_spec metric "test_time") as [->|_]; [discriminate M|]. rewrite M in H. apply String.eqb_neq in ND. rewrite ND in H.
  destruct H as (top & T & F & C). cbn in C. subst v. split.
  - intro A. assert (B : forall r q, In r l -> c r = Some q -> exists t, top = Some t /\ q <= t).
    { intros r q I Q. destruct top as [t|]; cbn in T; [exists t; split; [reflexivity|]|destruct (T q)]; [apply T|]; rewrite <- Q; apply in_map; exact I. }
    revert A B. clear - F. induction F as [|r x l raw X F IH]; intros A B; constructor.
    + destruct (A r (or_introl eq_refl)) as ((q & Q) & z & Z & Z0). destruct (B r q (or_introl eq_refl) Q) as (t & -> & L).
      rewrite Q, Z in X. destruct X as (y & -> & Y1 & Y2 & Y3). exists q, y. repeat split; auto. lra.
    + apply IH; [intros; apply A; right; assumption|intros r0 q0 I0; apply B; right; exact I0].
  - intros m A. assert (B : forall r q, In r l -> c r = Some q -> exists t, top = Some t /\ t == m).
    { intros r q I Q. destruct top as [t|]; cbn in T; [exists t; split; [reflexivity|]|destruct (T q); rewrite <- Q; apply in_map; exact I].
      destruct T as [T _]. apply in_map_iff in T as (r' & R' & I'). destruct (A r' I') as ((q' & Q' & E) & _). congruence || (rewrite R' in Q'; injection Q' as <-; exact E). }
    revert A B. clear - F. induction F as [|r x l raw X F IH]; intros A B; constructor.
    + destruct (A r (or_introl eq_refl)) as ((q & Q & E) & z & Z & Z0). destruct (B r q (or_introl eq_refl) Q) as (t & -> & L).
      rewrite Q, Z in X. destruct X as (y & -> & Y1 & Y2 & Y3). exists z, y. repeat split; auto. lra.
    + apply IH; [intros; apply A; right; assumption|intros r0 q0 I0; apply B; right; exact I0].
Qed.
(** When missing values are filled in: no time and no dQdV is missing, and a capacity or energy only if
    all of them are. *)
Theorem C98_nothing_missing metric l v : is_image true metric l v -> In None v ->
  plain metric <> None \/
  exists c d, quantities metric = Some (c, d) /\ forall r, In r l -> c r = None \/ d r = None.
Proof.
  intros (raw & H) N. destruct (String.eqb_spec metric "test_time") as [->|NT].
  { destruct H as (s & _ & _ & C). exfalso. cbn in C. clear - C N. induction C as [|a b l l' E C IH]; [destruct N|]. destruct N as [->|N]; [destruct a; discriminate|auto]. }
  destruct (quantities metric) as [[c d]|] eqn:Q.
  - right. exists c, d. split; [reflexivity|]. destruct (String.eqb metric "dQdV").
    + destruct H as (_ & C). exfalso. cbn in C. clear - C N. induction C as [|a b l l' E C IH]; [destruct N|]. destruct N as [->|N]; [destruct a; discriminate|auto].
    + destruct H as (t & T & F & C). cbn in C. assert (NO : forall q, ~ In (Some q) raw) by (intros q I; exact (filled_complete _ _ _ C I N)).
      intros r R. destruct (c r) as [a|] eqn:A; [|auto]. destruct (d r) as [b|] eqn:B; [|auto]. exfalso.
      destruct t as [t|]; cbn in T; [|apply (T a); rewrite <- A; apply in_map; exact R].
      clear - F NO R A B. induction F as [|r0 x l raw X F IH]; [destruct R|]. destruct R as [->|R]; [|apply IH; auto; intros q I; apply (NO q); right; exact I].
      rewrite A, B in X. destruct X as (q & -> & _). apply (NO q). left. reflexivity.
  - left. destruct H as (f & E & _). rewrite E. discriminate.
Qed.
(** Known values are not changed by filling in. *)
Theorem C98_known_kept l l' k x : filled l l' -> nth_error l k = Some (Some x) -> nth_error l' k = Some (Some x).
Proof.
  intros [L F] K. assert (N : nth_error l' k <> None) by (apply nth_error_Some; rewrite L; apply nth_error_Some; congruence).
  destruct (nth_error l' k) as [y|] eqn:E; [|congruence]. destruct (F k y E) as [(j & v & J & V & M & ->)|[(A & _)|(A & _)]].
  - destruct (Nat.eq_dec j k) as [->|D]; [unfold num in *; congruence|]. rewrite M in K; [discriminate|lia].
  - rewrite A in K; [discriminate|lia].
  - destruct (A x). apply nth_error_In in K. exact K.
Qed.

(** ** C99 *)
(** Accepted exactly if the lowest capacity is below the highest threshold times the highest capacity. *)
Theorem C99_accepted tmax summary lo hi : is_least (map snd summary) lo -> is_greatest (map snd summary) hi -> 0 < hi ->
  trajectory_valid tmax summary = true <-> lo < tmax * hi.
Proof.
  intros [L1 L2] [G1 G2] P. unfold trajectory_valid. pose proof (col_min_spec (map snd summary)) as A. pose proof (col_max_spec (map snd summary)) as B.
  destruct (col_min _) as [lo'|]; [|destruct (A _ L1)]. destruct (col_max _) as [hi'|]; [|destruct (B _ G1)].
  assert (lo' == lo) by (apply Qle_antisym; [apply A|apply L2, A]; assumption). assert (hi' == hi) by (apply Qle_antisym; [apply G2, B|apply B; assumption]).
  rewrite ratio_lt_iff by lra. rewrite H, H0. reflexivity.
Qed.
(** A run without a known capacity is not accepted. *)
Theorem C99_unknown_not_accepted tmax summary : (forall q, ~ In (Some q) (map snd summary)) -> trajectory_valid tmax summary = false.
Proof.
  intro N. unfold trajectory_valid. pose proof (col_min_spec (map snd summary)) as A. destruct (col_min _) as [lo|]; [|reflexivity]. destruct (N lo). apply A.
Qed.
Section C99.
  Variable show : Q -> string.
  (** One column for every threshold from the highest down to, not including, the lowest; named after the
      threshold to the nearest hundredth; its value is the first cycle below that fraction of the
      reference capacity or, if the cell ends above it, one more than the number of cycles. *)
  Theorem C99_columns tmax tmin interval summary m fs : 0 < interval -> 0 < m -> reference summary m ->
    trajectory show tmax tmin interval summary = Ok fs ->
    exists n, (forall i, (i < n)%nat <-> tmin < tmax - inject_Z (Z.of_nat i) * interval) /\
    Forall2 (fun i f => exists t, nearest_hundredth (tmax - inject_Z (Z.of_nat i) * interval) t /\ fst f = ("capacity_" ++ show t)%string /\
               ((first_below summary (t * m) (snd f) /\ exists lab q, last_error summary = Some (lab, Some q) /\ q <= t * m) \/
                (snd f = (Z.of_nat (length summary) + 1)%Z /\ forall lab q, last_error summary = Some (lab, Some q) -> t * m < q))) (seq 0 n) fs.
  Proof.
    intros P Hm R E. unfold trajectory in E. destruct (capacities_to_cycles _ _ _ _) as [cycles|] eqn:C; [|discriminate]. injection E as <-.
    unfold capacities_to_cycles in C. apply Proofs_Structure.mapM_ok in C. destruct (thresholds_are tmax tmin interval P) as (n & N & T). exists n. split; [exact N|].
    clear N P. generalize dependent cycles. induction T as [|i t is ts X T IH]; intros cycles C; inversion C as [|? c ? cs Y F]; subst; cbn [map combine]; constructor; [|apply IH; exact F].
    exists t. split; [exact X|]. split; [reflexivity|]. cbn [snd]. exact (life_inv _ _ _ Hm R _ Y).
  Qed.
End C99.

(** ** Cases and findings *)
Definition point (type : string) (c s : Z) (t qc qd dqc dqd : num) : drec :=
  {| q_base := {| h_cycle := c; h_type := type; h_step := s; h_counter := s; h_current := Some 1; h_time := t; |};
     q_voltage := Some 3; q_qc := qc; q_qd := qd; q_ec := qc; q_ed := qd; q_dqc := dqc; q_dqd := dqd |}.
(** a diagnostic with a charge and a discharge; the first voltage of the charge has no capacity *)
Definition a_charge (type : string) (c s : Z) (t : Q) : list drec :=
  [point type c s (Some t) None None None None; point type c s None (Some 1) (Some 0) (Some 5) (Some 0); point type c s (Some (t + 9)) (Some 4) (Some 0) (Some 6) (Some 0)].
Definition a_discharge (type : string) (c s : Z) (t : Q) : list drec :=
  [point type c s (Some t) (Some 4) (Some 0) (Some 0) (Some (-5)); point type c s (Some (t + 5)) (Some 4) (Some 3) (Some 0) (Some (-4))].
Definition two_diagnostics : list drec :=
  a_charge "rpt_1C" 37 2 100 ++ a_discharge "rpt_1C" 37 3 200 ++ a_charge "rpt_1C" 142 12 1000 ++ a_discharge "rpt_1C" 142 13 1100.
Example C98_case : exists cs, images ["capacity"; "test_time"; "dQdV"]%string ["rpt_1C"%string] [0; -1]%Z true two_diagnostics = Ok cs /\ length cs = 12%nat /\
  nth_error cs 0 = Some ("diag_cycle_0_rpt_1C_capacity_step_0"%string, [Some 1; Some 1; Some 4]) /\
  nth_error cs 3 = Some ("diag_cycle_-1_rpt_1C_capacity_step_1"%string, [Some 4; Some 1]).
Proof. eexists. split; [vm_compute; reflexivity|]. repeat split. Qed.
Example C98_made_case : (forall t, In t ["rpt_1C"%string] -> typed t two_diagnostics <> []) /\
  (forall m, In m ["capacity"; "voltage"]%string -> usable m) /\
  (forall t p i, In t ["rpt_1C"%string] -> two_steps two_diagnostics t = true -> In p [0; 1]%Z -> (i < 2)%nat -> exists l, step_at two_diagnostics t p i l) /\
  channels ["capacity"; "voltage"]%string (filter (two_steps two_diagnostics) ["rpt_1C"%string]) [0; 1]%Z <> [].
Proof.
  split; [intros t [<-|[]]; discriminate|]. split; [intros m [<-|[<-|[]]]; unfold usable; [right; left|right; right]; discriminate|]. split; [|discriminate].
  intros t p i [<-|[]] _ [<-|[<-|[]]] L; (destruct i as [|[|i]]; [| |lia]); do 3 eexists; repeat split; vm_compute; reflexivity.
Qed.
Example C98_charge_case : exists l v, is_image false "capacity" l v /\ v = [Some 4; Some 1] /\
  forall r, In r l -> (exists q, q_qc r = Some q /\ q == 4) /\ exists z, q_qd r = Some z /\ 0 <= z.
Proof.
  exists (a_discharge "rpt_1C" 37 3 200), [Some 4; Some 1]. split; [apply image_is; vm_compute; reflexivity|]. split; [reflexivity|].
  intros r [<-|[<-|[]]]; (split; eexists; (split; [reflexivity|]); cbn; lra).
Qed.
(** A run is accepted exactly when it has the diagnostic data and its diagnostic summary has a row. *)
Theorem C98_accepted : forall has_both summary,
  image_valid has_both summary = true <-> has_both = true /\ exists n, summary = Some n /\ (0 < n)%nat.
Proof.
  intros b s. unfold image_valid, check_diagnostic_validation.
  destruct b, s as [[|n]|]; cbn; split; intros H; try discriminate;
    try (destruct H as (? & n' & E & L); try discriminate; injection E as <-; inversion L);
    try (split; [reflexivity|exists (S n); split; [reflexivity|apply Nat.lt_0_succ]]); reflexivity.
Qed.
(** Finding: a run without one of the types is accepted but cannot be shown. *)
Theorem C98_accepted_refuted : exists data, image_valid true (Some 3%nat) = true /\ data <> [] /\
  images ["capacity"]%string ["rpt_1C"; "rpt_2C"]%string [0; 1]%Z true data = Err IndexError.
Proof. exists two_diagnostics. split; [reflexivity|]. split; [discriminate|vm_compute; reflexivity]. Qed.
(** Finding: a type with another number of steps is left out silently, and if there is no other, there is
    an error. *)
Theorem C98_left_out_refuted : exists data cs,
  images ["capacity"]%string ["rpt_1C"; "hppc"]%string [0]%Z true data = Ok cs /\ typed "hppc" data <> [] /\
  map fst cs = ["diag_cycle_0_rpt_1C_capacity_step_0"; "diag_cycle_0_rpt_1C_capacity_step_1"]%string /\
  images ["capacity"]%string ["hppc"%string] [0]%Z true data = Err ValueError.
Proof.
  exists (two_diagnostics ++ a_charge "hppc" 38 5 300). eexists. split; [vm_compute; reflexivity|]. split; [discriminate|]. split; vm_compute; reflexivity.
Qed.
(** Finding: only the first diagnostic is looked at; if a later one has one step, there is an error. *)
Theorem C98_later_diagnostic_refuted : exists data, two_steps data "rpt_1C" = true /\ occurrence data "rpt_1C" 1 142 /\
  images ["capacity"]%string ["rpt_1C"%string] [0; 1]%Z true data = Err IndexError.
Proof.
  exists (a_charge "rpt_1C" 37 2 100 ++ a_discharge "rpt_1C" 37 3 200 ++ a_charge "rpt_1C" 142 12 1000). repeat split; vm_compute; reflexivity.
Qed.
(** Finding: a missing time is filled in with the start of the step, so the times shown go back. *)
Theorem C98_time_refuted : exists l a b c d, map q_time l = [Some 100; Some 101; None; Some 103] /\
  image true "test_time" l = Ok [Some a; Some b; Some c; Some d] /\ c < b /\ b < d.
Proof.
  exists (map (fun t => point "rpt_1C" 37 2 t None None None None) [Some 100; Some 101; None; Some 103]). do 4 eexists.
  split; [reflexivity|]. split; [vm_compute; reflexivity|]. split; vm_compute; reflexivity.
Qed.

Definition falling : list (Z * num) := [(1%Z, Some 1); (2%Z, Some (95 # 100)); (3%Z, Some (8 # 10))].
Definition shown (q : Q) : string := if Qeq_bool q (98 # 100) then "0.98" else if Qeq_bool q (88 # 100) then "0.88" else "0.78".
Example C99_case : exists fs, trajectory shown (98 # 100) (75 # 100) (1 # 10) falling = Ok fs /\ fs = [("capacity_0.98", 1%Z); ("capacity_0.88", 2%Z); ("capacity_0.78", 3%Z)]%string /\
  reference falling (11 # 10) /\ trajectory_valid (98 # 100) falling = true.
Proof. eexists. split; [vm_compute; reflexivity|]. split; [reflexivity|]. split; [left; split; [cbn; lia|reflexivity]|reflexivity]. Qed.
(** Finding: the documentation says percentages of the initial capacity.  For at most 40 cycles they are of
    1.1: a cell that falls to half of its capacity is taken never to reach 98 %. *)
Theorem C99_initial_capacity_refuted : exists summary c0 c1, summary = [(1%Z, Some c0); (2%Z, Some c1)] /\ c1 == c0 / 2 /\
  trajectory_valid (98 # 100) summary = true /\ trajectory shown (98 # 100) (95 # 100) (1 # 10) summary = Ok [("capacity_0.98"%string, 3%Z)].
Proof. exists [(1%Z, Some (484 # 100)); (2%Z, Some (242 # 100))]. do 2 eexists. split; [reflexivity|]. repeat split; vm_compute; reflexivity. Qed.
(** Finding: a run that is accepted can raise, if it ends exactly at a threshold. *)
Theorem C99_accepted_refuted : exists summary, trajectory_valid (98 # 100) summary = true /\
  trajectory shown (98 # 100) (75 # 100) (1 # 10) summary = Err IndexError.
Proof. exists [(1%Z, Some 2); (2%Z, Some ((98 # 100) * (11 # 10)))]. split; vm_compute; reflexivity. Qed.
(** Finding: thresholds closer than a hundredth give columns of the same name. *)
Theorem C99_names_refuted : exists summary fs, trajectory shown (98 # 100) (97 # 100) (4 # 1000) summary = Ok fs /\ ~ NoDup (map fst fs).
Proof.
  exists falling. eexists. split; [vm_compute; reflexivity|]. cbn [map fst]. intro N. inversion N as [|x l A B]. apply A. left. reflexivity.
Qed.

Print Assumptions C98_channels.
Print Assumptions C98_made.
Print Assumptions C98_one_value_per_record.
Print Assumptions C98_charge_and_discharge.
Print Assumptions C98_nothing_missing.
Print Assumptions C98_known_kept.
Print Assumptions C98_accepted.
Print Assumptions C98_accepted_refuted.
Print Assumptions C98_left_out_refuted.
Print Assumptions C98_later_diagnostic_refuted.
Print Assumptions C98_time_refuted.
Print Assumptions C99_accepted.
Print Assumptions C99_unknown_not_accepted.
Print Assumptions C99_columns.
Print Assumptions C99_initial_capacity_refuted.
Print Assumptions C99_accepted_refuted.
Print Assumptions C99_names_refuted.
