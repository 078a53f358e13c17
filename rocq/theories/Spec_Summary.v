(** Vocabulary of the summary properties, independent of the model's helpers. *)
From Coq Require Import Sorted.
From Verif Require Import Py Num Model_Raw Spec_Structure.

(** [m] is the largest (smallest) value of a column, NaN ignored. *)
Definition is_max (l : list num) (m : Q) : Prop := In (Some m) l /\ forall q, In (Some q) l -> q <= m.
Definition is_min (l : list num) (m : Q) : Prop := In (Some m) l /\ forall q, In (Some q) l -> m <= q.
(** A reported extreme: the extreme, or NaN when the column has no value. *)
Definition reports_max (l : list num) (x : num) : Prop :=
  match x with Some m => is_max l m | None => forall q, ~ In (Some q) l end.
Definition reports_min (l : list num) (x : num) : Prop :=
  match x with Some m => is_min l m | None => forall q, ~ In (Some q) l end.

(** Sum of the known values. *)
Definition total (l : list num) : Q :=
  fold_right (fun x t => match x with Some v => v + t | None => t end) 0 l.

(** The records of one cycle, in file order. *)
Definition of_cycle (raw : list row) (c : Z) : list row := filter (fun r => Z.eqb (cycle_index r) c) raw.

(** [cs] lists the regular cycles of the raw data in increasing order. *)
Definition regular_cycles (raw : list row) (diag : option (list Z)) (cs : list Z) : Prop :=
  StronglySorted Z.lt cs /\
  forall c, In c cs <-> (exists r, In r raw /\ cycle_index r = c) /\ regular diag c.

(** Cycle [c] is the highest cycle of the raw data. *)
Definition highest_cycle (raw : list row) (c : Z) : Prop :=
  (exists r, In r raw /\ cycle_index r = c) /\ forall r, In r raw -> (cycle_index r <= c)%Z.
(** The voltage of cycle [c] goes below [vmin] and above [vmax]. *)
Definition spans (raw : list row) (c : Z) (vmin vmax : Q) : Prop :=
  (exists r v, In r raw /\ cycle_index r = c /\ voltage r = Some v /\ v < vmin) /\
  (exists r v, In r raw /\ cycle_index r = c /\ voltage r = Some v /\ vmax < v).
(** The discharge capacity reached in cycle [c] exceeds [ratio] times its charge capacity. *)
Definition discharged (raw : list row) (c : Z) (ratio : Q) : Prop :=
  exists d q, is_max (map discharge_capacity (of_cycle raw c)) d /\
              is_max (map charge_capacity (of_cycle raw c)) q /\ ratio * q < d.
(** The end of the run is complete as the code decides it. *)
Definition complete_end (raw : list row) (cs : list Z) (ratio vmin vmax : Q) : Prop :=
  (exists c, highest_cycle raw c /\ spans raw c vmin vmax) /\
  (exists c, last_error cs = Some c /\ discharged raw c ratio).

(** The first time stamp among some records. *)
Definition first_stamp (rows : list row) (t : Z) : Prop :=
  exists pre r post, rows = pre ++ r :: post /\ date_time r = Some t /\ Forall (fun x => date_time x = None) pre.
Definition reached (cap : Q) (r : row) : bool :=
  match charge_capacity r with Some q => Qle_bool cap q | None => false end.
(** Charge duration of a cycle from its own records. *)
Definition duration_of (rows : list row) (cap : Q) (d : Z) : Prop :=
  exists s f, first_stamp rows s /\ first_stamp (filter (reached cap) rows) f /\ d = (f - s)%Z.

(** [g] is the time between two consecutive records. *)
Definition gap (times : list (option Z)) (g : Z) : Prop :=
  exists i a b, nth_error times i = Some (Some a) /\ nth_error times (S i) = Some (Some b) /\ g = (b - a)%Z.
(** What the paused time of a list of time stamps must be. *)
Definition paused_spec (times : list (option Z)) (threshold p : Q) : Prop :=
  (exists g, gap times g /\ p == inject_Z g /\ threshold < inject_Z g /\ forall h, gap times h -> (h <= g)%Z) \/
  ((forall h, gap times h -> inject_Z h <= threshold) /\ p == 0).

(** The pair of records [i], [i+1] satisfies the constant-voltage criteria. *)
Definition cv_pair (charge : list row) (dt_tol dv_tol di_tol : Q) (i : nat) : Prop :=
  exists p r t0 t1 v0 v1 c0 c1,
    nth_error charge i = Some p /\ nth_error charge (S i) = Some r /\
    test_time p = Some t0 /\ test_time r = Some t1 /\
    voltage p = Some v0 /\ voltage r = Some v1 /\ current p = Some c0 /\ current r = Some c1 /\
    dt_tol <= t1 - t0 /\ Qabs (v1 - v0) <= dv_tol * (t1 - t0) /\ di_tol * (t1 - t0) <= Qabs (c1 - c0).
(** Records with complete measurements in strictly increasing time. *)
Definition complete_row (r : row) : Prop :=
  exists t v c, test_time r = Some t /\ voltage r = Some v /\ current r = Some c.
Definition in_time_order (charge : list row) : Prop :=
  StronglySorted (fun p r => forall t u, test_time p = Some t -> test_time r = Some u -> t < u) charge.

(** The last known value among some records. *)
Definition last_known (f : row -> num) (rows : list row) (q : Q) : Prop :=
  exists pre r post, rows = pre ++ r :: post /\ f r = Some q /\ Forall (fun x => f x = None) post.
(** [x] is the arithmetic mean of the known values, NaN when there is none. *)
Definition reports_mean (l : list num) (x : num) : Prop :=
  let n := length (filter (fun v => match v with Some _ => true | None => false end) l) in
  match x with Some m => (n > 0)%nat /\ m * inject_Z (Z.of_nat n) == total l | None => n = 0%nat end.
(** An energy above the error threshold is reported as NaN. *)
Definition reports_energy (l : list num) (e : Q) (x : num) : Prop :=
  match x with Some m => is_max l m /\ Qabs m <= e | None => forall m, is_max l m -> e < Qabs m end.
(** Twice the area under the temperature curve, in degrees times seconds. *)
Fixpoint area2 (pts : list (Z * Q)) : Q :=
  match pts with
  | (t0, y0) :: rest =>
      match rest with (t1, y1) :: _ => inject_Z (t1 - t0) * (y0 + y1) + area2 rest | [] => 0 end
  | [] => 0
  end.
