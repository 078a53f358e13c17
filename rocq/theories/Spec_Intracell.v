(** What the documentation of the half-cell fit promises, without reference to how it is computed. *)
From Verif Require Import Py Num Model_Text Model_Diagnostic Model_Degrade Model_Intracell.

(** ** Reading a curve given by points *)
(** the straight line through two points; missing if one of the values is *)
Definition straight (p q : Q * num) (x : Q) (v : num) : Prop :=
  match snd p, snd q with
  | Some a, Some b => exists y, v = Some y /\ y == a + (b - a) * ((x - fst p) / (fst q - fst p))
  | _, _ => v = None
  end.
Definition at_point (S : Q * num -> Prop) (x : Q) (v : num) : Prop := exists p, S p /\ fst p == x /\ v = snd p.
Definition between (S : Q * num -> Prop) (x : Q) (v : num) : Prop :=
  exists p q, S p /\ S q /\ fst p < x /\ x < fst q /\ (forall r, S r -> fst r <= fst p \/ fst q <= fst r) /\ straight p q x v.
Definition inside S x v : Prop := at_point S x v \/ between S x v.
Definition outside (S : Q * num -> Prop) (x : Q) : Prop := (forall p, S p -> fst p < x) \/ (forall p, S p -> x < fst p).
(** the value at [x] of the curve through the points: on a point its value, between two neighbouring points the
    straight line, beyond the points missing *)
Definition reads S x v : Prop := inside S x v \/ (outside S x /\ v = None).
(** no two points share an abscissa *)
Definition single_valued (S : Q * num -> Prop) : Prop := forall p q, S p -> S q -> fst p == fst q -> snd p = snd q.
Definition same (v w : num) : Prop := match v, w with Some a, Some b => a == b | None, None => True | _, _ => False end.

(** ** Even spacing *)
Definition evenly (a b : Q) (n : nat) (l : list Q) : Prop :=
  length l = n /\ forall i x, nth_error l i = Some x -> x == a + inject_Z (Z.of_nat i) * ((b - a) / inject_Z (Z.of_nat (n - 1))).
Definition least (P : Q -> Prop) (m : Q) : Prop := P m /\ forall x, P x -> m <= x.
Definition greatest (P : Q -> Prop) (m : Q) : Prop := P m /\ forall x, P x -> x <= m.

(** ** The measured charge: capacity and voltage of the records of the charge of a diagnostic below 4.2 V *)
Definition charged (data : list irec) (type : string) (cycle : Z) (p : Q * num) : Prop :=
  exists r v, In r data /\ i_type r = type /\ i_cycle r = cycle /\ i_step r = 0%Z /\
    i_qc r = Some (fst p) /\ 0 < fst p /\ i_voltage r = Some v /\ v < 42 # 10 /\ snd p = Some v.

(** ** The cell made of two electrodes sampled at the same capacities: at place [i] the capacity is [q], the
    electrodes are at [a] and [b] and the cell at their difference *)
Definition electrodes_at (pe ne : curve) (i : nat) (q a b : Q) : Prop :=
  nth_error pe i = Some (q, Some a) /\ exists q', nth_error ne i = Some (q', Some b).
Definition in_limits (v : Q) : Prop := 27 # 10 <= v /\ v <= 42 # 10.
(** the points of the cell within its voltage limits *)
Definition cell_point (pe ne : curve) (p : Q * num) : Prop :=
  exists i a b, electrodes_at pe ne i (fst p) a b /\ in_limits (a - b) /\ snd p = Some (a - b).
(** a curve moved to the left by [z] *)
Definition moved (z : Q) (l l' : curve) : Prop := Forall2 (fun p p' => fst p' == fst p - z /\ snd p' = snd p) l l'.
(** the capacities at which an electrode has a voltage *)
Definition has_voltage (l : curve) (q : Q) : Prop := exists v, In (q, Some v) l.

(** ** Features *)
Definition sampled_voltages : list (string * Q) :=
  [("4p2V", 42#10); ("4p1V", 41#10); ("4p0V", 40#10); ("3p9V", 39#10); ("3p8V", 38#10); ("3p7V", 37#10);
   ("3p6V", 36#10); ("3p5V", 35#10); ("3p4V", 34#10); ("3p3V", 33#10); ("3p2V", 32#10); ("3p1V", 31#10);
   ("3p0V", 30#10); ("2p9V", 29#10); ("2p8V", 28#10); ("2p7V", 27#10)]%string.
(** a diagnostic of the type that still discharges more than the threshold *)
Definition usable (type : string) (threshold : Q) (summary : list drow) (c : Z) : Prop :=
  exists d q, In d summary /\ d_type d = type /\ d_cycle d = c /\ d_dis d = Some q /\ threshold < q.

(** ** Errors: the mean over the first points of the distance to the closest of the second *)
Definition mean_nearest (distance : list (Q * Q) -> list (Q * Q) -> (Q * Q) -> (Q * Q) -> Q) (xa xb : list (Q * Q)) (m : Q) : Prop :=
  exists ds, Forall2 (fun p d => least (fun y => exists q, In q xb /\ y = distance xa xb p q) d) xa ds /\ m == qsum ds / inject_Z (Z.of_nat (length xa)).
(** the points of a curve that have a value *)
Definition valued (l : curve) (pts : list (Q * Q)) : Prop := map (fun p => (fst p, Some (snd p))) pts = filter (fun p => match snd p with Some _ => true | None => false end) l.

(** ** Blending: the curve through the points, prolonged by its first and its last segment *)
Definition follows (t : table) (v s : Q) : Prop :=
  exists p q : Q * Q, In p t /\ In q t /\ snd p < snd q /\
    (forall r, In r t -> snd r <= snd p \/ snd q <= snd r) /\
    (snd p <= v \/ forall r, In r t -> snd p <= snd r) /\ (v <= snd q \/ forall r, In r t -> snd r <= snd q) /\
    s == fst p + (fst q - fst p) * ((v - snd p) / (snd q - snd p)).
Definition distinct_voltages (t : table) : Prop := ForallOrdPairs (fun p q : Q * Q => ~ snd p == snd q) t.
(** the SOC of the blend at a voltage *)
Definition blended (t1 t2 : table) (x v s : Q) : Prop := exists s1 s2, follows t1 v s1 /\ follows t2 v s2 /\ s == (1 - x) * s1 + x * s2.
