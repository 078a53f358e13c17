(** Vocabulary for C137-C139. *)
From Verif Require Import Py Num Model_Components.
From Coq Require Import Sorting.Sorted Sorting.Permutation.

(** a frame has the value [y] at [x] in the discharge of cycle [c] *)
Definition reads (frame : list prow) (c : Z) (x : Q) (y : num) : Prop :=
  exists r, In r frame /\ p_type r = "discharge"%string /\ p_cycle r = c /\ p_x r == x /\ p_y r = y.
(** the discharge of cycle [c] was recorded *)
Definition has_cycle (frame : list prow) (c : Z) : Prop := exists r, In r frame /\ p_type r = "discharge"%string /\ p_cycle r = c.
(** two rows for the same cell *)
Definition ambiguous (cycles : list Z) (frame : list prow) : Prop :=
  exists i j a b, i <> j /\ nth_error frame i = Some a /\ nth_error frame j = Some b /\ p_type a = "discharge"%string /\ p_type b = "discharge"%string /\
    p_cycle a = p_cycle b /\ In (p_cycle a) cycles /\ p_x a == p_x b.
(** the cycles of a frame that make rows, from the first to the last *)
Definition rows_of_frame (cycles : list Z) (frame : list prow) (cs : list Z) : Prop :=
  StronglySorted Z.lt cs /\ forall c, In c cs <-> In c cycles /\ has_cycle frame c.
(** a row of the table holds what the frame has for the cycle *)
Definition holds (cols : list Q) (frame : list prow) (c : Z) (row : list num) : Prop :=
  length row = length cols /\ forall j x v, nth_error cols j = Some x -> nth_error row j = Some v ->
    (forall y, reads frame c x y -> v = y) /\ ((forall y, ~ reads frame c x y) -> v = None).

(** the variance explained by the first [k] components *)
Definition explained (k : nat) (l : list Q) : Q := qsum (firstn k l).
(** the values of a column that are greater / smaller than [v] *)
Definition greater (v : Q) (l : list Q) : nat := length (filter (Qlt_bool v) l).
Definition smaller (v : Q) (l : list Q) : nat := length (filter (fun x => Qlt_bool x v) l).
(** what is taken from np.std: zero for columns without spread only *)
Definition measures_spread (std : list Q -> Q) : Prop := forall l, 0 <= std l.
(** what is taken from PCA: as many components as asked for; the shares of variance are not negative and make up at most the whole *)
Definition components (project : nat -> list (list Q) -> list Q -> list Q) : Prop := forall n data row, length (project n data row) = n.
Definition shares (ratios : nat -> list (list Q) -> list Q) : Prop :=
  forall n data, length (ratios n data) = n /\ Forall (fun x => 0 <= x) (ratios n data) /\ qsum (ratios n data) <= 1.
(** a table of numbers *)
Definition numbers (rows : list (list Q)) : list (list num) := map (map Some) rows.
(** a table without gaps, at least one row and column, all rows equally long *)
Definition rectangular (w : nat) (data : list (list num)) (rows : list (list Q)) : Prop :=
  data = numbers rows /\ rows <> [] /\ (0 < w)%nat /\ Forall (fun r => length r = w) rows.
(** [v] is the [p]-th percentile of [l]: between two neighbours in the order of size, as far as the rank goes *)
Definition is_percentile (p : Q) (l : list Q) (v : Q) : Prop :=
  exists s k w, Permutation s l /\ StronglySorted Qle s /\ (k < length s)%nat /\ 0 <= w /\ w < 1 /\
    inject_Z (Z.of_nat k) + w == p / 100 * (inject_Z (Z.of_nat (length l)) - 1) /\ v == (1 - w) * nth k s 0 + w * nth (S k) s 0.
(** [m] is the largest of [l] *)
Definition is_max (m : Q) (l : list Q) : Prop := In m l /\ forall x, In x l -> x <= m.
