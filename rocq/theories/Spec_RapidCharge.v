(** Vocabulary for C135, C136. *)
From Verif Require Import Py Num Model_Waveform Model_RapidCharge Spec_Waveform.

Definition between (lo hi x : Q) : Prop := lo <= x <= hi.
(** what is taken from PchipInterpolator: where the nodes go up, it has a value from the first to the last node, which
    stays within the range of the values at the nodes *)
Definition shape_preserving (pchip : list Q -> list Q -> Q -> num) : Prop :=
  forall xs ys lo hi x, increasing xs -> (2 <= length xs)%nat -> length xs = length ys -> Forall (between lo hi) ys -> hd 0 xs <= x <= last xs 0 ->
  exists y, pchip xs ys x = Some y /\ between lo hi y.
(** and it goes through the nodes *)
Definition through_nodes (pchip : list Q -> list Q -> Q -> num) : Prop :=
  forall xs ys i a x y, increasing xs -> (2 <= length xs)%nat -> length xs = length ys -> nth_error xs i = Some a -> x == a -> nth_error ys i = Some y ->
  exists z, pchip xs ys x = Some z /\ z == y.
(** the mesh goes up from [a] to [b] *)
Definition spans (mesh : list Q) (a b : Q) : Prop := increasing mesh /\ (2 <= length mesh)%nat /\ hd 0 mesh = a /\ last mesh 0 = b /\ 0 < b.
(** one second after another *)
Definition clock (n : nat) : list Q := map (fun k => inject_Z (Z.of_nat k)) (seq 0 n).
(** a charging segment that carries [cap] times [c] to five decimals *)
Definition plays (cap c : Q) (s : segment) : Prop :=
  sg_state s = "C"%string /\ sg_control s = "I"%string /\ exists m, sg_value s = Some m /\ Qabs (m - cap * c) <= 5 # 1000000.
(** [m] is the largest of [l] *)
Definition is_largest (m : Q) (l : list Q) : Prop := In m l /\ forall x, In x l -> x <= m.
(** the windows go up, the rates are between [u] and [m], the capacity is positive *)
Definition proper (u m : Q) (p : charge_params) : Prop :=
  start_soc p < soc_1 p /\ soc_1 p < soc_2 p /\ soc_2 p < fast_soc_limit p /\ 0 < fast_soc_limit p /\ 0 < nominal_capacity p /\
  between u m (rate_1 p) /\ between u m (rate_2 p) /\ between u m (rate_3 p) /\ between u m (rate_4 p).
Definition rates_of (p : charge_params) : list Q := [rate_1 p; rate_2 p; rate_3 p; rate_4 p].
Definition mesh_of (p : charge_params) : list Q := [start_soc p; soc_1 p; soc_2 p; fast_soc_limit p].
