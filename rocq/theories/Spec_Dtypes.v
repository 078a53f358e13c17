(** Vocabulary for C143. *)
From Verif Require Import Py Num Model_Dtypes.
Local Open Scope string_scope.

(** [name] has the type [ty] in the frame [key] *)
Definition typed (key name ty : string) : Prop := exists types, In (key, types) structure_dtypes /\ In (name, ty) types.
Definition is_frame (key : string) : Prop := In key ["cycles_interpolated"; "summary"; "diagnostic_summary"; "diagnostic_interpolated"].
(** the same value *)
Definition same_cell (a b : cell) : Prop :=
  match a, b with Num p, Num q => p == q | Missing, Missing => True | Words s, Words t => s = t | _, _ => False end.
(** a number with at most 24 binary digits *)
Definition single (q : Q) : Prop := exists m e : Z, (Z.abs m <= 2 ^ 24)%Z /\ q == inject_Z m * Qpower 2 e.
(** the integers of [bits] bits *)
Definition in_range (bits z : Z) : Prop := (- 2 ^ (bits - 1) <= z < 2 ^ (bits - 1))%Z.
(** [z] is [q] without its fraction *)
Definition cut (q : Q) (z : Z) : Prop := (0 <= q /\ inject_Z z <= q /\ q < inject_Z z + 1) \/ (q <= 0 /\ q <= inject_Z z /\ inject_Z z - 1 < q).
(** what becomes of a cell *)
Definition as_integer (bits : Z) (c d : cell) : Prop :=
  exists q z, c = Num q /\ d = Num (inject_Z z) /\ in_range bits z /\ forall y, cut q y -> in_range bits y -> z = y.
Definition as_single (c d : cell) : Prop :=
  (c = Missing /\ d = Missing) \/ exists p q, c = Num q /\ d = Num p /\ single p /\ Qabs (p - q) <= Qabs q * (1 # 16777216).
Definition as_double (c d : cell) : Prop := d = c /\ forall s, c <> Words s.
Definition becomes (ty : string) (c d : cell) : Prop :=
  (ty = "int32" /\ as_integer 32 c d) \/ (ty = "int16" /\ as_integer 16 c d) \/ (ty = "float32" /\ as_single c d) \/ (ty = "float64" /\ as_double c d) \/
  ((ty = "category" \/ ty = "object") /\ d = c).
(** a column with a type in the table becomes one of that type, all others stay *)
Definition column_becomes (key : string) (a b : string * list cell) : Prop :=
  fst b = fst a /\ (forall ty, typed key (fst a) ty -> Forall2 (becomes ty) (snd a) (snd b)) /\ ((forall ty, ~ typed key (fst a) ty) -> b = a).
(** a cell that cannot have the type *)
Definition misfit (ty : string) (c : cell) : Prop :=
  (In ty ["int32"; "int16"] /\ forall q, c <> Num q) \/ (In ty ["float32"; "float64"] /\ exists s, c = Words s).
Definition same_frame (f g : frame) : Prop := Forall2 (fun a b => fst a = fst b /\ Forall2 same_cell (snd a) (snd b)) f g.
(** a cell that has the type already *)
Definition fits (ty : string) (c : cell) : Prop :=
  (ty = "int32" -> exists q z, c = Num q /\ q == inject_Z z /\ in_range 32 z) /\ (ty = "int16" -> exists q z, c = Num q /\ q == inject_Z z /\ in_range 16 z) /\
  (ty = "float32" -> c = Missing \/ exists q, c = Num q /\ single q) /\ (ty = "float64" -> forall s, c <> Words s).
Definition all_fit (key : string) (f : frame) : Prop := forall name col ty c, In (name, col) f -> typed key name ty -> In c col -> fits ty c.
(** a cell of a stored file that is refused *)
Definition unfit (ty : string) (c : cell) : Prop := (In ty ["int32"; "int16"] /\ ~ fits ty c) \/ (In ty ["float32"; "float64"] /\ exists s, c = Words s).
