(** Declarative meaning of a validation schema, independent of the order in
    which the validator evaluates its rules. *)
From Verif Require Import Py Num Model_Validate.

(** [col] is the one column of [f] whose lower-cased name is [c]. *)
Definition column_named (f : frame) (c : string) (col : column) : Prop :=
  exists n before after,
    f = before ++ (n, col) :: after /\ lower n = c /\
    (forall n' x, In (n', x) before \/ In (n', x) after -> lower n' <> c).

Definition numeric_cells (col : column) : Prop :=
  forall x, In x (c_cells col) -> exists v, x = CNum v.

(** Meaning of the single rules for a column. *)
Definition type_holds (t : string) (col : column) : Prop :=
  (t = "integer"%string /\ (c_dtype col = DObject -> c_cells col = []) /\
     forall x, In x (c_cells col) -> exists z : Z, exists q, x = CNum (Some q) /\ q == inject_Z z)
  \/ (t = "float"%string /\ c_dtype col = DFloat)
  \/ (t = "numeric"%string /\ (c_dtype col = DFloat \/ c_dtype col = DInt))
  \/ (t = "string"%string /\ c_dtype col = DObject).

Definition max_holds (m : Q) (col : column) : Prop :=
  numeric_cells col /\ forall q, In (CNum (Some q)) (c_cells col) -> q <= m.
Definition min_holds (m : Q) (col : column) : Prop :=
  numeric_cells col /\ forall q, In (CNum (Some q)) (c_cells col) -> m <= q.
(** Some value reaches [m] – unless the column has no value at all. *)
Definition max_at_least_holds (m : Q) (col : column) : Prop :=
  numeric_cells col /\
  ((forall q, ~ In (CNum (Some q)) (c_cells col)) \/
   exists q, In (CNum (Some q)) (c_cells col) /\ m <= q).
Definition min_is_below_holds (m : Q) (col : column) : Prop :=
  numeric_cells col /\
  ((forall q, ~ In (CNum (Some q)) (c_cells col)) \/
   exists q, In (CNum (Some q)) (c_cells col) /\ q <= m).
(** No two consecutive values decrease. *)
Definition increasing_holds (col : column) : Prop :=
  (length (c_cells col) >= 2 -> numeric_cells col)%nat /\
  forall i a b, nth_error (c_cells col) i = Some (CNum (Some a)) ->
                nth_error (c_cells col) (S i) = Some (CNum (Some b)) -> a <= b.

Inductive rule :=
| KType (t : string) | KMax (m : Q) | KMin (m : Q) | KMaxAtLeast (m : Q)
| KMinBelow (m : Q) | KIncreasing.

Definition rule_holds (k : rule) (col : column) : Prop :=
  match k with
  | KType t => type_holds t col
  | KMax m => max_holds m col
  | KMin m => min_holds m col
  | KMaxAtLeast m => max_at_least_holds m col
  | KMinBelow m => min_is_below_holds m col
  | KIncreasing => increasing_holds col
  end.

Definition opt {A B} (f : A -> B) (o : option A) : list B :=
  match o with Some a => [f a] | None => [] end.

(** The rules a schema entry contains, in the order in which they are reported. *)
Definition rules_of (r : rules) : list rule :=
  opt KType (r_type r) ++ opt KMax (r_max r) ++ opt KMin (r_min r) ++
  opt KMaxAtLeast (r_max_at_least r) ++ opt KMinBelow (r_min_is_below r) ++
  match r_monotonic r with
  | Some m => if String.eqb m "increasing" then [KIncreasing] else []
  | None => []
  end.

(** All (column, rule) pairs of a schema, in order. *)
Definition obligations (s : schema) : list (string * rule) :=
  flat_map (fun cr => map (fun k => (fst cr, k)) (rules_of (snd cr))) s.

Definition met (f : frame) (o : string * rule) : Prop :=
  exists col, column_named f (fst o) col /\ rule_holds (snd o) col.

Definition conforms (f : frame) (s : schema) : Prop :=
  forall o, In o (obligations s) -> met f o.

(** The (column, rule) pair a rejection message is about. *)
Definition about (r : reason) (o : string * rule) : Prop :=
  match r, o with
  | RType c _, (c', KType _) => c = c'
  | RMax c m _ _, (c', KMax m') => c = c' /\ m = m'
  | RMin c m _ _, (c', KMin m') => c = c' /\ m = m'
  | RMaxAtLeast c m _, (c', KMaxAtLeast m') => c = c' /\ m = m'
  | RMinBelow c _ _, (c', KMinBelow _) => c = c'
  | RMonotonic c, (c', KIncreasing) => c = c'
  | _, _ => False
  end.

(** The row and value a message cites are a row that breaks the bound, and the
    first such row. *)
Definition cites_offender (f : frame) (r : reason) : Prop :=
  match r with
  | RMax c m i v =>
      exists col q, column_named f c col /\ v = Some q /\ m < q /\
        nth_error (c_cells col) i = Some (CNum v) /\
        forall j q', (j < i)%nat -> nth_error (c_cells col) j = Some (CNum (Some q')) -> q' <= m
  | RMin c m i v =>
      exists col q, column_named f c col /\ v = Some q /\ q < m /\
        nth_error (c_cells col) i = Some (CNum v) /\
        forall j q', (j < i)%nat -> nth_error (c_cells col) j = Some (CNum (Some q')) -> m <= q'
  | RType c (NotInteger i v) =>
      exists col, column_named f c col /\ nth_error (c_cells col) i = Some (CNum v) /\
        (forall q z, v = Some q -> ~ q == inject_Z z) /\
        forall j x, (j < i)%nat -> nth_error (c_cells col) j = Some x ->
          exists q z, x = CNum (Some q) /\ q == inject_Z z
  | _ => True
  end.
