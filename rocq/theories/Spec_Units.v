(** Physical quantities as Biologic writes them. *)
From Verif Require Import Py Model_Text.

(** The text denotes the number. *)
Definition denotes (t : string) (q : Q) : Prop := exists l, parse_lit t = Some l /\ lit_value l == q.
Definition mu : string := String (ascii_of_nat 181) "".
Definition volt_units : list (string * Q) := [("V", 1); ("mV", 1 # 1000)]%string.
Definition amp_units : list (string * Q) :=
  [("A", 1); ("mA", 1 # 1000); (mu ++ "A", 1 # 1000000); ("nA", 1 # 1000000000); ("pA", 1 # 1000000000000)]%string.
Definition watt_units : list (string * Q) := [("W", 1); ("mW", 1 # 1000); (mu ++ "W", 1 # 1000000)]%string.
Definition ohm_units : list (string * Q) :=
  [("Ohms", 1); ("mOhms", 1 # 1000); (mu ++ "Ohms", 1 # 1000000); ("kOhms", 1000); ("MOhms", 1000000)]%string.
Definition time_units : list (string * Q) := [("h", 3600); ("mn", 60); ("s", 1); ("ms", 1 # 1000)]%string.

(** [conv] never fails on a number and gives a value and unit within half a
    thousandth of the unit; exactly when the number has at most [n] decimals. *)
Definition keeps_value (units : list (string * Q)) (n : Z) (conv : string -> result (string * string)) : Prop :=
  forall s x, denotes s x ->
  exists t u q k, conv s = Ok (t, u) /\ denotes t q /\ In (u, k) units /\
    Qabs (q * k - x) <= k / 2000 /\
    ((exists z, x * (10 # 1) ^ n == inject_Z z) -> q * k == x).

(** An optional field of a time text. *)
Definition field_is (s : string) (q : Q) : Prop := (s = ""%string /\ q == 0) \/ (s <> ""%string /\ denotes s q).
Definition whole (q : Q) : Prop := exists z, q == inject_Z z.
