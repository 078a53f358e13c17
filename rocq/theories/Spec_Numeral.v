(** What decimal numerals mean, independently of the reader of Model_Text. *)
From Verif Require Import Py.

Definition digit_sign (d : nat) : ascii := nth d ["0"; "1"; "2"; "3"; "4"; "5"; "6"; "7"; "8"; "9"]%char "?"%char.
(** [ds] written out, most significant digit first *)
Definition written (ds : list nat) (s : string) : Prop :=
  Forall (fun d => (d < 10)%nat) ds /\ list_ascii_of_string s = map digit_sign ds.
Fixpoint place_value (ds : list nat) : Z :=
  match ds with [] => 0%Z | d :: r => (Z.of_nat d * 10 ^ Z.of_nat (length r) + place_value r)%Z end.
Definition signed (sgn : string) (neg : bool) : Prop := (sgn = ""%string \/ sgn = "+"%string) /\ neg = false \/ sgn = "-"%string /\ neg = true.
(** an integer: sign and at least one digit *)
Definition integer (s : string) (z : Z) : Prop :=
  exists sgn neg ds body, s = (sgn ++ body)%string /\ signed sgn neg /\ ds <> [] /\ written ds body /\
    z = (if neg then - place_value ds else place_value ds)%Z.
(** a decimal number: sign, digits, point and further digits, exponent; at least one digit *)
Definition decimal (s : string) (x : Q) : Prop :=
  exists sgn neg ip is fp fs ex es, s = (sgn ++ is ++ fs ++ es)%string /\ signed sgn neg /\ written ip is /\ ip ++ fp <> [] /\
    (fp = [] /\ fs = ""%string \/ exists t, written fp t /\ fs = ("." ++ t)%string) /\
    (ex = 0%Z /\ es = ""%string \/ exists t c, integer t ex /\ (c = "e"%string \/ c = "E"%string) /\ es = (c ++ t)%string) /\
    x == (if neg then -1 else 1) * inject_Z (place_value (ip ++ fp)) * (10 # 1) ^ (ex - Z.of_nat (length fp)).
