(** No code of /repo: what the modelled code calls of Python itself.  Numbers as text: Python's float(), int(), str() and "{:.3f}".format() on the
    decimal literals the protocol files contain.  Simplifications: no surrounding
    blanks, no underscores, no inf/nan; floats are exact rationals. *)
From Verif Require Import Py.

(** Python, for [span_digits] *)
Definition digit_of (c : ascii) : option nat :=
  let n := nat_of_ascii c in if (48 <=? n)%nat && (n <=? 57)%nat then Some (n - 48)%nat else None.
(** Python, for [digits_text] *)
Definition digit_char (d : nat) : ascii := ascii_of_nat (48 + d).
(** the digits at the start of a text, and the rest *)
Fixpoint span_digits (s : string) : list nat * string :=
  match s with
  | EmptyString => ([], ""%string)
  | String c s' => match digit_of c with
                   | Some d => let (ds, r) := span_digits s' in (d :: ds, r)
                   | None => ([], s)
                   end
  end.
(** Python, for [parse_int]: the number the digits stand for *)
Definition digits_val (ds : list nat) : Z := fold_left (fun a d => (10 * a + Z.of_nat d)%Z) ds 0%Z.
(** Python, for [str_int]: the digits as a text *)
Fixpoint digits_text (ds : list nat) : string :=
  match ds with [] => ""%string | d :: r => String (digit_char d) (digits_text r) end.

(** Python, for [parse_int] and [parse_lit] *)
Definition take_sign (s : string) : bool * string :=
  match s with
  | String c s' => if Ascii.eqb c "-" then (true, s') else if Ascii.eqb c "+" then (false, s') else (false, s)
  | EmptyString => (false, s)
  end.
(** int(s) *)
Definition parse_int (s : string) : option Z :=
  let (neg, r) := take_sign s in
  match span_digits r with
  | (d :: ds, EmptyString) => let v := digits_val (d :: ds) in Some (if neg then - v else v)%Z
  | _ => None
  end.
(** Python, int(s), or its ValueError *)
Definition py_int (s : string) : result Z := match parse_int s with Some z => Ok z | None => Err ValueError end.

(** A decimal literal: sign, digits before and after the point, exponent. *)
Record lit := { l_neg : bool; l_int : list nat; l_frac : list nat; l_exp : Z }.
(** Python, for [parse_lit]: the exponent *)
Definition parse_exp (s : string) : option Z :=
  match s with
  | EmptyString => Some 0%Z
  | String c s' => if Ascii.eqb c "e" || Ascii.eqb c "E" then parse_int s' else None
  end.
(** Python, float(s): the parts of the literal *)
Definition parse_lit (s : string) : option lit :=
  let (neg, r) := take_sign s in
  let (ip, r1) := span_digits r in
  let (fp, r2) := match r1 with
                  | String c r1' => if Ascii.eqb c "." then span_digits r1' else ([], r1)
                  | EmptyString => ([], r1)
                  end in
  match ip ++ fp, parse_exp r2 with
  | _ :: _, Some e => Some {| l_neg := neg; l_int := ip; l_frac := fp; l_exp := e |}
  | _, _ => None
  end.
(** Python, float(s): the value of the literal *)
Definition lit_value (l : lit) : Q :=
  let v := inject_Z (digits_val (l_int l ++ l_frac l)) * (10 # 1) ^ (l_exp l - Z.of_nat (length (l_frac l))) in
  if l_neg l then - v else v.
(** float(s) *)
Definition py_float (s : string) : result Q :=
  match parse_lit s with Some l => Ok (lit_value l) | None => Err ValueError end.

(** str(n) *)
Fixpoint digits_aux (fuel : nat) (n : Z) (acc : list nat) : list nat :=
  match fuel with
  | O => acc
  | S k => let acc' := Z.to_nat (n mod 10) :: acc in
           if (n / 10 =? 0)%Z then acc' else digits_aux k (n / 10) acc'
  end.
(** Python, str(n) for n >= 0: its digits *)
Definition digits_of (n : Z) : list nat := digits_aux (S (Z.to_nat (Z.log2 n))) n [].
(** Python, str(n) *)
Definition str_int (n : Z) : string :=
  if (n <? 0)%Z then String "-" (digits_text (digits_of (- n))) else digits_text (digits_of n).
(** s.zfill(w) for an unsigned text *)
Fixpoint zeros (n : nat) : list nat := match n with O => [] | S k => 0%nat :: zeros k end.
(** Python, s.zfill(w) *)
Definition zfill (w : nat) (s : string) : string := (digits_text (zeros (w - String.length s)) ++ s)%string.

(** "{:.3f}".format(x): the nearest multiple of 0.001, ties to even.
    Simplification: a negative number that rounds to zero is written without sign. *)
Definition round_even (q : Q) : Z :=
  let f := Qfloor q in
  let d := q - inject_Z f in
  if Qlt_bool d (1 # 2) then f
  else if Qlt_bool (1 # 2) d then (f + 1)%Z
  else if Z.even f then f else (f + 1)%Z.
(** Python, for [thousandths_text] *)
Definition pad3 (ds : list nat) : list nat := zeros (3 - length ds) ++ ds.
(** Python, "{:.3f}".format(z / 1000) *)
Definition thousandths_text (z : Z) : string :=
  let a := Z.abs z in
  ((if (z <? 0)%Z then "-" else "") ++ digits_text (digits_of (a / 1000)) ++ "." ++ digits_text (pad3 (digits_of (a mod 1000))))%string.
(** Python, "{:.3f}".format(x) *)
Definition fmt3 (x : Q) : string := thousandths_text (round_even (x * 1000)).
