(** Model of the unit and time conversions of beep/protocol/maccor_to_biologic_mb.py:96-195. *)
From Verif Require Import Py Model_Text.

(** for [sig_figs], beep/protocol/maccor_to_biologic_mb.py:96-103 *)
Fixpoint drop_zeros (ds : list nat) : list nat :=
  match ds with O :: r => drop_zeros r | _ => ds end.
(** beep/protocol/maccor_to_biologic_mb.py:96-103 _get_decimal_sig_figs: digits after the point up to the last non-zero one,
    minus the exponent (the two regular expressions evaluated on the parts of the literal). *)
Definition sig_figs (l : lit) : Z := (Z.of_nat (length (drop_zeros (rev (l_frac l)))) - l_exp l)%Z.
(** for [convert_amps], beep/protocol/maccor_to_biologic_mb.py:113-126 *)
Definition micro : string := String (ascii_of_nat 181) "".     (* ISO-8859-1 *)

(** for [convert_volts], beep/protocol/maccor_to_biologic_mb.py:105-111 *)
Definition with_lit {A} (s : string) (f : lit -> A) : result A :=
  match parse_lit s with Some l => Ok (f l) | None => Err ValueError end.
(** beep/protocol/maccor_to_biologic_mb.py:105-111 *)
Definition convert_volts (s : string) : result (string * string) :=
  with_lit s (fun l =>
    let num := lit_value l in
    if Qlt_bool num 1 || (3 <? sig_figs l)%Z then (fmt3 (num * 1000), "mV"%string) else (fmt3 num, "V"%string)).
(** beep/protocol/maccor_to_biologic_mb.py:113-126 *)
Definition convert_amps (s : string) : result (string * string) :=
  with_lit s (fun l =>
    let num := lit_value l in let d := sig_figs l in
    if Qlt_bool num (1 # 1000000000) || (12 <? d)%Z then (fmt3 (num * 1000000000000), "pA"%string)
    else if Qlt_bool num (1 # 1000000) || (9 <? d)%Z then (fmt3 (num * 1000000000), "nA"%string)
    else if Qlt_bool num (1 # 1000) || (6 <? d)%Z then (fmt3 (num * 1000000), (micro ++ "A")%string)
    else if Qlt_bool num 1 || (3 <? d)%Z then (fmt3 (num * 1000), "mA"%string)
    else (fmt3 num, "A"%string)).
(** beep/protocol/maccor_to_biologic_mb.py:128-137 *)
Definition convert_watts (s : string) : result (string * string) :=
  with_lit s (fun l =>
    let num := lit_value l in let d := sig_figs l in
    if Qlt_bool num (1 # 1000) || (6 <? d)%Z then (fmt3 (num * 1000000), (micro ++ "W")%string)
    else if Qlt_bool num 1 || (3 <? d)%Z then (fmt3 (num * 1000), "mW"%string)
    else (fmt3 num, "W"%string)).
(** beep/protocol/maccor_to_biologic_mb.py:139-152 *)
Definition convert_ohms (s : string) : result (string * string) :=
  with_lit s (fun l =>
    let num := lit_value l in let d := sig_figs l in
    if Qlt_bool num (1 # 1000) || (6 <? d)%Z then (fmt3 (num * 1000000), (micro ++ "Ohms")%string)
    else if Qlt_bool num 1 || (3 <? d)%Z then (fmt3 (num * 1000), "mOhms"%string)
    else if Qlt_bool num 1000 || (0 <? d)%Z then (fmt3 num, "Ohms"%string)
    else if Qlt_bool num 1000000 || (-3 <? d)%Z then (fmt3 (num * (1 # 1000)), "kOhms"%string)
    else (fmt3 (num * (1 # 1000000)), "MOhms"%string)).

(** int(x): truncation towards zero (for [convert_time], beep/protocol/maccor_to_biologic_mb.py:154-195) *)
Definition trunc (q : Q) : Z := Z.quot (Qnum q) (Zpos (Qden q)).
(** for [convert_time], beep/protocol/maccor_to_biologic_mb.py:154-195 *)
Definition is_zero (q : Q) : bool := Qeq_bool q 0.
(** x % 1.0 == 0.0 (for [convert_time], beep/protocol/maccor_to_biologic_mb.py:154-195) *)
Definition is_whole (q : Q) : bool := Qeq_bool q (inject_Z (Qfloor q)).
(** for [convert_time], beep/protocol/maccor_to_biologic_mb.py:154-195 *)
Definition time_field (s : string) : result Q := if String.eqb s "" then Ok 0 else py_float s.
(** beep/protocol/maccor_to_biologic_mb.py:154-195 _convert_time *)
Definition convert_time (s : string) : result (string * string) :=
  match str_split ":" s with
  | [hs; ms; ss] =>
      let! h := time_field hs in
      let! m := time_field ms in
      let! sec := time_field ss in
      if is_zero m && is_zero sec then Ok (fmt3 (inject_Z (trunc h)), "h"%string)
      else if is_zero sec then Ok (fmt3 (inject_Z (trunc (h * 60 + m))), "mn"%string)
      else if is_whole sec then Ok (fmt3 (inject_Z (trunc (h * 60 * 60 + m * 60 + sec))), "s"%string)
      else
        let total_ms := trunc (h * 60 * 60 * 1000 + m * 60 * 1000 + sec * 1000) in
        if (total_ms <? 10000000000)%Z then Ok (fmt3 (inject_Z total_ms), "ms"%string)
        else Ok (fmt3 (inject_Z total_ms / 1000), "s"%string)
  | _ => Err ValueError
  end.
