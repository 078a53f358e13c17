(** Model of auto_load (beep/structure/cli.py:40-75) with the file patterns of
    beep/conversion_schemas/*.yaml:1 and battery_archive.py:56. *)
From Verif Require Import Py.

(** Regular expressions as far as the patterns need them. (for [nullable], beep/structure/cli.py:61-75) *)
Inductive re :=
| RNone | REps | RChr (p : ascii -> bool) | RSeq (a b : re) | RAlt (a b : re) | RStar (a : re).
(** Matching by derivatives.  Simplification: this computes whether a match
    exists, which is all auto_load asks of re.match. (for [deriv], beep/structure/cli.py:61-75) *)
Fixpoint nullable (r : re) : bool :=
  match r with
  | RNone => false | REps => true | RChr _ => false
  | RSeq a b => nullable a && nullable b | RAlt a b => nullable a || nullable b | RStar _ => true
  end.
(** for [re_match], beep/structure/cli.py:61-75 *)
Fixpoint deriv (c : ascii) (r : re) : re :=
  match r with
  | RNone => RNone | REps => RNone
  | RChr p => if p c then REps else RNone
  | RSeq a b => if nullable a then RAlt (RSeq (deriv c a) b) (deriv c b) else RSeq (deriv c a) b
  | RAlt a b => RAlt (deriv c a) (deriv c b)
  | RStar a => RSeq (deriv c a) (RStar a)
  end.
(** re.match: some prefix of the text is matched. (for [auto_load], beep/structure/cli.py:61-75) *)
Fixpoint re_match (r : re) (s : string) : bool :=
  nullable r || match s with EmptyString => false | String c s' => re_match (deriv c r) s' end.

(** for [r_any], beep/conversion_schemas/arbin_conversion.yaml:1 *)
Definition r_dot : re := RChr (fun c => negb (Ascii.eqb c (ascii_of_nat 10))).
(** for [p_arbin], beep/conversion_schemas/arbin_conversion.yaml:1 *)
Definition r_any : re := RStar r_dot.                                      (* .* *)
(** for [p_maccor], beep/conversion_schemas/maccor_conversion.yaml:1 *)
Definition r_digit : re := RChr (fun c => let n := nat_of_ascii c in (48 <=? n)%nat && (n <=? 57)%nat).
(** for [r_str], beep/conversion_schemas/arbin_conversion.yaml:1 *)
Definition r_char (c : ascii) : re := RChr (Ascii.eqb c).
(** for [p_arbin], beep/conversion_schemas/arbin_conversion.yaml:1 *)
Fixpoint r_str (s : string) : re := match s with EmptyString => REps | String c s' => RSeq (r_char c) (r_str s') end.
(** for [p_maccor], beep/conversion_schemas/maccor_conversion.yaml:1 *)
Fixpoint r_times (n : nat) (r : re) : re := match n with O => REps | S k => RSeq r (r_times k r) end.
(** for [p_arbin], beep/conversion_schemas/arbin_conversion.yaml:1 *)
Fixpoint r_seq (l : list re) : re := match l with [] => REps | r :: l' => RSeq r (r_seq l') end.

(** beep/conversion_schemas/arbin_conversion.yaml:1 *)
Definition p_arbin : re := r_seq [r_any; r_str "CH"; r_any; r_str ".csv"].
(** beep/conversion_schemas/FastCharge_conversion.yaml:1 *)
Definition p_fastcharge : re := r_seq [r_any; r_str "FastCharge"; r_any; r_str ".csv"].
(** beep/conversion_schemas/maccor_conversion.yaml:1  .*\d{5,6}.*\d{3} *)
Definition p_maccor : re :=
  r_seq [r_any; RAlt (r_times 5 r_digit) (r_times 6 r_digit); r_any; r_times 3 r_digit].
(** beep/conversion_schemas/xTESLADIAG_conversion.yaml:1 *)
Definition p_xtesla : re := r_seq [r_any; r_str "xTESLADIAG"; r_any; r_str ".csv"].
(** beep/conversion_schemas/indigo_conversion.yaml:1 *)
Definition p_indigo : re := r_seq [r_any; r_str ".h5"].
(** beep/conversion_schemas/biologic_conversion.yaml:1  ^(?!.*(_CH)).*_C.*\.(txt|csv): the look-ahead and the rest *)
Definition p_biologic_not : re := r_seq [r_any; r_str "_CH"].
(** for [auto_load], beep/structure/cli.py:61-75 *)
Definition p_biologic : re := r_seq [r_any; r_str "_C"; r_any; r_str "."; RAlt (r_str "txt") (r_str "csv")].
(** beep/conversion_schemas/neware_conversion.yaml:1 *)
Definition p_neware : re := r_seq [r_any; r_str "neware"; r_any; r_str ".csv"].
(** beep/structure/battery_archive.py:56 *)
Definition p_archive : re := r_seq [r_any; r_str "timeseries.csv"].

(** for [auto_load], beep/structure/cli.py:61-75 *)
Inductive loader := Arbin | Maccor | Indigo | Biologic | Neware | BatteryArchive.
(** beep/structure/cli.py:61-75 *)
Definition auto_load (name : string) : result loader :=
  if re_match p_arbin name || re_match p_fastcharge name then Ok Arbin
  else if re_match p_maccor name || re_match p_xtesla name then Ok Maccor
  else if re_match p_indigo name then Ok Indigo
  else if negb (re_match p_biologic_not name) && re_match p_biologic name then Ok Biologic
  else if re_match p_neware name then Ok Neware
  else if re_match p_archive name then Ok BatteryArchive
  else Err ValueError.

(** beep/structure/cli.py:78-119 auto_load_processed: what loadfn returned decides; [structured]
    is the path recorded in the object. *)
Inductive loaded := LDatapath (cls : string) | LDict | LOther.
(** beep/structure/cli.py:77-119 auto_load_processed *)
Definition auto_load_processed (o : loaded) (path : string) : result (string * string) :=
  match o with
  | LDatapath cls => Ok (cls, path)
  | LDict => Ok ("ArbinDatapath"%string, path)
  | LOther => Err TypeError
  end.
