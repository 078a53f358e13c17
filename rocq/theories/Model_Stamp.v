(** Model of the time stamps of raw files: MaccorDatapath.correct_timestamp
    (beep/structure/maccor.py:275-305) and the "date_time_iso" column of ArbinDatapath.from_file
    (beep/structure/arbin.py:48-51 and 72-75, with the data types of
    beep/conversion_schemas/arbin_conversion.yaml:39-54).  Simplifications: texts are ASCII; the
    OverflowErrors at the two ends of the calendar (years 1 and 9999) are not modelled; the time
    zone library is represented by the hours at which daylight saving time is in force; numbers of
    type float32 are modelled for normal numbers only. *)
From Verif Require Import Py Num Model_Text Model_Arbin.

(** the fields of a datetime (for [strptime], beep/structure/maccor.py:290-304) *)
Record stamp := { yr : Z; mo : Z; dy : Z; hh : Z; mi : Z; ss : Z }.

(** datetime's calendar (for [strptime], beep/structure/maccor.py:290-304) *)
Definition is_leap (y : Z) : bool := (y mod 4 =? 0)%Z && (negb (y mod 100 =? 0)%Z || (y mod 400 =? 0)%Z).
(** for [strptime], beep/structure/maccor.py:290-304 *)
Definition days_in_month (y m : Z) : Z :=
  if (m =? 2)%Z then if is_leap y then 29%Z else 28%Z
  else if ((m =? 4) || (m =? 6) || (m =? 9) || (m =? 11))%Z then 30%Z else 31%Z.
(** days of the year before the month (for [ordinal], beep/structure/maccor.py:290-304) *)
Definition days_before_month (y m : Z) : Z :=
  (nth (Z.to_nat m) [0; 0; 31; 59; 90; 120; 151; 181; 212; 243; 273; 304; 334] 0
   + if (2 <? m) && is_leap y then 1 else 0)%Z.
(** datetime.toordinal (for [seconds], beep/structure/maccor.py:290-304) *)
Definition ordinal (y m d : Z) : Z :=
  ((y - 1) * 365 + (y - 1) / 4 - (y - 1) / 100 + (y - 1) / 400 + days_before_month y m + d)%Z.
(** for [localize], beep/structure/maccor.py:290-304 *)
Definition seconds (st : stamp) : Z :=
  (ordinal (yr st) (mo st) (dy st) * 86400 + hh st * 3600 + mi st * 60 + ss st)%Z.

(** a directive of one or two digits (for [strptime], beep/structure/maccor.py:290-304) *)
Definition field (lo hi : Z) (s : string) : option Z :=
  match span_digits s with
  | (ds, EmptyString) =>
      if ((length ds =? 1) || (length ds =? 2))%nat && (lo <=? digits_val ds)%Z && (digits_val ds <=? hi)%Z
      then Some (digits_val ds) else None
  | _ => None
  end.
(** %d also takes a blank and a digit (for [strptime], beep/structure/maccor.py:290-304) *)
Definition day_field (s : string) : option Z :=
  match s with
  | String " " (String c EmptyString) => field 1 9 (String c EmptyString)
  | _ => field 1 31 s
  end.
(** %Y and the blank after it (for [strptime], beep/structure/maccor.py:290-304) *)
Definition year_field (s : string) : option (Z * string) :=
  match span_digits s with
  | (ds, String c r) => if (length ds =? 4)%nat && is_space c then Some (digits_val ds, lstrip r) else None
  | _ => None
  end.
(** datetime.strptime(x, "%m/%d/%Y %H:%M:%S"), [None] for ValueError (beep/structure/maccor.py:290-304).
    %S takes seconds up to 61, which datetime refuses. *)
Definition strptime (x : string) : option stamp :=
  match str_split "/" x with
  | [m; d; r] =>
      match field 1 12 m, day_field d, year_field r with
      | Some m, Some d, Some (y, t) =>
          match str_split ":" t with
          | [h; n; s] =>
              match field 0 23 h, field 0 59 n, field 0 61 s with
              | Some h, Some n, Some s =>
                  if (1 <=? y)%Z && (d <=? days_in_month y m)%Z && (s <=? 59)%Z
                  then Some {| yr := y; mo := m; dy := d; hh := h; mi := n; ss := s |} else None
              | _, _, _ => None
              end
          | _ => None
          end
      | _, _, _ => None
      end
  | _ => None
  end.

(** the day after (for [plus_hours], beep/structure/maccor.py:290-304) *)
Definition next_day (y m d : Z) : Z * Z * Z :=
  if (d <? days_in_month y m)%Z then (y, m, d + 1)%Z
  else if (m <? 12)%Z then (y, m + 1, 1)%Z else (y + 1, 1, 1)%Z.
(** less than a day later (for [to_utc], beep/structure/maccor.py:290-304) *)
Definition plus_hours (st : stamp) (h : Z) : stamp :=
  if (hh st + h <? 24)%Z
  then {| yr := yr st; mo := mo st; dy := dy st; hh := hh st + h; mi := mi st; ss := ss st |}
  else let '(y, m, d) := next_day (yr st) (mo st) (dy st) in
       {| yr := y; mo := m; dy := d; hh := hh st + h - 24; mi := mi st; ss := ss st |}.

(** for [isoformat], beep/structure/maccor.py:290-304 *)
Definition padded (w : nat) (n : Z) : string := zfill w (str_int n).
(** datetime.isoformat of a whole second of UTC (beep/structure/maccor.py:290-304) *)
Definition isoformat (st : stamp) : string :=
  (padded 4 (yr st) ++ "-" ++ padded 2 (mo st) ++ "-" ++ padded 2 (dy st) ++ "T"
   ++ padded 2 (hh st) ++ ":" ++ padded 2 (mi st) ++ ":" ++ padded 2 (ss st) ++ "+00:00")%string.

Section Pacific.
  (** whether US/Pacific has daylight saving time at an instant, in seconds of UTC
      (the zone file read by pytz, beep/structure/maccor.py:288) *)
  Variable dst : Z -> bool.
  (** pacific.localize(t, is_dst=True): how many hours UTC is ahead.  Of two instants at which the
      clock shows [t] the one with daylight saving time; without any, as if it were in force
      (beep/structure/maccor.py:292-293, 300-301). *)
  Definition ahead (t : Z) : Z :=
    if dst (t + 7 * 3600)%Z then 7%Z else if dst (t + 8 * 3600)%Z then 7%Z else 8%Z.
  (** beep/structure/maccor.py:290-295, 298-303 *)
  Definition to_utc (st : stamp) : string := isoformat (plus_hours st (ahead (seconds st))).
  (** beep/structure/maccor.py:275-305 correct_timestamp *)
  Definition correct_timestamp (x : string) : result string :=
    match strptime x with
    | Some st => Ok (to_utc st)
    | None => match strptime (x ++ " 00:00:00") with
              | Some st => Ok (to_utc st)
              | None => Err ValueError
              end
    end.
End Pacific.

(** ** Arbin *)

(** the exponent of the largest power of two not above [x] (for [float32], beep/structure/arbin.py:48-51) *)
Definition exponent (x : Q) : Z :=
  let k := (Z.log2 (Qnum x) - Z.log2 (Zpos (Qden x)))%Z in
  if Qle_bool (Qpower 2 k) x then k else (k - 1)%Z.
(** the nearest number with 24 binary digits, halves to the even one: astype("float32")
    (beep/structure/arbin.py:48-51) *)
Definition float32 (x : Q) : Q :=
  if Qle_bool x 0 then
    if Qle_bool 0 x then 0
    else let u := Qpower 2 (exponent (- x) - 23) in - (inject_Z (round_even (- x / u)) * u)
  else let u := Qpower 2 (exponent x - 23) in inject_Z (round_even (x / u)) * u.

(** The "datetime" column is cast when none of its values is missing
    (beep/structure/arbin.py:48-51, beep/conversion_schemas/arbin_conversion.yaml:42). *)
Definition cast_datetime (col : list num) : list num :=
  if existsb (fun v => match v with None => true | Some _ => false end) col then col
  else map (option_map float32) col.
(** datetime.utcfromtimestamp: the instant in whole microseconds since 1970; ValueError for NaN.
    The text of the instant is not modelled (beep/structure/arbin.py:72-75). *)
Definition utcfromtimestamp (v : num) : result Q :=
  match v with
  | None => Err ValueError
  | Some x => Ok (inject_Z (round_even (x * 1000000)) / 1000000)
  end.
(** beep/structure/arbin.py:48-51, 72-75: the instants of "date_time_iso" *)
Definition arbin_instants (col : list num) : result (list Q) := mapM utcfromtimestamp (cast_datetime col).
