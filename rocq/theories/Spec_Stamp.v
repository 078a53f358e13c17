(** What the time stamps of raw files mean. *)
From Verif Require Import Py Model_Stamp.

(** ** The calendar *)
Definition leap_b (y : Z) : bool := ((y mod 4 =? 0) && (negb (y mod 100 =? 0) || (y mod 400 =? 0)))%Z.
(** The lengths of the twelve months. *)
Definition months (y : Z) : list Z := [31; if leap_b y then 29 else 28; 31; 30; 31; 30; 31; 31; 30; 31; 30; 31]%Z.
Definition month_length (y m : Z) : Z := nth (Z.to_nat (m - 1)) (months y) 0%Z.
Definition year_length (y : Z) : Z := fold_right Z.add 0%Z (months y).
(** Days in the years 1 .. [n]. *)
Fixpoint years (n : nat) : Z := match n with O => 0%Z | S k => (years k + year_length (Z.of_nat n))%Z end.
(** The number of a day, the first of January of the year 1 being number 1. *)
Definition day_number (y m d : Z) : Z :=
  (years (Z.to_nat (y - 1)) + fold_right Z.add 0 (firstn (Z.to_nat (m - 1)) (months y)) + d)%Z.
Definition proper (st : stamp) : Prop :=
  (1 <= yr st <= 9999)%Z /\ (1 <= mo st <= 12)%Z /\ (1 <= dy st <= month_length (yr st) (mo st))%Z
  /\ (0 <= hh st < 24)%Z /\ (0 <= mi st < 60)%Z /\ (0 <= ss st < 60)%Z.
(** Seconds counted from the start of day number 0. *)
Definition count (st : stamp) : Z :=
  (day_number (yr st) (mo st) (dy st) * 86400 + hh st * 3600 + mi st * 60 + ss st)%Z.

(** ** Texts *)
Definition figure (n : Z) : ascii := ascii_of_nat (48 + Z.to_nat n).
Definition two (n : Z) : string := String (figure (n / 10)) (String (figure (n mod 10)) "").
Definition four (n : Z) : string := (two (n / 100) ++ two (n mod 100))%string.
(** What a Maccor cycler writes: month, day and year, and the time of day. *)
Definition maccor_date (st : stamp) : string := (two (mo st) ++ "/" ++ two (dy st) ++ "/" ++ four (yr st))%string.
Definition maccor_text (st : stamp) : string :=
  (maccor_date st ++ " " ++ two (hh st) ++ ":" ++ two (mi st) ++ ":" ++ two (ss st))%string.
(** Numbers that fit in the columns, whether or not they are a date and a time. *)
Definition figures (st : stamp) : Prop :=
  (0 <= yr st < 10000)%Z /\ (0 <= mo st < 100)%Z /\ (0 <= dy st < 100)%Z
  /\ (0 <= hh st < 100)%Z /\ (0 <= mi st < 100)%Z /\ (0 <= ss st < 100)%Z.
(** ISO 8601, in UTC. *)
Definition iso_text (st : stamp) : string :=
  (four (yr st) ++ "-" ++ two (mo st) ++ "-" ++ two (dy st) ++ "T" ++ two (hh st) ++ ":" ++ two (mi st) ++ ":" ++ two (ss st) ++ "+00:00")%string.

(** ** The Pacific clock *)
(** What a clock on the Pacific coast shows at the instant [u] of UTC, given when daylight saving
    time is in force. *)
Definition shown (dst : Z -> bool) (u : Z) : Z := (u - (if dst u then 7 else 8) * 3600)%Z.
(** The rule for 2019: from 10 March, 10:00 UTC, to 3 November, 9:00 UTC. *)
Definition at_hour (y m d h : Z) : stamp := {| yr := y; mo := m; dy := d; hh := h; mi := 0; ss := 0 |}.
Definition dst_2019 (u : Z) : bool := ((count (at_hour 2019 3 10 10) <=? u) && (u <? count (at_hour 2019 11 3 9)))%Z.

(** ** Arbin: seconds since 1970 *)
(** From 10 January 2004 to 19 January 2038. *)
Definition recent (t : Q) : Prop := inject_Z (2 ^ 30) <= t /\ t < inject_Z (2 ^ 31).
