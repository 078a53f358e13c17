(** What is expected of the readers of raw Biologic and Novonix files. *)
From Verif Require Import Py Num Spec_Numeral Spec_Cmd Model_Stamp Spec_Stamp Model_RawFile Spec_RawFile Model_CyclerFile.

(** ** Lines of bytes *)
(** Printed as it is: an ASCII character that is not a control character, an apostrophe or a backslash. *)
Definition plain_char (c : ascii) : Prop :=
  (32 <= nat_of_ascii c <= 126)%nat /\ c <> ascii_of_nat 39 /\ c <> ascii_of_nat 92.
Definition plain_text (s : string) : Prop := forall c, In c (list_ascii_of_string s) -> plain_char c.
Definition dos_end : string := String (ascii_of_nat 13) (String (ascii_of_nat 10) "").
Definition dos (s : string) : string := (s ++ dos_end)%string.
Definition unix (s : string) : string := (s ++ eol)%string.

(** Reading the text of bytes, as in a Python program: characters up to the quote [q], with backslashes. *)
Definition hex_value (c : ascii) : option nat :=
  let n := nat_of_ascii c in
  if (48 <=? n)%nat && (n <=? 57)%nat then Some (n - 48)%nat else if (97 <=? n)%nat && (n <=? 102)%nat then Some (n - 87)%nat else None.
Definition then_char (n : nat) (r : option string) : option string := option_map (String (ascii_of_nat n)) r.
Fixpoint read_literal (q : ascii) (s : string) : option string :=
  match s with
  | EmptyString => None
  | String c r =>
      if Ascii.eqb c q then match r with EmptyString => Some EmptyString | _ => None end
      else if (nat_of_ascii c =? 92)%nat then
        match r with
        | EmptyString => None
        | String d r =>
            if Ascii.eqb d "t" then then_char 9 (read_literal q r) else if Ascii.eqb d "n" then then_char 10 (read_literal q r)
            else if Ascii.eqb d "r" then then_char 13 (read_literal q r)
            else if Ascii.eqb d "x" then
              match r with
              | String h (String l r) => match hex_value h, hex_value l with Some h, Some l => then_char (16 * h + l) (read_literal q r) | _, _ => None end
              | _ => None
              end
            else if Ascii.eqb d q || (nat_of_ascii d =? 92)%nat then then_char (nat_of_ascii d) (read_literal q r)
            else None
        end
      else if (32 <=? nat_of_ascii c)%nat && (nat_of_ascii c <=? 126)%nat then then_char (nat_of_ascii c) (read_literal q r)
      else None
  end.

(** ** Metadata of Biologic files *)
Definition run_line (line : string) (slot : ascii) (number tail : string) : Prop :=
  holds line ("Run on channel : " ++ String slot number ++ tail) /\ contains " " number = false
  /\ contains " : " (String slot number ++ tail) = false /\ slot <> " "%char /\ (tail = "" \/ exists t, tail = String " " t)%string.
(** The first line of the protocol. *)
Definition protocol_line (line : string) : Prop := exists t, holds line ("Cycle Definition : " ++ t).
Definition comment_line (line v : string) : Prop := holds line ("Comments : " ++ v) /\ contains " : " v = false.
(** The one line in a list with a word in it. *)
Definition only_line (p : string) (l : list string) (x : string) : Prop :=
  exists a b, l = a ++ x :: b /\ forall y, In y (a ++ b) -> contains p y = false.
(** What a protocol is identified by: its lines, the first one twice. *)
Definition lines_text (l : list string) : string := fold_right (fun x s => (x ++ eol ++ s)%string) ""%string l.
Definition protocol_text (first : string) (others : list string) : string := lines_text (first :: first :: others).

(** ** Data of Biologic files *)
(** Name in the file, name in the data, and factor of the unit. *)
Definition biologic_numbers : list (string * string * Q) :=
  [("Ecell/V", "voltage", 1); ("I/mA", "current", 1 # 1000); ("Q discharge/mA.h", "discharge_capacity", 1 # 1000);
   ("Q charge/mA.h", "charge_capacity", 1 # 1000); ("Energy charge/W.h", "charge_energy", 1);
   ("Energy discharge/W.h", "discharge_energy", 1)]%string.
(** Columns that have to be there, but for the numbers of the cycles. *)
Definition biologic_needed : list string := "Ns"%string :: "time/s"%string :: map (fun n => fst (fst n)) biologic_numbers.
(** A data file: lines before the header, the names of the columns, and rows of cells.  The last cell of a line goes on to
    the end of the line and includes it. *)
Definition table_header (l : string) : Prop := contains "Ecell/V" l = true /\ contains "Variables" l = false.
Definition biologic_file (ext : string) (pre : list string) (cols : list string) (rows : list (list string)) (lines : list string) : Prop :=
  exists sep, (ext = ".csv"%string /\ sep = ";"%char \/ ext = ".txt"%string /\ sep = ascii_of_nat 9) /\
    lines = pre ++ join (String sep "") cols :: map (join (String sep "")) rows /\
    (forall l, In l pre -> ~ table_header l) /\ table_header (join (String sep "") cols) /\ (length pre < 199)%nat /\
    forall r, In r (cols :: rows) -> r <> [] /\ forall c, In c r -> contains (String sep "") c = false.
(** The whole number next to [q], towards zero. *)
Definition towards_zero (q : Q) (z : Z) : Prop :=
  (0 <= q -> inject_Z z <= q /\ q < inject_Z (z + 1)) /\ (q < 0 -> q <= inject_Z z /\ inject_Z (z - 1) < q).
(** Rows of a table with [n] cells each. *)
Definition complete (n : nat) (rows : list (list string)) : Prop := forall r, In r rows -> length r = n.
(** The cells of column [j], each related to a value. *)
Definition column_is (R : string -> bval -> Prop) (j : nat) (rows : list (list string)) (vals : list bval) : Prop :=
  Forall2 (fun r v => exists s, nth_error r j = Some s /\ R s v) rows vals.

(** A cell and its value: a number in the unit of the data, a number made whole, and a text; [float_of] is float(). *)
Definition number_cell (float_of : string -> option Q) (k : Q) (s : string) (v : bval) : Prop := exists q, float_of s = Some q /\ v = BF (q * k).
Definition whole_cell (float_of : string -> option Q) (s : string) (v : bval) : Prop := exists q z, float_of s = Some q /\ towards_zero q z /\ v = BI z.
Definition text_cell (s : string) (v : bval) : Prop := v = BT s.
(** The column [name] of the data holds the cells of the column [src] of the file. *)
Definition filled (cols : list string) (rows : list (list string)) (data : list (string * list bval)) (src name : string) (R : string -> bval -> Prop) : Prop :=
  exists j vals, nth_error cols j = Some src /\ sget data name = Some vals /\ column_is R j rows vals.

(** ** Times *)
Definition six (n : Z) : string := (two (n / 10000) ++ two (n / 100 mod 100) ++ two (n mod 100))%string.
Definition biologic_text (st : stamp) (us : Z) : string := (maccor_text st ++ "." ++ six us)%string.
Definition proper_us (us : Z) : Prop := (0 <= us < 1000000)%Z.
Definition iso_us (st : stamp) (us : Z) : string :=
  (local_text st ++ (if (us =? 0)%Z then "" else "." ++ six us) ++ "+00:00")%string.
(** The clock of a cycler, to the millionth of a second. *)
Definition count_us (st : stamp) (us : Z) : Z := (count st * 1000000 + us)%Z.

(** ** Novonix *)
(** The entry of the summary a line is taken for: of the phrases that occur in it, the first of the list. *)
Definition taken_for (line k : string) : Prop :=
  exists a p b, novonix_fields = a ++ (k, p) :: b /\ contains p line = true /\ forall kp, In kp a -> contains (snd kp) line = false.
Definition summary_entry (label v : string) : string := (label ++ ": " ++ v)%string.
Definition noted (v : string) : option string := if String.eqb v "" then None else Some v.
(** A line of the summary whose value is read as it is. *)
Definition good_entry (e : string * string) : Prop :=
  plain_text (summary_entry (fst e) (snd e)) /\ contains ":" (fst e) = false /\ contains ":" (snd e) = false /\
  (forall c r, snd e = String c r -> ~ blank_char c) /\
  contains "Cycle Number" (summary_entry (fst e) (snd e)) = false /\ contains "[End Summary]" (summary_entry (fst e) (snd e)) = false.
(** A file with a summary. *)
Definition summary_file (pre : list string) (entries : list (string * string)) (rest lines : list string) : Prop :=
  lines = pre ++ unix "[Summary]" :: map (fun e => unix (summary_entry (fst e) (snd e))) entries ++ unix "[End Summary]" :: rest /\
  (forall l, In l pre -> contains "Cycle Number" l = false /\ contains "[Summary]" l = false /\ contains "[End Summary]" l = false) /\
  Forall good_entry entries.
(** Hours of the clock with twelve hours. *)
Definition half_day (st : stamp) : string := if (hh st <? 12)%Z then "AM" else "PM".
Definition hour_12 (st : stamp) : Z := if (hh st mod 12 =? 0)%Z then 12%Z else (hh st mod 12)%Z.
Definition time_12 (st : stamp) : string :=
  (two (hour_12 st) ++ ":" ++ two (mi st) ++ ":" ++ two (ss st) ++ " " ++ half_day st)%string.
Definition novonix_text (st : stamp) : string := (four (yr st) ++ "-" ++ two (mo st) ++ "-" ++ two (dy st) ++ " " ++ time_12 st)%string.
Definition novonix_us_text (st : stamp) : string := (two (mo st) ++ "/" ++ two (dy st) ++ "/" ++ four (yr st) ++ " " ++ time_12 st)%string.
