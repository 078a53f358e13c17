(** What moving and re-processing files and quoting on the command line mean. *)
From Verif Require Import Py Model_Transfer.

(** ** Names *)
(** [old] replaced by [new] from the left wherever it occurs. *)
Definition leading (a old b : string) : Prop :=
  forall p q, (a ++ old ++ b = p ++ old ++ q)%string -> (String.length a <= String.length p)%nat.
Inductive renamed (old new : string) : string -> string -> Prop :=
| renamed_none s : contains old s = false -> renamed old new s s
| renamed_one a b b' : leading a old b -> renamed old new b b' -> renamed old new (a ++ old ++ b) (a ++ new ++ b').
Definition slash_free (s : string) : Prop := ~ In "/"%char (list_ascii_of_string s).
(** A folder: not empty, the last character is no slash, the first neither. *)
Definition folder (d : string) : Prop :=
  exists c r z, d = String c r /\ c <> "/"%char /\ last (list_ascii_of_string d) " "%char = z /\ z <> "/"%char.
Definition in_folder (key dir name : string) : Prop := key = (dir ++ "/" ++ name)%string /\ folder dir /\ slash_free name.

(** ** Texts *)
Definition cr : ascii := ascii_of_nat 13.
Definition lf : ascii := ascii_of_nat 10.
Definition one_line (l : string) : Prop := ~ In cr (list_ascii_of_string l) /\ ~ In lf (list_ascii_of_string l).
(** Files of Unix and of Windows. *)
Definition line_end (e : string) : Prop := e = String lf "" \/ e = String cr (String lf "").

(** ** Words on a command line *)
(** POSIX: an apostrophe starts and ends a quotation, blanks end words.  [None] where a quotation does not end, or for
    other characters with a meaning of their own outside of quotations. *)
Definition sh_special (c : ascii) : bool :=
  existsb (Ascii.eqb c) (list_ascii_of_string "|&;<>()$`*?[]#~=%!{}\") || (nat_of_ascii c =? 34)%nat || (nat_of_ascii c =? 10)%nat || (nat_of_ascii c =? 9)%nat.
Fixpoint sh_words (quoted : bool) (word : option string) (text : string) : option (list string) :=
  let put c := Some (match word with Some w => (w ++ String c "")%string | None => String c "" end) in
  match text with
  | EmptyString => if quoted then None else Some (match word with Some w => [w] | None => [] end)
  | String c r =>
      if Ascii.eqb c "'" then sh_words (negb quoted) (match word with Some w => Some w | None => Some ""%string end) r
      else if quoted then sh_words true (put c) r
      else if Ascii.eqb c " " then option_map (app (match word with Some w => [w] | None => [] end)) (sh_words false None r)
      else if sh_special c then None
      else sh_words false (put c) r
  end.
(** Windows: 2n backslashes before a quotation mark are n backslashes, one more makes the mark a plain character;
    other backslashes are plain.  [slashes] counts the backslashes just passed. *)
Definition backslash : ascii := ascii_of_nat 92.
Definition quote_mark : ascii := ascii_of_nat 34.
Fixpoint many (n : nat) : string := match n with O => ""%string | S k => String backslash (many k) end.
Fixpoint win_words (quoted : bool) (slashes : nat) (word : option string) (text : string) : list string :=
  let so_far n := match word with Some w => (w ++ many n)%string | None => many n end in
  match text with
  | EmptyString => match word, slashes with None, O => [] | _, _ => [so_far slashes] end
  | String c r =>
      if Ascii.eqb c backslash then win_words quoted (S slashes) word r
      else if Ascii.eqb c quote_mark
      then if Nat.even slashes then win_words (negb quoted) 0 (Some (so_far (Nat.div2 slashes))) r
           else win_words quoted 0 (Some (so_far (Nat.div2 slashes) ++ String c "")%string) r
      else if Ascii.eqb c " " && negb quoted
      then (match word, slashes with None, O => [] | _, _ => [so_far slashes] end) ++ win_words false 0 None r
      else win_words quoted 0 (Some (so_far slashes ++ String c "")%string) r
  end.

(** ** Listings and events *)
Definition listing (b : list s3_object) (p : string) : list s3_object := filter (fun o => prefix p (o_key o)) b.
(** A raw file that was structured: the file name up to its first dot names the structured file. *)
Definition structured_name (key name : string) : Prop :=
  exists dir stem rest, key = (dir ++ stem ++ rest)%string
    /\ (dir = ""%string \/ last (list_ascii_of_string dir) " "%char = "/"%char) /\ slash_free (stem ++ rest)
    /\ ~ In "."%char (list_ascii_of_string stem) /\ (rest = ""%string \/ exists r, rest = String "." r)
    /\ name = (stem ++ "_structure.json")%string.
(** The one file whose key begins with [p] is at most six hours old. *)
Definition just_made (output : list s3_object) (now : Z) (p : string) : Prop :=
  exists s, listing output p = [s] /\ (now - 6 * 3600 <= o_modified s)%Z.
Definition chosen (o : s3_object) : Prop :=
  (1000 < o_size o)%Z /\ contains "PredictionDiagnostics" (o_key o) = true /\ contains "x" (o_key o) = false
  /\ contains "Complete" (o_key o) = false.
Definition mark_free (s : string) : Prop := ~ In quote_mark (list_ascii_of_string s).
Definition event_of (o : s3_object) (e : event) : Prop :=
  ev_filename e = o_key o /\ ev_bucket e = "beep-input-data-stage"%string /\ ev_size e = o_size o
  /\ forall h, mark_free h -> o_etag o = String quote_mark (h ++ String quote_mark "") -> ev_hash e = h.
Inductive subsequence {A} : list A -> list A -> Prop :=
| sub_nil : subsequence [] []
| sub_skip x l m : subsequence l m -> subsequence l (x :: m)
| sub_keep x l m : subsequence l m -> subsequence (x :: l) (x :: m).

(** JSON that a Windows command line carries: no quotation mark after a backslash, no backslash at the end. *)
Definition win_safe (s : string) : Prop :=
  contains (String backslash (String quote_mark "")) s = false /\ last (list_ascii_of_string s) " "%char <> backslash.
