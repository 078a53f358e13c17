(** Vocabulary for C140. *)
From Verif Require Import Py Num Model_Arbin Model_RawFile Model_SpliceFile.

Definition without (c : ascii) (s : string) : Prop := ~ In c (list_ascii_of_string s).
(** one line of text *)
Definition line (s : string) : Prop := without (ascii_of_nat 10) s.
(** one field of a line *)
Definition field (s : string) : Prop := line s /\ without (ascii_of_nat 9) s.
(** the content of a file of lines *)
Definition content (ls : list string) : string := String.concat "" (map (fun l => l ++ String (ascii_of_nat 10) "")%string ls).
(** a frame that a file can hold: at least two columns, distinct labels, all rows of the same width, every value can be told from its text *)
Definition storable (value : string -> cell) (text : cell -> string) (d : frame) : Prop :=
  (2 <= length (fst d))%nat /\ NoDup (fst d) /\ Forall field (fst d) /\
  Forall (fun r => length r = length (fst d) /\ Forall (fun v => field (text v) /\ value (text v) = v) r) (snd d).
(** the value in a column *)
Definition at_column (labels : list string) (row : list cell) (c : string) (v : cell) : Prop :=
  exists j, nth_error labels j = Some c /\ nth_error row j = Some v.
(** a row of the second file as it goes on after the first: where a column to be continued started lower than the first file ended, the end of the first file is added; where one of the two values is missing, nothing is *)
Definition continued (columns labels1 labels : list string) (last1 first2 old new : list cell) : Prop :=
  length new = length old /\ forall c v, at_column labels old c v -> exists v', at_column labels new c v' /\ (~ In c columns -> v' = v) /\
    (at_column labels first2 c Missing \/ at_column labels1 last1 c Missing -> v' = v) /\
    forall x y, In c columns -> at_column labels first2 c (Number x) -> at_column labels1 last1 c (Number y) ->
      (x < y -> (forall q, v = Number q -> v' = Number (q + y)) /\ ((forall q, v <> Number q) -> v' = v)) /\ (y <= x -> v' = v).
(** a row under other labels: every value keeps its label, what had no label is missing *)
Definition placed (labels labels' : list string) (old new : list cell) : Prop :=
  length new = length labels' /\ forall c v, at_column labels' new c v <-> In c labels' /\ (at_column labels old c v \/ ~ In c labels /\ v = Missing).
