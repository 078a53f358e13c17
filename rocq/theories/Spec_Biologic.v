(** What Biologic cycle numbering, rule files and header search are expected to do. *)
From Verif Require Import Py Num Model_Biologic.

(** How far the cycle number advances between two consecutive records
    (sequence, loop): by the technique-loop count when the loop counter changes,
    else by the count declared for the change of sequence, else not at all. *)
Inductive advance (r : rules) : Z * Z -> Z * Z -> Z -> Prop :=
| advance_loop s l s' l' : l <> l' -> advance r (s, l) (s', l') (adv_cycle_on_tech_loop r)
| advance_declared s s' l n : s <> s' -> In ((s, s'), n) (adv_cycle_seq_transitions r) -> advance r (s, l) (s', l) n
| advance_undeclared s s' l : s <> s' -> (forall n, ~ In ((s, s'), n) (adv_cycle_seq_transitions r)) ->
    advance r (s, l) (s', l) 0
| advance_same s l : advance r (s, l) (s, l) 0.
(** [nums] numbers the records, beginning with [start]. *)
Definition numbered (r : rules) (start : Z) (recs : list (Z * Z)) (nums : list Z) : Prop :=
  length nums = length recs /\
  (forall c, nth_error nums 0 = Some c -> c = start) /\
  forall i p q c c', nth_error recs i = Some p -> nth_error recs (S i) = Some q ->
    nth_error nums i = Some c -> nth_error nums (S i) = Some c' ->
    exists n, advance r p q n /\ c' = (c + n)%Z.
(** The records read from the Ns column and the Loop column, if there is one. *)
Definition recorded (ns : list Z) (loops : option (list Z)) (recs : list (Z * Z)) : Prop :=
  map fst recs = ns /\
  match loops with
  | Some ((_ :: _) as l) => map snd recs = firstn (length ns) l
  | _ => forall p, In p recs -> snd p = 0%Z
  end.
(** Counts are never negative. *)
Definition no_negative (r : rules) : Prop :=
  (0 <= adv_cycle_on_start r)%Z /\ (0 <= adv_cycle_on_tech_loop r)%Z /\
  forall p n, In (p, n) (adv_cycle_seq_transitions r) -> (0 <= n)%Z.
Definition at_most_one (r : rules) : Prop :=
  (adv_cycle_on_tech_loop r <= 1)%Z /\ forall p n, In (p, n) (adv_cycle_seq_transitions r) -> (n <= 1)%Z.
Definition non_decreasing (l : list Z) : Prop :=
  forall i j a b, (i <= j)%nat -> nth_error l i = Some a -> nth_error l j = Some b -> (a <= b)%Z.

(** Numbering several techniques one after the other. *)
Inductive continued : Z -> list (rules * list (Z * Z)) -> list (list Z) -> Prop :=
| continued_nil c : continued c [] []
| continued_cons c r recs rest nums more c' :
    numbered r (c + adv_cycle_on_start r) recs nums -> last_error nums = Some c' ->
    continued c' rest more -> continued c ((r, recs) :: rest) (nums :: more).

(** The dictionaries of a rule set have distinct keys (they are dictionaries). *)
Definition dicts (r : rules) : Prop :=
  NoDup (map fst (adv_cycle_seq_transitions r)) /\ NoDup (map fst (debug_adv_cycle_on_step_transitions r)).

(** Line number [k] (from 1) is the first header. *)
Definition first_header (is_header : string -> bool) (lines : list string) (k : nat) : Prop :=
  (1 <= k)%nat /\ (exists l, nth_error lines (k - 1) = Some l /\ is_header l = true) /\
  forall j l, (1 <= j < k)%nat -> nth_error lines (j - 1) = Some l -> is_header l = false.

(** [vals] are the converted items number [j] of the lines that have one, in order. *)
Definition column_values {V} (conv : string -> string -> result V) (c : string) (j : nat)
  (lines : list (list string)) (vals : list V) : Prop :=
  Forall2 (fun items v => exists s, nth_error items j = Some s /\ conv c s = Ok v) lines vals.
