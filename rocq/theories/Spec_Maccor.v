(** What the Maccor reader is expected to compute. *)
From Verif Require Import Py Num Model_Maccor.

(** Record [i] finishes a step: it carries an end code and the next record
    belongs to another step. *)
Definition finishes_step (rows : list mrec) (i : nat) : Prop :=
  exists r r', nth_error rows i = Some r /\ nth_error rows (S i) = Some r' /\
    (128 <= mc_es r <= 255)%Z /\ mc_step r <> mc_step r'.
(** Records [i] .. [j] all belong to one cycle. *)
Definition one_cycle (rows : list mrec) (i j : nat) : Prop :=
  forall k r r', (i <= k <= j)%nat -> nth_error rows k = Some r -> nth_error rows j = Some r' -> mc_cycle r = mc_cycle r'.
(** [t] is the sum of the values [v] of the steps finished before record [i] in
    the cycle of record [i]. *)
Inductive completed (rows : list mrec) (v : list Q) : nat -> Q -> Prop :=
| completed_start : completed rows v 0 0
| completed_new_cycle i : ~ one_cycle rows i (S i) -> completed rows v (S i) 0
| completed_step i t x : one_cycle rows i (S i) -> finishes_step rows i -> nth_error v i = Some x ->
    completed rows v i t -> completed rows v (S i) (t + x)
| completed_inside i t : one_cycle rows i (S i) -> ~ finishes_step rows i ->
    completed rows v i t -> completed rows v (S i) t.
(** The cycle number changes only where a step finishes. *)
Definition cycles_end_with_steps (rows : list mrec) : Prop :=
  forall i r r', nth_error rows i = Some r -> nth_error rows (S i) = Some r' -> mc_cycle r <> mc_cycle r' ->
    finishes_step rows i.

(** Record [i] is not after the last finished step, or that step's successor is
    in the same cycle (always so if no step finishes). *)
Definition settled (rows : list mrec) (i : nat) : Prop :=
  (exists e, (i <= e)%nat /\ finishes_step rows e) \/
  (forall e, finishes_step rows e -> (forall e', finishes_step rows e' -> (e' <= e)%nat) -> one_cycle rows e (S e)).

(** The counter of a waveform step, by direction and quantity, and the letter of a state. *)
Definition waveform_counter (qy : quantity) (d : direction) (r : mrec) : num :=
  match qy, d with
  | Capacity, Charge => mc_wf_chg_cap r | Capacity, Discharge => mc_wf_dis_cap r
  | Energy, Charge => mc_wf_chg_e r | Energy, Discharge => mc_wf_dis_e r
  end.
Definition letter (d : direction) : string := match d with Charge => "C" | Discharge => "D" end.
(** The value a record contributes: the waveform quantity if the file has
    waveform steps and the record has one, else the step's quantity if the
    record is in the requested state, else 0. *)
Inductive contributes (rows : list mrec) (qy : quantity) (d : direction) (r : mrec) : Q -> Prop :=
| contributes_wf x : (exists r', In r' rows /\ mc_wf_chg_cap r' <> None) -> waveform_counter qy d r = Some x ->
    contributes rows qy d r x
| contributes_plain : (~ (exists r', In r' rows /\ mc_wf_chg_cap r' <> None) \/ waveform_counter qy d r = None) ->
    mc_state r = letter d ->
    contributes rows qy d r (match qy with Capacity => mc_cap r | Energy => mc_energy r end)
| contributes_zero : (~ (exists r', In r' rows /\ mc_wf_chg_cap r' <> None) \/ waveform_counter qy d r = None) ->
    mc_state r <> letter d -> contributes rows qy d r 0.

(** A header line: some text, then each field followed by its value. *)
Fixpoint header (pre : string) (fvs : list (string * string)) : string :=
  match fvs with
  | [] => pre
  | (f, v) :: r => (pre ++ f ++ header v r)%string
  end.
(** [f] occurs exactly once in a ++ f ++ b, namely there. *)
Definition only_there (a f b : string) : Prop :=
  forall p q, (a ++ f ++ b = p ++ f ++ q)%string -> p = a.
Fixpoint unambiguous (pre : string) (fvs : list (string * string)) : Prop :=
  match fvs with
  | [] => True
  | (f, v) :: r => f <> ""%string /\ only_there pre f (header v r) /\ unambiguous v r
  end.
(** Reading it back: a field is neither in the value before it nor anywhere after it. *)
Fixpoint once_each (pre : string) (fvs : list (string * string)) : Prop :=
  match fvs with
  | [] => True
  | (f, v) :: r => contains f pre = false /\ contains f (header v r) = false /\ once_each v r
  end.
