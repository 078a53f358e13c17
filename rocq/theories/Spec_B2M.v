(** Vocabulary for C35 - C37 and C64 - C66: what a list of Biologic sequences means, and
    how the steps of a Maccor procedure correspond to it.  A sequence is a
    dictionary of texts. *)
From Verif Require Import Py Spec_Numeral Spec_Units Model_B2M.

Definition text_of (d : bseq) (k : string) (t : string) : Prop := sget d k = Some t.
Definition shows (d : bseq) (k : string) (z : Z) : Prop := exists t, sget d k = Some t /\ integer t z.

(** The sequences are numbered 0, 1, 2, ... and a repeat count of zero is written "0". *)
Definition well_numbered (seqs : list bseq) : Prop :=
  forall i d, nth_error seqs i = Some d -> shows d "Ns" (Z.of_nat i).
Definition zero_plain (seqs : list bseq) : Prop :=
  forall d, In d seqs -> shows d "ctrl_repeat" 0 -> text_of d "ctrl_repeat" "0".

(** Sequence [e] is a loop back to sequence [a], with its repeat count. *)
Definition loop_at (seqs : list bseq) (e a : nat) (rep : Z) : Prop :=
  exists d, nth_error seqs e = Some d /\ text_of d "ctrl_type" "Loop" /\ shows d "ctrl_seq" (Z.of_nat a) /\ shows d "ctrl_repeat" rep.
(** a loop that is passed over *)
Definition passed_over (seqs : list bseq) (i : nat) : Prop :=
  exists d, nth_error seqs i = Some d /\ text_of d "ctrl_type" "Loop" /\ shows d "ctrl_repeat" 0.
(** a loop back to the passed-over loop just before it only advances the cycle *)
Definition advances (seqs : list bseq) (i : nat) : Prop :=
  exists a rep, i = S a /\ loop_at seqs i a rep /\ rep <> 0%Z /\ passed_over seqs a.
(** any other loop *)
Definition repeats (seqs : list bseq) (e a : nat) : Prop :=
  exists rep, loop_at seqs e a rep /\ rep <> 0%Z /\ ~ advances seqs e.
Definition works (seqs : list bseq) (i : nat) : Prop :=
  exists d, nth_error seqs i = Some d /\ ~ text_of d "ctrl_type" "Loop".
Definition starts_loop (seqs : list bseq) (a : nat) : Prop := exists e, repeats seqs e a.

(** The number (from 1) of the first step of the [i]-th group of steps. *)
Definition first_of (groups : list (list bstep)) (i : nat) : Z := Z.of_nat (length (concat (firstn i groups))) + 1.
(** The step that does what sequence [i] does: after the Do step, if there is one. *)
Definition lands (seqs : list bseq) (groups : list (list bstep)) (i : nat) (n : Z) : Prop :=
  (starts_loop seqs i /\ n = (first_of groups i + 1)%Z) \/ (~ starts_loop seqs i /\ n = first_of groups i).
Definition points_to (e : bend) (n : Z) : Prop := integer (be_step e) n.
Definition is_do (s : bstep) : Prop := bs_type s = "  Do 1  "%string.
Definition is_loop (s : bstep) : Prop := bs_type s = " Loop 1 "%string.
Definition is_advance (s : bstep) : Prop := bs_type s = "AdvCycle"%string.
Definition is_end (s : bstep) : Prop := bs_type s = "  End   "%string.
(** what a working sequence's step may be called *)
Definition is_work (s : bstep) : Prop := In (bs_type s) ["Charge "; "Dischrge "; "  Rest  "]%string.
Definition lim_key (k : nat) (f : string) : string := ("lim" ++ nth k ["1"; "2"; "3"] "?" ++ "_" ++ f)%string.
Definition rec_key (k : nat) (f : string) : string := ("rec" ++ nth k ["1"; "2"; "3"] "?" ++ "_" ++ f)%string.

(** The steps come in groups, one group for each sequence, and an End step. *)
Definition grouped (seqs : list bseq) (groups : list (list bstep)) (out : list bstep) : Prop :=
  length groups = length seqs /\ (exists last, is_end last /\ out = concat groups ++ [last]) /\
  forall i g, nth_error groups i = Some g ->
    (passed_over seqs i -> g = []) /\
    (advances seqs i -> exists a, is_advance a /\ g = [a]) /\
    (forall a, repeats seqs i a -> exists ad lp, is_advance ad /\ is_loop lp /\ g = [ad; lp]) /\
    (works seqs i -> exists st, is_work st /\
       (starts_loop seqs i /\ (exists d, is_do d /\ g = [d; st]) \/ ~ starts_loop seqs i /\ g = [st])).
(** The step that does the work of a group. *)
Definition working (groups : list (list bstep)) (i : nat) (st : bstep) : Prop :=
  exists g, nth_error groups i = Some g /\ (g = [st] \/ exists d, g = [d; st]).
(** Loop steps lead back to the Do step of the sequence that is named. *)
Definition loops_point_back (seqs : list bseq) (groups : list (list bstep)) : Prop :=
  forall e a, repeats seqs e a -> exists ad lp en, nth_error groups e = Some [ad; lp] /\ bs_ends lp = [en] /\
    works seqs a /\ starts_loop seqs a /\ (a < e)%nat /\ points_to en (first_of groups a).
(** The [k]-th limit of sequence [i] and the end condition made of it. *)
Definition limit_of_step (seqs : list bseq) (groups : list (list bstep)) (i k : nat) (d : bseq) (en : bend) : Prop :=
  works seqs i /\ nth_error seqs i = Some d /\ exists st, working groups i st /\ nth_error (bs_ends st) k = Some en.
(** Where the [k]-th limit of sequence [i] leads.  The last alternative of a goto is
    the defect shown in C35_gotos_refuted. *)
Definition leads (seqs : list bseq) (groups : list (list bstep)) (i : nat) (d : bseq) (k : nat) (n : Z) : Prop :=
  (text_of d (lim_key k "action") "End" -> n = (Z.of_nat (length (concat groups)) + 1)%Z) /\
  (text_of d (lim_key k "action") "Next sequence" -> n = first_of groups (S i)) /\
  (text_of d (lim_key k "action") "Goto sequence" -> exists j, shows d (lim_key k "seq") (Z.of_nat j) /\ (j < length seqs)%nat /\ ~ passed_over seqs j /\
     (lands seqs groups j n \/
      (i < j)%nat /\ lands seqs groups j (n + 1) /\ exists a, works seqs a /\ starts_loop seqs a /\ lands seqs groups a (Z.of_nat j))) /\
  (exists t, text_of d (lim_key k "action") t /\ In t ["End"; "Next sequence"; "Goto sequence"]%string).

(** A number in decimal digits without exponent. *)
Definition plain (t : string) (x : Q) : Prop := decimal t x /\ forall c, In c (list_ascii_of_string t) -> c <> "e"%char /\ c <> "E"%char.
(** Python's text of the float is such a number (true from 1e-4 up to 1e16). *)
Definition shown_plainly (show : Q -> string) (x : Q) : Prop := forall y, y == x -> plain (show y) x.
(** hours:minutes:seconds *)
Definition time_text (t : string) (secs : Q) : Prop :=
  exists hs ms ss h m s, t = (hs ++ ":" ++ ms ++ ":" ++ ss)%string /\ decimal hs h /\ decimal ms m /\ decimal ss s /\ secs == h * 3600 + m * 60 + s.
Definition greek : string := String (ascii_of_nat 206) (String (ascii_of_nat 188) "").
(** units Biologic writes, with their size in V, A, Ohm, W, s *)
Definition volts : list (string * Q) := volt_units.
Definition amps : list (string * Q) := (greek ++ "A", 1 # 1000000)%string :: amp_units.
Definition watts : list (string * Q) := (greek ++ "W", 1 # 1000000)%string :: watt_units.
Definition ohms : list (string * Q) :=
  [("MOhm", 1000000); ("kOhm", 1000); ("Ohm", 1); ("mOhm", 1 # 1000); (greek ++ "Ohm", 1 # 1000000); (mu ++ "Ohm", 1 # 1000000)]%string.
Definition seconds : list (string * Q) := [("h", 3600); ("mn", 60); ("s", 1)]%string.
(** [t] in unit [u] is the amount [r] in the base unit *)
Definition amount (units : list (string * Q)) (t u r : string) : Prop :=
  exists k, In (u, k) units /\ forall x, plain t x -> decimal r (x * k).
Definition duration (show : Q -> string) (t u r : string) : Prop :=
  exists x, decimal t x /\
    ((exists k, In (u, k) seconds /\ (shown_plainly show x -> time_text r (x * k))) \/
     (* milliseconds: to the nearest hundredth of a second, which is within a tenth of a millisecond *)
     (u = "ms"%string /\ exists z, time_text r (inject_Z z / 100) /\ Qabs (inject_Z z / 100 - x / 1000) <= 1 # 10000)).
Definition shown_amount (show : Q -> string) (units : list (string * Q)) (t u r : string) : Prop :=
  exists x k, decimal t x /\ In (u, k) units /\ (shown_plainly show x -> decimal r (x * k)).
(** What a working sequence controls, and how Maccor says it. *)
Definition controls_the_same (d : bseq) (st : bstep) : Prop :=
  exists ty t u, text_of d "ctrl_type" ty /\ text_of d "ctrl1_val" t /\ text_of d "ctrl1_val_unit" u /\
    (ty = "CC"%string /\ bs_mode st = "Current "%string /\ amount amps t u (bs_value st) \/
     ty = "CV"%string /\ text_of d "ctrl1_val_vs" "Ref" /\ bs_mode st = "Voltage "%string /\ amount volts t u (bs_value st) \/
     ty = "CR"%string /\ bs_mode st = "Resistance "%string /\ amount ohms t u (bs_value st) \/
     ty = "CP"%string /\ bs_mode st = "Power "%string /\ amount watts t u (bs_value st) \/
     ty = "Rest"%string /\ bs_type st = "  Rest  "%string /\ bs_value st = ""%string).
(** The [k]-th limit and its end condition compare the same quantity with the same amount. *)
Definition ends_the_same (show : Q -> string) (d : bseq) (k : nat) (en : bend) : Prop :=
  exists ty c t u, text_of d (lim_key k "type") ty /\ text_of d (lim_key k "comp") c /\
    text_of d (lim_key k "value") t /\ text_of d (lim_key k "value_unit") u /\
    (In ty ["Ecell"; "Ece"]%string /\ be_type en = "Voltage "%string /\ shown_amount show volts t u (be_value en) \/
     ty = "I"%string /\ be_type en = "Current "%string /\ shown_amount show amps t u (be_value en) \/
     ty = "Time"%string /\ be_type en = "StepTime"%string /\ duration show t u (be_value en)) /\
    (c = "<"%string /\ be_oper en = "<= "%string \/ c = ">"%string /\ ty <> "Time"%string /\ be_oper en = ">= "%string \/
     c = ">"%string /\ ty = "Time"%string /\ be_oper en = " = "%string).
Definition records_the_same (show : Q -> string) (d : bseq) (k : nat) (r : brep) : Prop :=
  exists ty t u, text_of d (rec_key k "type") ty /\ text_of d (rec_key k "value") t /\ text_of d (rec_key k "value_unit") u /\
    (In ty ["Ecell"; "Ece"]%string /\ br_type r = "Voltage "%string /\ shown_amount show volts t u (br_value r) \/
     ty = "I"%string /\ br_type r = "Current "%string /\ shown_amount show amps t u (br_value r) \/
     ty = "Power"%string /\ br_type r = "Power "%string /\ shown_amount show watts t u (br_value r) \/
     ty = "Time"%string /\ br_type r = "StepTime"%string /\ duration show t u (br_value r)).
