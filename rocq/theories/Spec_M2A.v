(** Vocabulary for C40, C69, C70: Maccor steps and the Arbin steps made of them. *)
From Verif Require Import Py Model_Text Spec_Numeral Model_Arbin Spec_Arbin Model_M2A.

Definition type_at (steps : list astep) (i : nat) (t : string) : Prop := exists st, nth_error steps i = Some st /\ a_type st = t.
(** Loops with their counters. *)
Definition loop_names : list (string * string * string) := [("Loop 1", "Do 1", "TC_Counter1"); ("Loop 2", "Do 2", "TC_Counter2")]%string.
(** Step [d] opens the loop closed by step [i]: the nearest Do before it. *)
Definition opens (steps : list astep) (d i : nat) (do_name : string) : Prop :=
  (d < i)%nat /\ type_at steps d do_name /\ forall j, (d < j < i)%nat -> ~ type_at steps j do_name.
Definition step_key (i : nat) : string := ("Step" ++ str_int (Z.of_nat i))%string.
Definition limit_name (k : nat) : string := ("Limit" ++ str_int (Z.of_nat k))%string.
(** The setting of step [i] of a schedule. *)
Definition step_has (s : node) (i : nat) (p : list string) (v : string) : Prop := holds s ("Schedule" :: step_key i :: p)%string v.
(** [l] is the label of step [i] and of no other. *)
Definition names_step (s : node) (i : nat) (l : string) : Prop :=
  step_has s i ["m_szLabel"]%string l /\ forall j, step_has s j ["m_szLabel"]%string l -> j = i.
(** The limits of a compiled step. *)
Definition limit_sections (b : list (string * node)) (ks : list string) : Prop :=
  NoDup ks /\ forall k, In k ks <-> String.prefix "Limit" k = true /\ exists sub, In (k, Dict sub) b.
(** keys with a number *)
Definition digit_first (s : string) : Prop := exists d r, (d < 10)%nat /\ s = String (digit_sign d) r.
Definition step_named (k : string) : Prop := exists r, k = ("Step" ++ r)%string /\ digit_first r.
Definition scope_keys : list string := ["m_uStepNum"; "m_VoltageSafetyScope"; "m_AuxTempSafetyScope"; "m_CurrentSafetyScope"]%string.

(** Times: hours:minutes:seconds with an optional fraction, or "::" and seconds. *)
Definition two_digits (t : string) (z bound : Z) : Prop := exists ds, written ds t /\ (1 <= length ds <= 2)%nat /\ z = place_value ds /\ (z < bound)%Z.
Definition clock (t : string) (secs : Z) : Prop :=
  (exists h m s hz mz sz, t = (h ++ ":" ++ m ++ ":" ++ s)%string /\ two_digits h hz 24 /\ two_digits m mz 60 /\ two_digits s sz 60 /\ secs = (hz * 3600 + mz * 60 + sz)%Z) \/
  (exists s ds, t = ("::" ++ s)%string /\ written ds s /\ (length ds <= 1)%nat /\ secs = place_value ds).
Definition seconds_fraction (t : string) (f : Q) : Prop :=
  exists ds, written ds t /\ (length ds <= 6)%nat /\ f == inject_Z (place_value ds) / inject_Z (10 ^ Z.of_nat (length ds)).
Definition duration_text (t : string) (x : Q) : Prop :=
  (exists z, clock t z /\ x == inject_Z z) \/ (exists a b z f, t = (a ++ "." ++ b)%string /\ clock a z /\ seconds_fraction b f /\ x == inject_Z z + f).

(** What an end condition compares. *)
Definition compares (oper : string) (a b : Q) : Prop :=
  (oper = ">="%string /\ b <= a) \/ (oper = "<="%string /\ a <= b) \/ (oper = ">"%string /\ b < a) \/ (oper = "<"%string /\ a < b) \/ (oper = "="%string /\ a == b).

(** A label or "Next Step" leads from step [j] to step [t]. *)
Definition leads_to (s : node) (j : nat) (l : string) (t : nat) : Prop := (l = "Next Step"%string /\ t = S j) \/ names_step s t l.
(** Limit [k] of step [j]. *)
Definition limit_is (s : node) (j k : nat) (stops logs goto left sign right : string) : Prop :=
  let has f v := step_has s j [limit_name k; f]%string v in
  has "m_bStepLimit"%string stops /\ has "m_bLogDataLimit"%string logs /\ has "m_szGotoStep"%string goto /\
  has "Equation0_szLeft"%string left /\ has "Equation0_szCompareSign"%string sign /\ has "Equation0_szRight"%string right /\
  has "Equation1_szLeft"%string ""%string /\ has "Equation2_szLeft"%string ""%string.
(** Loop steps get one more limit in front of their own. *)
Definition loops (st : astep) : Prop := a_mode st = None /\ In (a_type st) ["Loop 1"; "Loop 2"]%string.
(** [e] becomes the limit with number [k]. *)
Definition end_at (st : astep) (k : nat) (e : list (string * string)) : Prop :=
  (exists es, a_ends st = Several es /\ nth_error es k = Some e) \/
  (a_ends st = Single e /\ (loops st /\ k = 1%nat \/ ~ loops st /\ k = 0%nat)).
Definition report_at (st : astep) (k : nat) (r : list (string * string)) : Prop :=
  exists es, a_ends st = Several es /\
    ((a_reports st = Single r /\ k = length es) \/ (exists rs n, a_reports st = Several rs /\ nth_error rs n = Some r /\ k = (length es + n)%nat)).
Definition without_blanks (raw t : string) : Prop := list_ascii_of_string t = filter (fun c => negb (Ascii.eqb c " ")) (list_ascii_of_string raw).
Definition no_sign (t : string) : Prop := forall r, t <> String "-" r /\ t <> String "+" r.
(** Limit [left sign right] of step [j] says what the end condition [e] says. *)
Definition says (show : Q -> string) (s : node) (j : nat) (ty : string) (e : list (string * string)) (left sign right : string) : Prop :=
  exists kind v, sget e "EndType" = Some kind /\ sget e "Value" = Some v /\
  let oper o := exists raw, sget e "Oper" = Some raw /\ without_blanks raw o in
  let ctrl c := step_has s j ["m_szStepCtrlType"]%string c in
  (kind = "Voltage"%string /\ left = "PV_CHAN_Voltage"%string /\ oper sign /\ right = v) \/
  (kind = "Current"%string /\ (ctrl "CCCV"%string /\ left = "PV_CHAN_CV_Stage_Current"%string \/ ctrl "Voltage(V)"%string /\ left = "PV_CHAN_Current"%string) /\
     (ty = "Charge"%string /\ oper sign /\ right = v \/
      (* Arbin counts discharge currents negative *)
      ty = "Dischrge"%string /\ exists o, oper o /\ right = ("-" ++ v)%string /\
        forall i x, (no_sign v -> decimal v x -> decimal right (- x)) /\ (In o ["<="; "<"; "="]%string -> (compares o i x <-> compares sign (- i) (- x))))) \/
  (kind = "StepTime"%string /\ left = "PV_CHAN_Step_Time"%string /\ sign = ">"%string /\ forall x, duration_text v x -> exists y, y == x /\ right = show y) \/
  (kind = "Loop Cnt"%string /\ (In ty ["Loop 1"; "Loop 2"]%string -> exists dname, In (ty, dname, left) loop_names) /\ oper sign /\ right = v).
Definition reports_same (show : Q -> string) (r : list (string * string)) (left sign right : string) : Prop :=
  exists kind v, sget r "ReportType" = Some kind /\ sget r "Value" = Some v /\ sign = ">"%string /\
  ((kind = "Voltage"%string /\ left = "DV_Voltage"%string /\ right = v) \/
   (kind = "Current"%string /\ left = "DV_Current"%string /\ right = v) \/
   (kind = "StepTime"%string /\ left = "DV_Time"%string /\ forall x, duration_text v x -> exists y, y == x /\ right = show y)).
(** What a step controls: charge currents positive, discharge currents negative. *)
Definition directed (st : astep) (v t : string) : Prop := a_type st = "Charge"%string /\ t = v \/ a_type st = "Dischrge"%string /\ t = ("-" ++ v)%string.
(** [controls st c v w]: control type, its value, its second value *)
Inductive controls (st : astep) : string -> string -> string -> Prop :=
| in_amps v t : a_mode st = Some "Current"%string -> a_value st = Some v -> contains "C" v = false -> a_limits st = None -> directed st v t -> controls st "Current(A)" t ""
| in_c_rate r t : a_mode st = Some "Current"%string -> a_value st = Some (r ++ "C")%string -> contains "C" r = false -> a_limits st = None -> directed st r t -> controls st "C-Rate" t ""
| amps_up_to_volts v t l u : a_mode st = Some "Current"%string -> a_value st = Some v -> contains "C" v = false -> a_limits st = Some l -> sget l "Voltage" = Some u -> directed st v t -> controls st "CCCV" t u
| in_volts v t : a_mode st = Some "Voltage"%string -> a_value st = Some v -> a_limits st = None -> directed st v t -> controls st "Voltage(V)" v ""
| volts_up_to_amps v t l c : a_mode st = Some "Voltage"%string -> a_value st = Some v -> a_limits st = Some l -> sget l "Current" = Some c -> contains "C" c = false -> directed st c t -> controls st "CCCV" t v
| resting : a_mode st = None -> a_type st = "Rest"%string -> a_limits st = None -> controls st "Rest" "" ""
(* bits of the cycler's counters: 2^n steps counter n on, 2^(n + 15) sets it to zero, 1 steps the cycle on *)
| counts n lname : a_mode st = None -> a_type st = lname -> In (n, lname) [(1, "Loop 1"); (2, "Loop 2")]%string%Z -> controls st "Set Variable(s)" "0" (str_int (2 ^ n))
| resets n dname : a_mode st = None -> a_type st = dname -> In (n, dname) [(1, "Do 1"); (2, "Do 2")]%string%Z -> controls st "Set Variable(s)" (str_int (2 ^ (n + 15))) "0"
| advances : a_mode st = None -> a_type st = "AdvCycle"%string -> controls st "Set Variable(s)" "15" "1".
