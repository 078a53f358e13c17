(** What the names and documentation of the image and trajectory features promise. *)
From Verif Require Import Py Num Model_Text Model_Diagnostic Model_Summary Model_Degrade Model_Lookup Model_Hppc Spec_Hppc.

(** ** Channels *)
Definition typed (type : string) (data : list drec) : list drec := filter (fun r => String.eqb (q_type r) type) data.
Definition cycle_of (type : string) (c : Z) (data : list drec) : list drec :=
  filter (fun r => String.eqb (q_type r) type && Z.eqb (q_cycle r) c) data.
(** the records of the step at place [i] (from 0) of the diagnostic of a type at a position *)
Definition step_at (data : list drec) (type : string) (pos : Z) (i : nat) (l : list drec) : Prop :=
  exists c s, occurrence data type pos c /\ nth_error (uniq (map q_step (cycle_of type c data))) i = Some s /\
    l = filter (fun r => Z.eqb (q_step r) s) (cycle_of type c data).
(** the first diagnostic of the type has two steps, a charge and a discharge *)
Definition two_steps (data : list drec) (type : string) : bool :=
  match uniq (map q_cycle (typed type data)) with
  | c :: _ => (length (uniq (map q_step (cycle_of type c data))) =? 2)%nat
  | [] => false
  end.
(** a channel: type, metric, place of the step, position of the diagnostic *)
Definition channels (metrics types : list string) (positions : list Z) : list (string * string * nat * Z) :=
  flat_map (fun t => flat_map (fun m => flat_map (fun i => map (fun p => (t, m, i, p)) positions) [0; 1]%nat) metrics) types.
Definition channel_name (ch : string * string * nat * Z) : string :=
  let '(t, m, i, p) := ch in
  ("diag_cycle_" ++ str_int p ++ "_" ++ t ++ "_" ++ m ++ "_step_" ++ str_int (Z.of_nat i))%string.

(** ** Values *)
(** the greatest (least) known value; missing if none is known *)
Definition top_of (l : list num) (t : num) : Prop :=
  match t with Some x => is_greatest l x | None => forall q, ~ In (Some q) l end.
Definition bottom_of (l : list num) (t : num) : Prop :=
  match t with Some x => is_least l x | None => forall q, ~ In (Some q) l end.
(** the lesser of what is charged and what is left after discharging from the greatest charge *)
Definition charge_state (top c d x : num) : Prop :=
  match top, c, d with
  | Some t, Some c, Some d => exists q, x = Some q /\ q <= c /\ q <= t - d /\ (q == c \/ q == t - d)
  | _, _, _ => x = None
  end.
Definition difference (a b x : num) : Prop :=
  match a, b with Some a, Some b => exists q, x = Some q /\ q == a - b | _, _ => x = None end.
Definition total (a b x : num) : Prop :=
  match a, b with Some a, Some b => exists q, x = Some q /\ q == a + b | _, _ => x = None end.
(** a missing value takes the last known one before it or, if there is none, the first after it *)
Definition filled_at (l : list num) (k : nat) (x : num) : Prop :=
  (exists j v, (j <= k)%nat /\ nth_error l j = Some (Some v) /\ (forall m, (j < m <= k)%nat -> nth_error l m = Some None) /\ x = Some v) \/
  ((forall j, (j <= k)%nat -> nth_error l j = Some None) /\
   exists j v, (k < j)%nat /\ nth_error l j = Some (Some v) /\ (forall m, (m < j)%nat -> nth_error l m = Some None) /\ x = Some v) \/
  ((forall v, ~ In (Some v) l) /\ x = None).
Definition filled (l l' : list num) : Prop :=
  length l' = length l /\ forall k x, nth_error l' k = Some x -> filled_at l k x.
Definition zeroed (l l' : list num) : Prop :=
  Forall2 (fun a b => b = match a with Some x => Some x | None => Some 0 end) l l'.
Definition completed (impute : bool) (how : list num -> list num -> Prop) (l l' : list num) : Prop :=
  if impute then how l l' else l' = l.
Definition quantities (metric : string) : option ((drec -> num) * (drec -> num)) :=
  sget [("capacity", (q_qc, q_qd)); ("energy", (q_ec, q_ed)); ("dQdV", (q_dqc, q_dqd))]%string metric.
Definition plain (metric : string) : option (drec -> num) :=
  sget [("voltage", q_voltage); ("current", q_current); ("charge_capacity", q_qc); ("discharge_capacity", q_qd);
        ("charge_energy", q_ec); ("discharge_energy", q_ed); ("charge_dQdV", q_dqc); ("discharge_dQdV", q_dqd)]%string metric.
Definition is_image (impute : bool) (metric : string) (l : list drec) (v : list num) : Prop :=
  exists raw,
  if String.eqb metric "test_time" then
    exists start, bottom_of (map q_time l) start /\ Forall2 (fun r x => difference (q_time r) start x) l raw /\ completed impute zeroed raw v
  else
    match quantities metric with
    | Some (c, d) =>
        if String.eqb metric "dQdV" then Forall2 (fun r x => total (c r) (d r) x) l raw /\ completed impute zeroed raw v
        else exists top, top_of (map c l) top /\ Forall2 (fun r x => charge_state top (c r) (d r) x) l raw /\ completed impute filled raw v
    | None => exists f, plain metric = Some f /\ raw = map f l /\ v = raw
    end.
Definition usable (metric : string) : Prop := metric = "test_time"%string \/ quantities metric <> None \/ plain metric <> None.

(** ** Thresholds *)
(** the multiple of a hundredth nearest to [x] *)
Definition nearest_hundredth (x t : Q) : Prop := (exists z, t == inject_Z z / 100) /\ x - (1 # 200) <= t /\ t <= x + (1 # 200).
