(** Vocabulary for C44, C74, C75, C76. *)
From Verif Require Import Py Model_Waveform.

(** The file second by second. *)
Definition expand (segs : list segment) : list segment := flat_map (fun s => repeat s (sg_duration s)) segs.
Definition is_peak (m : Q) (l : list Q) : Prop := (exists x, In x l /\ Qabs x == m) /\ forall x, In x l -> Qabs x <= m.
(** [s] carries the sample [x], scaled so that [peak] becomes [scale], to five decimals *)
Definition carries (peak scale x : Q) (s : segment) : Prop :=
  (0 < x -> sg_state s = "C"%string) /\ (x <= 0 -> sg_state s = "D"%string) /\
  exists m, sg_value s = Some m /\ Qabs (m - Qabs x * scale / peak) <= 5 # 1000000.
(** how often the waveform changes *)
Fixpoint changes (l : list Q) : nat :=
  match l with a :: ((b :: _) as r) => ((if Qeq_bool a b then 0 else 1) + changes r)%nat | _ => 0%nat end.
Definition samples_of (w : wave) (l : list Q) : Prop := wv_power w = Some l \/ wv_power w = None /\ wv_current w = Some l.
(** every sample has a time *)
Definition timed (w : wave) (l : list Q) : Prop := length (wv_time w) = length l /\ forall t, In t (wv_time w) -> t <> None.
Definition limits_kept (cfg : mwf_config) (s : segment) : Prop :=
  (sg_state s = "C"%string -> sg_limit_mode s = charge_limit_mode cfg /\ sg_limit_value s = charge_limit_value cfg /\
     sg_end_mode s = charge_end_mode cfg /\ sg_operation s = charge_end_operation cfg /\ sg_end_value s = charge_end_mode_value cfg) /\
  (sg_state s = "D"%string -> sg_limit_mode s = discharge_limit_mode cfg /\ sg_limit_value s = discharge_limit_value cfg /\
     sg_end_mode s = discharge_end_mode cfg /\ sg_operation s = discharge_end_operation cfg /\ sg_end_value s = discharge_end_mode_value cfg) /\
  sg_report_mode s = report_mode cfg /\ sg_report_value s = report_value cfg /\ sg_range s = range cfg.
(** calls one after another: the configuration they leave behind *)
Fixpoint after (g : mwf_config) (calls : list (list (Q * Q) * driving_params)) : mwf_config :=
  match calls with [] => g | (p, d) :: r => after (fst (insert_driving_parametersv1 g p d)) r end.
Fixpoint increasing (l : list Q) : Prop := match l with a :: ((b :: _) as r) => a < b /\ increasing r | _ => True end.
(** window [i] of the mesh is from [a] to [b] *)
Definition window (mesh : list Q) (i : nat) (a b : Q) : Prop := nth_error mesh i = Some a /\ nth_error mesh (S i) = Some b.
(** rows of two tables agree *)
Definition same_row (a b : Q * Q) : Prop := fst a == fst b /\ snd a == snd b.
(** times go forward *)
Definition forward (l : list (Q * Q)) : Prop := increasing (map fst l).
(** force of a 1500 kg vehicle at speed [v] and acceleration [a]: inertia, rolling resistance and drag *)
Definition force (a v : Q) : Q := 1500 * a + 147 + (1 # 2) * (1225 # 1000) * (34 # 100) * (175 # 100) * (v * v).
