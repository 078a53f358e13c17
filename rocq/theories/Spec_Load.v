(** File name patterns, stated without regular expressions. *)
From Verif Require Import Py Model_Load.

(** The usual meaning of a regular expression. *)
Inductive matches : re -> string -> Prop :=
| m_eps : matches REps ""
| m_chr p c : p c = true -> matches (RChr p) (String c "")
| m_seq a b s t : matches a s -> matches b t -> matches (RSeq a b) (s ++ t)
| m_alt_l a b s : matches a s -> matches (RAlt a b) s
| m_alt_r a b s : matches b s -> matches (RAlt a b) s
| m_star_0 a : matches (RStar a) ""
| m_star_1 a s t : matches a s -> matches (RStar a) t -> matches (RStar a) (s ++ t).

Definition digit (c : ascii) : Prop := (48 <= nat_of_ascii c <= 57)%nat.
Fixpoint all_chars (P : ascii -> Prop) (s : string) : Prop :=
  match s with EmptyString => True | String c s' => P c /\ all_chars P s' end.
Definition one_line (s : string) : Prop := all_chars (fun c => c <> ascii_of_nat 10) s.
(** [a] occurs in the name, and later (not overlapping) [b] does. *)
Definition then_occurs (a b name : string) : Prop :=
  exists x y z, (name = x ++ a ++ y ++ b ++ z)%string /\ one_line x /\ one_line y.
Definition occurs (a name : string) : Prop := exists x z, (name = x ++ a ++ z)%string /\ one_line x.
(** Five digits in a row, and later three digits in a row. *)
Definition maccor_digits (name : string) : Prop :=
  exists x d y e z, (name = x ++ d ++ y ++ e ++ z)%string /\ one_line x /\ one_line y /\
    String.length d = 5%nat /\ String.length e = 3%nat /\ all_chars digit d /\ all_chars digit e.

Definition names (l : loader) (name : string) : Prop :=
  match l with
  | Arbin => then_occurs "CH" ".csv" name \/ then_occurs "FastCharge" ".csv" name
  | Maccor => maccor_digits name \/ then_occurs "xTESLADIAG" ".csv" name
  | Indigo => occurs ".h5" name
  | Biologic => (then_occurs "_C" ".txt" name \/ then_occurs "_C" ".csv" name) /\ ~ occurs "_CH" name
  | Neware => then_occurs "neware" ".csv" name
  | BatteryArchive => occurs "timeseries.csv" name
  end.
Definition priority : list loader := [Arbin; Maccor; Indigo; Biologic; Neware; BatteryArchive].
(** [l] is the first loader in the priority order that the name belongs to. *)
Definition first_named (l : loader) (name : string) : Prop :=
  exists before after, priority = before ++ l :: after /\ names l name /\ forall l', In l' before -> ~ names l' name.
