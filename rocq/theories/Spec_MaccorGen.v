(** Vocabulary for C119: the files of generated procedures. *)
From Verif Require Import Py Model_Procedure Model_Waveform Model_Generate Spec_MaccorFile.

(** Texts of visible characters, without blanks. *)
Definition visible (s : string) : Prop := forall c, In c (list_ascii_of_string s) -> (33 <= nat_of_ascii c <= 126)%nat.
(** Steps that can be written into a file: at least two, each with the fields a step has. *)
Definition writable_steps (p : steps) : Prop := (2 <= length p)%nat /\ forall s, In s p -> plain s /\ step_complete s.
(** What the table says about one cell: numbers or texts, names without blanks. *)
Definition good_row (r : row) : Prop :=
  plain (cutoff_voltage r) /\ plain (charge_rate r) /\ plain (discharge_rate r) /\
  visible (project_name r) /\ visible (charge_type_1 r) /\ visible (discharge_profile r).
(** The header of a procedure. *)
Definition good_header (h : list (string * val)) : Prop :=
  NoDup (map fst h) /\ ~ In "ProcSteps"%string (map fst h) /\ forall k v, In (k, v) h -> field_name k /\ shaped_field good_text v.
(** The header of all templates. *)
Definition shipped_header : list (string * val) :=
  [("header", VDict [("BuildTestVersion", VDict [("major", VText "1"); ("minor", VText "5"); ("release", VText "7006"); ("build", VText "32043")]);
                     ("FileFormatVersion", VDict [("BTVersion", VText "11")]); ("ProcDesc", VDict [("desc", VNone)])])]%string.
