(** Vocabulary for C38, C39, C67, C68: nested settings. *)
From Verif Require Import Py Spec_Numeral Model_Arbin.

(** The setting at a path of keys. *)
Inductive holds : node -> list string -> string -> Prop :=
| holds_leaf v : holds (Leaf v) [] v
| holds_in kvs k n p v : In (k, n) kvs -> holds n p v -> holds (Dict kvs) (k :: p) v.

Definition avoids (cs : list ascii) (s : string) : Prop := forall c, In c (list_ascii_of_string s) -> ~ In c cs.
(** characters str.strip removes *)
Definition blanks : list ascii := map ascii_of_nat [9; 10; 11; 12; 13; 28; 29; 30; 31; 32; 133; 160]%nat.
Definition no_blank_first (s : string) : Prop := forall c r, s = String c r -> ~ In c blanks.
Definition no_blank_last (s : string) : Prop := forall a c, s = (a ++ String c "")%string -> ~ In c blanks.
Definition section_name (s : string) : Prop := s <> ""%string /\ avoids ["["; "]"; "_"; "."; cr; nl]%char s.
Definition setting_name (s : string) : Prop := avoids ["["; "]"; "="; cr; nl]%char s /\ no_blank_first s.
Definition setting_value (s : string) : Prop := avoids ["["; "]"; cr; nl]%char s /\ no_blank_last s.

(** A section: distinct names, at least one setting of its own, sections in it likewise. *)
Inductive tidy : list (string * node) -> Prop :=
| tidy_section kvs :
    NoDup (map fst kvs) -> (exists k v, In (k, Leaf v) kvs) ->
    (forall k v, In (k, Leaf v) kvs -> setting_name k /\ setting_value v) ->
    (forall k sub, In (k, Dict sub) kvs -> section_name k /\ tidy sub) -> tidy kvs.
(** A schedule consists of sections. *)
Definition tidy_schedule (kvs : list (string * node)) : Prop :=
  NoDup (map fst kvs) /\ forall k n, In (k, n) kvs -> section_name k /\ exists sub, n = Dict sub /\ tidy sub.
(** Own settings come before inner sections, at every level. *)
Inductive ordered : list (string * node) -> Prop :=
| ordered_section ls ds :
    (forall k n, In (k, n) ls -> exists v, n = Leaf v) ->
    (forall k n, In (k, n) ds -> exists sub, n = Dict sub /\ ordered sub) -> ordered (ls ++ ds).

(** A dictionary has each key once. *)
Inductive distinct : node -> Prop :=
| distinct_leaf v : distinct (Leaf v)
| distinct_dict kvs : NoDup (map fst kvs) -> Forall (fun kv => distinct (snd kv)) kvs -> distinct (Dict kvs).
(** [s'] is [s] with the settings [new], which replace what was at or below their paths. *)
Definition updates (s : node) (new : list string -> string -> Prop) (s' : node) : Prop :=
  forall p v, holds s' p v <-> new p v \/ (holds s p v /\ ~ exists q r w, new q w /\ p = q ++ r).
(** The steps of a schedule in order; their names contain no dot. *)
Definition steps_are (s : node) (names : list string) : Prop :=
  exists kvs steps, s = Dict kvs /\ In ("Schedule"%string, Dict steps) kvs /\ names = map fst steps.
Definition plain_names (names : list string) : Prop := Forall (avoids ["."]%char) names.
Definition labelled (s : node) (label k : string) : Prop := holds s ["Schedule"; k; "m_szLabel"]%string label.
Definition first_labelled (s : node) (names : list string) (label k : string) : Prop :=
  exists a b, names = a ++ k :: b /\ labelled s label k /\ forall j, In j a -> ~ labelled s label j.
(** [l] is a limit of step [k]. *)
Definition limit_section (s : node) (k l : string) (sub : list (string * node)) : Prop :=
  String.prefix "Limit" l = true /\ exists kvs steps step, s = Dict kvs /\ In ("Schedule"%string, Dict steps) kvs /\ In (k, Dict step) steps /\ In (l, Dict sub) step.
(** The limits of step [k] have no sections in them, say whether they stop the step and, if so, on what. *)
Definition limits_complete (s : node) (k : string) : Prop :=
  forall l sub, limit_section s k l sub -> avoids ["."]%char l /\
    (forall x n, In (x, n) sub -> exists v, n = Leaf v) /\
    (exists v, In ("m_bStepLimit"%string, Leaf v) sub) /\
    (In ("m_bStepLimit"%string, Leaf "1") sub -> exists v, In ("Equation0_szLeft"%string, Leaf v) sub).
(** ... it stops the step on [var]. *)
Definition stops_on (s : node) (k l var : string) : Prop :=
  String.prefix "Limit" l = true /\ holds s ["Schedule"; k; l; "m_bStepLimit"]%string "1" /\ holds s ["Schedule"; k; l; "Equation0_szLeft"]%string var.
(** [t] shows [x] to three decimals *)
Definition to_three_decimals (t : string) (x : Q) : Prop := exists y, decimal t y /\ Qabs (y - x) <= 1 # 2000.
