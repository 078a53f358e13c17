(** C142: the Maccor procedure file made from a Biologic Modulo Bat file. *)
From Verif Require Import Py Model_Arbin Spec_Arbin Model_Procedure Model_MaccorFile Spec_MaccorFile Model_B2M.
Local Open Scope string_scope.

(** from blank to tilde *)
Definition printable (s : string) : Prop := forall c, In c (list_ascii_of_string s) -> (32 <= nat_of_ascii c <= 126)%nat.
Definition printable_end (e : bend) : Prop :=
  printable (be_type e) /\ printable (be_oper e) /\ printable (be_value e) /\ printable (be_step e) /\ forall t, be_stepvalue e = Some t -> printable t.
Definition printable_report (r : brep) : Prop := printable (br_type r) /\ printable (br_value r).
Definition printable_step (s : bstep) : Prop :=
  printable (bs_type s) /\ printable (bs_mode s) /\ printable (bs_value s) /\ Forall printable_end (bs_ends s) /\ Forall printable_report (bs_reports s).
(** Headers: texts of one line, numbers that print on one line. *)
Definition line_header (h : val) : Prop := shaped (fun s => good_text s /\ printable s) h.
Definition prints_line (show : val -> string) : Prop := prints show /\ forall q, printable (show (VNum q)).

(** What a text is read as: without the blanks around it, and nothing at all if there is nothing else. *)
Definition told (s : string) (v : val) : Prop :=
  (v = VNone /\ exists n, s = spaces n) \/
  exists l t r, s = spaces l ++ t ++ spaces r /\ t <> "" /\ no_blank_first t /\ no_blank_last t /\ v = VText t.
(** One entry stands for itself, several are a list; [text] says what becomes of a text. *)
Definition several {A} (name : string) (R : A -> val -> Prop) (l : list A) (v : val) : Prop :=
  (exists x w, l = [x] /\ R x w /\ v = VDict [(name, w)]) \/
  (exists ws, (2 <= length l)%nat /\ Forall2 R l ws /\ v = VDict [(name, VList ws)]).
Definition any {A} (text : string -> val -> Prop) (name : string) (R : A -> val -> Prop) (l : list A) (v : val) : Prop := (l = [] /\ text "" v) \/ several name R l v.
(** A field and the text that belongs there. *)
Definition fields (text : string -> val -> Prop) (l : list (string * string)) (d : list (string * val)) : Prop :=
  Forall2 (fun a b => fst a = fst b /\ text (snd a) (snd b)) l d.
Definition end_as (text : string -> val -> Prop) (e : bend) (v : val) : Prop :=
  exists d, v = VDict d /\
    fields text ([("EndType", be_type e); ("SpecialType", " "); ("Oper", be_oper e); ("Step", be_step e); ("Value", be_value e)]
                 ++ match be_stepvalue e with None => [] | Some t => [("StepValue", t)] end)%list d.
Definition report_as (text : string -> val -> Prop) (r : brep) (v : val) : Prop :=
  exists d, v = VDict d /\ fields text [("ReportType", br_type r); ("Value", br_value r)] d.
Definition step_as (text : string -> val -> Prop) (s : bstep) (v : val) : Prop :=
  exists a en re b, v = VDict (a ++ [("Ends", en); ("Reports", re)] ++ b) /\
    fields text [("StepType", bs_type s); ("StepMode", bs_mode s); ("StepValue", bs_value s); ("Limits", "")] a /\
    any text "EndEntry" (end_as text) (bs_ends s) en /\ any text "ReportEntry" (report_as text) (bs_reports s) re /\
    fields text [("Range", ""); ("Option1", ""); ("Option2", ""); ("Option3", ""); ("StepNote", "")] b.
(** The procedure with a header and steps. *)
Definition procedure_as (text : string -> val -> Prop) (header : val) (steps : list bstep) (v : val) : Prop :=
  exists w, several "TestStep" (step_as text) steps w /\ v = VDict [("header", header); ("ProcSteps", w)].
(** a text as it stands *)
Definition verbatim (s : string) (v : val) : Prop := v = VText s.

(** A text in which every line end is a carriage return followed by a line feed. *)
Definition crlf_lines (s : string) : Prop := exists ls, (forall l, In l ls -> ~ In nl (list_ascii_of_string l)) /\ s = String.concat "" (map (fun l => l ++ String cr (String nl "")) ls).
(** The text of lines that end so. *)
Definition ended (l : string) : string := l ++ String cr (String nl "").
(** A sequence whose set value is printable: the only text of a sequence that is copied as it stands. *)
Definition printable_value (d : bseq) : Prop := forall v, fld d "ctrl1_val" = Ok v -> printable v.
