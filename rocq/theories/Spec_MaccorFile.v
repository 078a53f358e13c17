(** Vocabulary for C116-C118: Maccor procedures as files. *)
From Verif Require Import Py Model_Procedure Spec_Arbin.

(** Names of fields, characters and texts of a procedure file. *)
Definition letters : list ascii := list_ascii_of_string "ABCDEFGHIJKLMNOPQRSTUVWXYZabcdefghijklmnopqrstuvwxyz_".
Definition name_letters : list ascii := letters ++ list_ascii_of_string "0123456789-.".
Definition field_name (s : string) : Prop := exists c r, s = String c r /\ In c letters /\ forall x, In x (list_ascii_of_string r) -> In x name_letters.
(** tab, line feed, and from blank to tilde *)
Definition text_char (c : ascii) : Prop := let n := nat_of_ascii c in n = 9%nat \/ n = 10%nat \/ (32 <= n <= 126)%nat.
Definition legal_text (s : string) : Prop := forall c, In c (list_ascii_of_string s) -> text_char c.
(** ... without blanks around it, as everything that was read from a file; the empty text is as good as nothing *)
Definition good_text (s : string) : Prop := legal_text s /\ no_blank_first s /\ no_blank_last s.

(** Fields hold nothing, a number, a text, fields again, or at least two of these: whatever was read from a file,
    with numbers put in. *)
Inductive shaped (text : string -> Prop) : val -> Prop :=
| shaped_none : shaped text VNone
| shaped_num q : shaped text (VNum q)
| shaped_text s : text s -> shaped text (VText s)
| shaped_dict d : d <> [] -> NoDup (map fst d) -> (forall k v, In (k, v) d -> field_name k /\ shaped_field text v) -> shaped text (VDict d)
with shaped_field (text : string -> Prop) : val -> Prop :=
| shaped_one v : shaped text v -> shaped_field text v
| shaped_many l : (2 <= length l)%nat -> (forall v, In v l -> shaped text v) -> shaped_field text (VList l).
Definition plain : val -> Prop := shaped good_text.
(** ... without empty texts *)
Definition filled : val -> Prop := shaped (fun s => good_text s /\ s <> ""%string).

(** The same with every number as its text, and nothing for an empty text. *)
Fixpoint as_read (show : val -> string) (v : val) : val :=
  match v with
  | VText "" => VNone
  | VNum q => VText (show v)
  | VDict d => VDict (map (fun kv => (fst kv, as_read show (snd kv))) d)
  | VList l => VList (map (as_read show) l)
  | _ => v
  end.

(** [t] is [s] in the middle of a field of [w] characters; an odd blank is on the right. *)
Fixpoint spaces (n : nat) : string := match n with O => "" | S n => String " " (spaces n) end.
Definition centred (w : nat) (s t : string) : Prop :=
  exists l r, t = (spaces l ++ s ++ spaces r)%string /\ (r = l \/ r = S l) /\ String.length t = Nat.max w (String.length s).
Definition left_aligned (w : nat) (s t : string) : Prop :=
  exists r, t = (s ++ spaces r)%string /\ String.length t = Nat.max w (String.length s).

(** What becomes of the fields of a step: same fields, these with blanks around their text. *)
Definition fields_padded (how : string -> val -> val -> Prop) (v f : val) : Prop :=
  exists d e, v = VDict d /\ f = VDict e /\ Forall2 (fun a b => fst a = fst b /\ how (fst a) (snd a) (snd b)) d e.
Definition text_centred (v f : val) : Prop := exists s t, v = VText s /\ f = VText t /\ centred 8 s t.
Definition end_field (k : string) (v f : val) : Prop :=
  if String.eqb k "EndType" then text_centred v f
  else if String.eqb k "SpecialType" then (v = VNone /\ f = VText " ") \/ (v <> VNone /\ f = v)
  else if String.eqb k "Oper" then (v = VNone /\ f = VNone) \/
         exists s t, v = VText s /\ f = VText t /\ (s = ""%string -> t = spaces 3) /\ (String.length s = 1%nat -> centred 3 s t) /\ ((2 <= String.length s)%nat -> left_aligned 3 s t)
  else f = v.
Definition report_field (k : string) (v f : val) : Prop := if String.eqb k "ReportType" then text_centred v f else f = v.
(** a field that holds one entry or several *)
Definition entry_field (name : string) (how : string -> val -> val -> Prop) (k : string) (v f : val) : Prop :=
  if String.eqb k name
  then (exists l m, v = VList l /\ f = VList m /\ Forall2 (fields_padded how) l m) \/
       ((forall l, v <> VList l) /\ fields_padded how v f)
  else f = v.
Definition step_field (k : string) (v f : val) : Prop :=
  if String.eqb k "StepType" then text_centred v f
  else if String.eqb k "StepMode" then (v = VNone /\ f = VText (spaces 8)) \/ text_centred v f
  else if String.eqb k "Ends" then (v = VNone /\ f = VNone) \/ fields_padded (entry_field "EndEntry" end_field) v f
  else if String.eqb k "Reports" then (v = VNone /\ f = VNone) \/ fields_padded (entry_field "ReportEntry" report_field) v f
  else f = v.
(** ... and of the procedure: its header stays, its steps are padded. *)
Definition below (key : string) (how : val -> val -> Prop) (k : string) (v f : val) : Prop := if String.eqb k key then how v f else f = v.
Definition procedure_padded : val -> val -> Prop :=
  fields_padded (below "MaccorTestProcedure" (fields_padded (below "ProcSteps" (fields_padded (below "TestStep" (fun v f =>
    exists l m, v = VList l /\ f = VList m /\ Forall2 (fields_padded step_field) l m)))))).

(** The procedures that can be written: a list of steps, each with the fields that are padded. *)
Definition has (d : list (string * val)) (k : string) (ok : val -> Prop) : Prop := exists v, sget d k = Some v /\ ok v.
Definition with_fields (req : list (string * (val -> Prop))) (v : val) : Prop := exists d, v = VDict d /\ forall k ok, In (k, ok) req -> has d k ok.
Definition a_text (v : val) : Prop := exists s, v = VText s.
Definition none_or (ok : val -> Prop) (v : val) : Prop := v = VNone \/ ok v.
Definition one_or_many (ok : val -> Prop) (v : val) : Prop := ((forall l, v <> VList l) /\ ok v) \/ exists l, v = VList l /\ forall x, In x l -> ok x.
Definition end_complete : val -> Prop := with_fields [("SpecialType", none_or a_text); ("EndType", a_text); ("Oper", none_or a_text)]%string.
Definition report_complete : val -> Prop := with_fields [("ReportType", a_text)]%string.
Definition step_complete : val -> Prop :=
  with_fields [("StepType", a_text); ("StepMode", none_or a_text);
               ("Ends", none_or (with_fields [("EndEntry", one_or_many end_complete)]));
               ("Reports", none_or (with_fields [("ReportEntry", one_or_many report_complete)]))]%string.
Definition procedure_of (header : list (string * val)) (steps : list val) : val :=
  VDict [("MaccorTestProcedure", VDict (header ++ [("ProcSteps", VDict [("TestStep", VList steps)])]))]%string.

(** The lines of a file: two blanks for each level; nothing as a pair of tags, or as one tag for the three fields that
    Maccor abbreviates. *)
Definition abbreviated : list string := ["Limits"; "Reports"; "Ends"]%string.
Definition margin (d : nat) : string := spaces (2 * d).
Definition marked (c : ascii) : string :=
  if Ascii.eqb c "&" then "&amp;" else if Ascii.eqb c "<" then "&lt;" else if Ascii.eqb c ">" then "&gt;" else String c "".
Definition marked_text (s : string) : string := String.concat "" (map marked (list_ascii_of_string s)).
Definition empty (v : val) : Prop := v = VNone \/ v = VText "".
Inductive lines (show : val -> string) : nat -> string -> val -> list string -> Prop :=
| lines_none_short d k v : empty v -> In k abbreviated -> lines show d k v [(margin d ++ "<" ++ k ++ "/>")%string]
| lines_none d k v : empty v -> ~ In k abbreviated -> lines show d k v [(margin d ++ "<" ++ k ++ "></" ++ k ++ ">")%string]
| lines_text d k s : s <> ""%string -> lines show d k (VText s) [(margin d ++ "<" ++ k ++ ">" ++ marked_text s ++ "</" ++ k ++ ">")%string]
| lines_num d k q : lines show d k (VNum q) [(margin d ++ "<" ++ k ++ ">" ++ marked_text (show (VNum q)) ++ "</" ++ k ++ ">")%string]
| lines_dict d k e ls : fields_lines show (S d) e ls ->
    lines show d k (VDict e) ((margin d ++ "<" ++ k ++ ">") :: ls ++ [margin d ++ "</" ++ k ++ ">"])%string
with fields_lines (show : val -> string) : nat -> list (string * val) -> list string -> Prop :=
| fields_none d : fields_lines show d [] []
| fields_one d k v e a b : lines show d k v a -> fields_lines show d e b -> fields_lines show d ((k, v) :: e) (a ++ b)
| fields_many d k l e a b : each_lines show d k l a -> fields_lines show d e b -> fields_lines show d ((k, VList l) :: e) (a ++ b)
with each_lines (show : val -> string) : nat -> string -> list val -> list string -> Prop :=
| each_none d k : each_lines show d k [] []
| each_some d k v l a b : lines show d k v a -> each_lines show d k l b -> each_lines show d k (v :: l) (a ++ b).

(** Numbers print as texts. *)
Definition prints (show : val -> string) : Prop := forall q, good_text (show (VNum q)) /\ show (VNum q) <> ""%string.

(** A procedure that can be written: exactly one root with at least the steps, a list of complete ones. *)
Definition steps_complete (v : val) : Prop := exists l, v = VList l /\ forall x, In x l -> step_complete x.
Definition complete (p : val) : Prop :=
  exists root, p = VDict [("MaccorTestProcedure"%string, root)] /\ with_fields [("ProcSteps"%string, with_fields [("TestStep"%string, steps_complete)])] root.
(** The lines of its file. *)
Definition file_lines (show : val -> string) (f : val) (ls : list string) : Prop :=
  exists root body, f = VDict [("MaccorTestProcedure"%string, root)] /\ lines show 0 "MaccorTestProcedure" root body /\
    ls = ["<?xml version=""1.0"" encoding=""UTF-8""?>"%string; "<?maccor-application progid=""Maccor Procedure File""?>"%string] ++ body ++ [""%string].

(** All fields have names as above. *)
Inductive named : val -> Prop :=
| named_none : named VNone
| named_num q : named (VNum q)
| named_text s : named (VText s)
| named_dict d : (forall k v, In (k, v) d -> field_name k /\ named v) -> named (VDict d)
| named_list l : (forall v, In v l -> named v) -> named (VList l).
(** A file of such characters, with the line ends of any system. *)
Definition plain_file (s : string) : Prop := forall c, In c (list_ascii_of_string s) -> text_char c \/ nat_of_ascii c = 13%nat.
