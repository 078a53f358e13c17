(** Model of the Maccor procedure file that beep/protocol/biologic_mb_to_maccor.py writes for the steps it made. *)
From Verif Require Import Py Model_Arbin Model_Procedure Model_MaccorFile Model_B2M.

(** An element with the fields of a template, filled in.  Simplification: the templates are written out here.
    beep/protocol/biologic_mb_to_maccor.py:374, 245 and 404-453; beep/protocol/procedure_templates/maccor_schemas.yaml:30-37;
    the loop count is a field the template does not have, so it comes last (259) *)
Definition end_val (e : bend) : val :=
  VDict ([("EndType", VText (be_type e)); ("SpecialType", VText " "); ("Oper", VText (be_oper e)); ("Step", VText (be_step e)); ("Value", VText (be_value e))]%string
         ++ match be_stepvalue e with Some t => [("StepValue"%string, VText t)] | None => [] end).
(** beep/protocol/biologic_mb_to_maccor.py:475-507; beep/protocol/procedure_templates/maccor_schemas.yaml:39-42 *)
Definition report_val (r : brep) : val := VDict [("ReportType", VText (br_type r)); ("Value", VText (br_value r))]%string.
(** beep/protocol/biologic_mb_to_maccor.py:455-458 and 510-514: a step without entries keeps the empty text of the template.
    Simplification: the entry of a loop (262) is put in a list too; xmltodict.unparse writes a list of one as its element. *)
Definition entries_val (name : string) (l : list val) : val := match l with [] => VText "" | _ => VDict [(name, VList l)] end.
(** beep/protocol/biologic_mb_to_maccor.py:241-516; beep/protocol/procedure_templates/maccor_schemas.yaml:16-28 *)
Definition step_val (s : bstep) : val :=
  VDict [("StepType", VText (bs_type s)); ("StepMode", VText (bs_mode s)); ("StepValue", VText (bs_value s)); ("Limits", VText "");
         ("Ends", entries_val "EndEntry" (map end_val (bs_ends s))); ("Reports", entries_val "ReportEntry" (map report_val (bs_reports s)));
         ("Range", VText ""); ("Option1", VText ""); ("Option2", VText ""); ("Option3", VText ""); ("StepNote", VText "")]%string.
(** beep/protocol/procedure_templates/maccor_schemas.yaml:1-14 *)
Definition default_header : val :=
  VDict [("BuildTestVersion", VDict [("major", VText "1"); ("minor", VText "5"); ("release", VText "7006"); ("build", VText "32043")]);
         ("FileFormatVersion", VDict [("BTVersion", VText "11")]);
         ("ProcDesc", VDict [("desc", VText "")])]%string.
(** beep/protocol/biologic_mb_to_maccor.py:93-95; beep/protocol/procedure_templates/maccor_schemas.yaml:44-49 *)
Definition body_val (header : val) (steps : list bstep) : val :=
  VDict [("header", header); ("ProcSteps", VDict [("TestStep", VList (map step_val steps))])]%string.

Section Write.
  (** str() of numbers in a header, and of a list inside a list (for [emit_crlf], beep/protocol/biologic_mb_to_maccor.py:98-100) *)
  Variable show : val -> string.
  (** beep/protocol/biologic_mb_to_maccor.py:97-100, one element of xmltodict.unparse(pretty=True, newl="\r\n") *)
  Definition element_crlf (depth : nat) (key body : string) : string :=
    (indent depth ++ "<" ++ key ++ ">" ++ body ++ "</" ++ key ++ ">" ++ (if (depth =? 0)%nat then "" else crlf))%string.
  (** beep/protocol/biologic_mb_to_maccor.py:98-100, xmltodict.unparse below one key.  Simplification: as [emit] *)
  Fixpoint emit_crlf (depth : nat) (key : string) (v : val) {struct v} : string :=
    element_crlf depth key
      match v with
      | VNone => ""
      | VText s => escape s
      | VNum _ | VList _ => escape (show v)
      | VDict d =>
          let children := map (fun kv : string * val => let (k, w) := kv in
                                         match w with
                                         | VList l => String.concat "" (map (emit_crlf (S depth) k) l)
                                         | _ => emit_crlf (S depth) k w
                                         end) d in
          match d with
          | [] => ""
          | _ => (crlf ++ String.concat "" children ++ indent depth)%string
          end
      end.
  (** beep/protocol/biologic_mb_to_maccor.py:98-100: the declaration of xmltodict.unparse(encoding="utf-8"); the line end after it is
      written by xml.sax.saxutils.XMLGenerator, whatever newl is *)
  Definition unparsed (root : val) : string :=
    ("<?xml version=""1.0"" encoding=""utf-8""?>" ++ String nl "" ++ emit_crlf 0 "MaccorTestProcedure" root)%string.
  (** beep/protocol/biologic_mb_to_maccor.py:105: what the pattern ^[^\r^\n]* leaves; the second ^ stands for itself *)
  Fixpoint after_line (s : string) : string :=
    match s with
    | EmptyString => EmptyString
    | String c r => if Ascii.eqb c cr || Ascii.eqb c nl || Ascii.eqb c "^" then s else after_line r
    end.
  (** beep/protocol/biologic_mb_to_maccor.py:93-111, for the steps that were made *)
  Definition steps_to_xml (header : val) (steps : list bstep) : string :=
    (("<?xml version=""1.0"" encoding=""UTF-8""?>" ++ crlf ++ "<?maccor-application progid=""Maccor Procedure File""?>")
     ++ after_line (fixup_empty_elements (unparsed (body_val header steps))) ++ crlf)%string.
  (** beep/protocol/biologic_mb_to_maccor.py:85-111 biologic_mb_text_to_maccor_xml, from the sequences on.  [show_float] is str() of a float. *)
  Definition seqs_to_xml (show_float : Q -> string) (header : val) (seqs : list bseq) : result string :=
    let! steps := create_steps show_float seqs in Ok (steps_to_xml header steps).
End Write.
