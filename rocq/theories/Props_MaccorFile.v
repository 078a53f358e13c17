(** C116-C119: Maccor procedure files. *)
From Verif Require Import Py Num Model_Text Model_Arbin Model_Procedure Model_Waveform Model_Generate Model_MaccorFile Spec_MaccorFile Spec_MaccorGen Proofs_MaccorFile_File Proofs_MaccorFile_Lines Proofs_MaccorFile_Plain Proofs_MaccorFile_Gen Proofs_MaccorFile_Check.
From Verif Require Import Template_V2 Template_V3 Template_V4 Template_V5 Template_Driving Template_EXP File_V2 File_V3 File_V4 File_V5 File_Driving File_EXP.
Local Open Scope string_scope.

(** C116: a procedure with the fields the steps need is written, and the file is read as the same procedure, its numbers
    as texts and its empty texts as None. *)
Theorem C116_round_trip : forall show p, prints show -> plain p -> complete p ->
  exists text, to_file show p = Ok text /\ from_file text = Ok (as_read show p).
Proof. intros show p P A B. destruct (written show P p A B) as (text & _ & _ & _ & _ & _ & _ & W & _ & R). exists text. split; assumption. Qed.
(** C116: what was read from a file is the same after saving and reading it again. *)
Theorem C116_saved_again : forall show text p, prints show -> plain_file text -> from_file text = Ok p -> named p -> complete p ->
  exists text', to_file show p = Ok text' /\ from_file text' = Ok p.
Proof. intros show text p P. exact (resaved show P text p). Qed.
(** C116: the shipped templates are read as the procedures with the steps of the other models, and written as they were
    shipped, up to the line ends. *)
Theorem C116_shipped : forall ends ls t, In (ends, ls, t) [(crlf, file_v2, template_v2); (crlf, file_v3, template_v3); (crlf, file_v4, template_v4); (crlf, file_v5, template_v5); (String nl "", file_driving, template_driving); (String nl "", file_exp, template_exp)] ->
  from_file (join ends ls) = Ok (procedure_of shipped_header t) /\ forall show, to_file show (procedure_of shipped_header t) = Ok (join (String nl "") ls).
Proof.
  intros ends ls t [E|[E|[E|[E|[E|[E|[]]]]]]]; injection E as <- <- <-.
  - exact (conj read_v2 write_v2).
  - exact (conj read_v3 write_v3).
  - exact (conj read_v4 write_v4).
  - exact (conj read_v5 write_v5).
  - exact (conj read_driving write_driving).
  - exact (conj read_exp write_exp).
Qed.
(** Texts with blanks around them, and lists of one entry, do not come back. *)
Theorem C116_blanks_refuted : exists show p text, prints show /\ complete p /\ to_file show p = Ok text /\ from_file text <> Ok (as_read show p).
Proof.
  exists (fun _ => "0"), (VDict [("MaccorTestProcedure", VDict [("Name", VText " x"); ("ProcSteps", VDict [("TestStep", VList [])])])]). eexists. split; [intro q; split; [apply good_textb_ok; reflexivity|discriminate]|]. split.
  - eexists. split; [reflexivity|]. eexists. split; [reflexivity|]. intros k ok [E|[]]. injection E as <- <-. eexists. split; [reflexivity|]. eexists. split; [reflexivity|]. intros k ok [E|[]]. injection E as <- <-.
    eexists. split; [reflexivity|]. eexists. split; [reflexivity|]. intros x [].
  - split; [vm_compute; reflexivity|]. vm_compute. discriminate.
Qed.
Theorem C116_single_entry_refuted : exists show p text, prints show /\ complete p /\ to_file show p = Ok text /\ from_file text <> Ok (as_read show p).
Proof.
  exists (fun _ => "0"), (VDict [("MaccorTestProcedure", VDict [("Note", VList [VText "x"]); ("ProcSteps", VDict [("TestStep", VList [])])])]). eexists. split; [intro q; split; [apply good_textb_ok; reflexivity|discriminate]|]. split.
  - eexists. split; [reflexivity|]. eexists. split; [reflexivity|]. intros k ok [E|[]]. injection E as <- <-. eexists. split; [reflexivity|]. eexists. split; [reflexivity|]. intros k ok [E|[]]. injection E as <- <-.
    eexists. split; [reflexivity|]. eexists. split; [reflexivity|]. intros x [].
  - split; [vm_compute; reflexivity|]. vm_compute. discriminate.
Qed.
(** A procedure of two steps with everything in it. *)
Definition some_step : val := VDict [("StepType", VText "Charge"); ("StepMode", VNone); ("StepValue", VNum (1 # 2)); ("Limits", VNone);
  ("Ends", VDict [("EndEntry", VList [VDict [("EndType", VText "Voltage"); ("SpecialType", VNone); ("Oper", VText ">="); ("Step", VText "002")]; VDict [("EndType", VText "x < y & z"); ("SpecialType", VNone); ("Oper", VText "=")]])]);
  ("Reports", VDict [("ReportEntry", VDict [("ReportType", VText "StepTime")])]); ("Range", VText "")].
Definition some_procedure : val := procedure_of shipped_header [some_step; some_step].
Definition some_show (_ : val) : string := "0.5".
Example C116_example : prints some_show /\ plain some_procedure /\ complete some_procedure /\
  exists text, to_file some_show some_procedure = Ok text /\ contains "      <StepType> Charge </StepType>" text = true /\ contains "<Oper>>= </Oper>" text = false /\ contains "<Oper>&gt;= </Oper>" text = true /\
    contains "          <EndType>x &lt; y &amp; z</EndType>" text = true /\ contains "      <Limits/>" text = true /\ contains "<Range></Range>" text = true.
Proof.
  split; [intro q; split; [apply good_textb_ok; reflexivity|discriminate]|].
  assert (W : writable_steps [some_step; some_step]) by (apply writable_by; vm_compute; reflexivity). destruct (header_steps _ _ shipped_header_good W) as [A B].
  split; [exact A|]. split; [exact B|]. eexists. split; [vm_compute; reflexivity|]. repeat split; vm_compute; reflexivity.
Qed.
Example C116_read_example : exists p, from_file (join crlf file_exp) = Ok p /\ plain_file (join crlf file_exp) /\ filled p /\ complete p.
Proof.
  assert (W : from_file (join crlf file_exp) = Ok (procedure_of shipped_header template_exp)) by (vm_compute; reflexivity).
  assert (PF : plain_file (join crlf file_exp)).
  { assert (F : forallb (fun c => text_charb c || (nat_of_ascii c =? 13)%nat) (list_ascii_of_string (join crlf file_exp)) = true) by (vm_compute; reflexivity).
    intros c C. rewrite forallb_forall in F. specialize (F c C). apply orb_prop in F. destruct F as [F|F]; [left|right; apply Nat.eqb_eq, F].
    unfold text_charb in F. unfold text_char. rewrite !orb_true_iff, andb_true_iff, !Nat.leb_le, !Nat.eqb_eq in F. lia. }
  destruct (header_steps _ _ shipped_header_good (shipped_writable template_exp ltac:(cbn; tauto))) as [A B].
  exists (procedure_of shipped_header template_exp). split; [exact W|]. split; [exact PF|]. split; [|exact B]. refine (read_filled _ _ PF W _). exact (plain_named _ A).
Qed.

(** C117: the file has two lines of declarations, then one line for each field and two for each group of fields, two
    blanks further to the right for each level.  Nothing is a pair of tags, or one tag for Limits, Reports and Ends.
    Only the step type and mode, the types of ends and reports, special types and operators get blanks: to 8 characters
    in the middle, operators to 3, an absent mode 8 blanks and an absent special type one. *)
Theorem C117_layout : forall show p, prints show -> plain p -> complete p ->
  exists text f ls, to_file show p = Ok text /\ procedure_padded p f /\ file_lines show f ls /\ text = join (String nl "") ls.
Proof. intros show p P. exact (laid_out show P p). Qed.

(** C118: saving what was read gives the same file again. *)
Theorem C118_same_file : forall show p, prints show -> filled p -> complete p ->
  exists text, to_file show p = Ok text /\ from_file text = Ok (as_read show p) /\ to_file show (as_read show p) = Ok text.
Proof. intros show p P. exact (again show P p). Qed.
Example C118_example : exists p, filled p /\ complete p.
Proof. destruct C116_read_example as (p & _ & _ & F & C). exists p. split; assumption. Qed.
(** A procedure of a single step can be read but not saved: to_file raises TypeError. *)
Theorem C118_single_step_refuted : forall show header step, good_header header -> step <> [] ->
  to_file show (VDict [("MaccorTestProcedure", VDict (header ++ [("ProcSteps", VDict [("TestStep", VDict step)])])%list)]) = Err TypeError.
Proof. intros show header step (_ & NI & _). apply single_step. exact NI. Qed.
Example C118_single_step_is_read : exists text, from_file text = Ok (VDict [("MaccorTestProcedure", VDict (shipped_header ++ [("ProcSteps", VDict [("TestStep", VDict [("StepType", VText "End"); ("StepMode", VNone); ("Ends", VNone); ("Reports", VNone)])])])%list)]).
Proof.
  exists (join (String nl "") (firstn 18 file_exp ++ ["<TestStep><StepType>  End   </StepType><StepMode></StepMode><Ends/><Reports/></TestStep>"; "</ProcSteps></MaccorTestProcedure>"])%list). vm_compute. reflexivity.
Qed.

(** C119: every procedure in the files after generating protocols was there before or can be written and read back,
    if the templates can, whatever the parameters, and even if the generation stops with an exception. *)
Theorem C119_generated : forall templates formation with_diagnostics diagnostics profiles charging_wave out names_file rows w w' x,
  (forall name t, templates name = Some t -> writable_steps t) -> visible out -> Forall good_row rows ->
  generate_protocol_files_from_csv templates formation with_diagnostics diagnostics profiles charging_wave out names_file rows w = (w', x) ->
  forall path p, sget (files w') path = Some (CProcedure p) -> sget (files w) path = Some (CProcedure p) \/
    forall show header, prints show -> good_header header ->
      exists text, to_file show (procedure_of header p) = Ok text /\ from_file text = Ok (as_read show (procedure_of header p)).
Proof.
  intros templates formation wd diags profiles wave out names_file rows w w' x T V G E path p S.
  destruct (generated_sound templates formation wd diags profiles wave out T V names_file rows w w' x G E path p S) as [H|H]; [left; exact H|right].
  intros show header P HG. destruct (header_steps header p HG H) as [A B]. exact (C116_round_trip show _ P A B).
Qed.
(** C119: the shipped templates and their header are such. *)
Theorem C119_templates : (forall t, In t [template_v2; template_v3; template_v4; template_v5; template_driving; template_exp] -> writable_steps t) /\ good_header shipped_header.
Proof. split; [exact shipped_writable|exact shipped_header_good]. Qed.

Print Assumptions C116_round_trip.
Print Assumptions C116_saved_again.
Print Assumptions C116_shipped.
Print Assumptions C116_blanks_refuted.
Print Assumptions C116_single_entry_refuted.
Print Assumptions C117_layout.
Print Assumptions C118_same_file.
Print Assumptions C118_single_step_refuted.
Print Assumptions C119_generated.
Print Assumptions C119_templates.
