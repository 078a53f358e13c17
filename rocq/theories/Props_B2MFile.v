(** C142: the Maccor procedure file made from a Biologic Modulo Bat file. *)
From Verif Require Import Py Model_Arbin Spec_Arbin Model_Procedure Model_MaccorFile Spec_MaccorFile Proofs_MaccorFile_Check Proofs_MaccorFile_File Model_B2M Model_B2MFile Spec_B2MFile Proofs_B2MFile.
Local Open Scope string_scope.

(** C142: Procedure.from_file reads the header and every step of the file, in order, with all their texts. *)
Theorem C142_read : forall show header steps, prints_line show -> line_header header -> steps <> [] -> Forall printable_step steps ->
  exists v, from_file (steps_to_xml show header steps) = Ok (VDict [("MaccorTestProcedure", v)]) /\ procedure_as told (as_read show header) steps v.
Proof.
  intros show h steps P H NE F. rewrite (xml_text show P h steps H NE F). eexists. split; [apply (read_of show P), body_shaped; assumption|].
  rewrite <- (header_back show h (proj1 P) H). apply body_is; assumption.
Qed.
(** C142: the lines of the file. *)
Theorem C142_lines : forall show header steps, prints_line show -> line_header header -> steps <> [] -> Forall printable_step steps ->
  exists v ls, procedure_as verbatim header steps v /\ lines show 0 "MaccorTestProcedure" v ls /\
    steps_to_xml show header steps = ended "<?xml version=""1.0"" encoding=""UTF-8""?>" ++ ("<?maccor-application progid=""Maccor Procedure File""?>" ++ String nl "") ++ String.concat "" (map ended ls).
Proof.
  intros show h steps P H NE F. rewrite (xml_text show P h steps H NE F). destruct (text_lines show P (one_body h steps)) as (ls & L & E); [apply body_shaped; assumption|].
  exists (one_body h steps), ls. split; [apply body_is0, NE|]. split; [exact L|exact E].
Qed.
(** Finding (C142): the second line ends in a line feed only, though all lines were meant to end in carriage return and line feed. *)
Theorem C142_line_ends_refuted : forall show header steps, prints_line show -> line_header header -> steps <> [] -> Forall printable_step steps ->
  ~ crlf_lines (steps_to_xml show header steps).
Proof.
  intros show h steps P H NE F C. destruct (C142_lines show h steps P H NE F) as (v & ls & _ & _ & E). pose proof (crlf_after _ C false) as A. rewrite E in A.
  generalize dependent (String.concat "" (map ended ls)). intros t _ A. cbn in A. discriminate A.
Qed.
(** C142: from the sequences on: whenever they are converted, the file can be read and holds the steps made of them. *)
Theorem C142_converted : forall show show_float header seqs text, prints_line show -> (forall q, printable (show_float q)) -> line_header header -> Forall printable_value seqs ->
  seqs_to_xml show show_float header seqs = Ok text ->
  exists steps v, create_steps show_float seqs = Ok steps /\ from_file text = Ok (VDict [("MaccorTestProcedure", v)]) /\ procedure_as told (as_read show header) steps v.
Proof.
  intros show show_float h seqs text P PF H V E. unfold seqs_to_xml in E. destruct (create_steps show_float seqs) as [steps|] eqn:C; [|discriminate E]. cbn [bind] in E. injection E as <-.
  destruct (made_printable show_float PF seqs steps V C) as [NE F]. destruct (C142_read show h steps P H NE F) as (v & R & PA). exists steps, v. auto.
Qed.

(** What the words above come to *)
Example C142_told : told "  Do 1  " (VText "Do 1") /\ told "        " VNone /\ told "" VNone /\ (forall v, told "" v -> v = VNone).
Proof.
  split; [right; exists 2%nat, "Do 1", 2%nat|split; [left; split; [reflexivity|exists 8%nat; reflexivity]|split; [left; split; [reflexivity|exists 0%nat; reflexivity]|]]].
  - split; [reflexivity|]. split; [discriminate|].
    assert (B : forall c, In c ["D"; "1"]%char -> ~ In c blanks).
    { intros c I. assert (A : forallb (fun c => negb (existsb (Ascii.eqb c) blanks)) ["D"; "1"]%char = true) by (vm_compute; reflexivity). rewrite forallb_forall in A. specialize (A c I).
      intro J. apply negb_true_iff in A. apply not_true_iff_false in A. apply A, existsb_exists. exists c. split; [exact J|apply Ascii.eqb_refl]. }
    split; [|split; [|reflexivity]].
    + intros c r E. injection E as <- <-. apply B. left. reflexivity.
    + intros a c E. apply B. destruct a as [|? [|? [|? [|? [|? ?]]]]]; cbn in E; try discriminate E. injection E as <- <- <- <-. right. left. reflexivity.
  - intros v [[-> _]|(l & t & r & E & N & _)]; [reflexivity|]. destruct l; [|discriminate E]. destruct t; [congruence|discriminate E].
Qed.
Definition print_zero (v : val) : string := "0".
Example C142_header : line_header default_header /\ prints_line print_zero /\
  as_read print_zero default_header = VDict [("BuildTestVersion", VDict [("major", VText "1"); ("minor", VText "5"); ("release", VText "7006"); ("build", VText "32043")]);
    ("FileFormatVersion", VDict [("BTVersion", VText "11")]); ("ProcDesc", VDict [("desc", VNone)])].
Proof.
  assert (G : forall s, good_textb s = true -> printableb s = true -> good_text s /\ printable s) by (intros s A B; split; [apply good_textb_ok, A|apply printable_by, B]).
  split; [|split; [|reflexivity]].
  - unfold line_header, default_header. repeat (constructor; try (apply G; reflexivity); try discriminate; try (apply nodupb_ok; reflexivity); intros ? ? I; cbn in I;
      repeat (destruct I as [I|I]; [injection I as <- <-; split; [apply field_nameb_ok; reflexivity|constructor]|]); try (elim I)).
  - split; intro q; [split; [apply good_textb_ok; reflexivity|discriminate]|apply printable_by; reflexivity].
Qed.
Definition a_rest : bseq :=
  [("Ns", "0"); ("ctrl_type", "Rest"); ("ctrl1_val", ""); ("ctrl1_val_unit", ""); ("ctrl1_val_vs", ""); ("ctrl_seq", "0"); ("ctrl_repeat", "0"); ("charge/discharge", "Charge");
   ("lim_nb", "1"); ("lim1_type", "Time"); ("lim1_comp", ">"); ("lim1_value", "5.000"); ("lim1_value_unit", "mn"); ("lim1_action", "Next sequence"); ("lim1_seq", "1");
   ("rec_nb", "0")].
Definition a_loop : bseq :=
  [("Ns", "1"); ("ctrl_type", "Loop"); ("ctrl1_val", ""); ("ctrl1_val_unit", ""); ("ctrl1_val_vs", ""); ("ctrl_seq", "0"); ("ctrl_repeat", "3"); ("charge/discharge", "Charge");
   ("lim_nb", "0"); ("rec_nb", "0")].
(** A rest that is repeated: one end entry is read as a dictionary, and the number of repetitions is found under StepValue. *)
Example C142_rest : exists text, seqs_to_xml print_zero (fun _ => "5.0") default_header [a_rest; a_loop] = Ok text /\ Forall printable_value [a_rest; a_loop] /\
  let blank := [("Range", VNone); ("Option1", VNone); ("Option2", VNone); ("Option3", VNone); ("StepNote", VNone)] in
  let plain t := VDict ([("StepType", VText t); ("StepMode", VNone); ("StepValue", VNone); ("Limits", VNone); ("Ends", VNone); ("Reports", VNone)] ++ blank) in
  let ending t e := VDict ([("StepType", VText t); ("StepMode", VNone); ("StepValue", VNone); ("Limits", VNone); ("Ends", VDict [("EndEntry", VDict e)]); ("Reports", VNone)] ++ blank) in
  from_file text = Ok (VDict [("MaccorTestProcedure", VDict [("header", as_read print_zero default_header); ("ProcSteps", VDict [("TestStep", VList
    [plain "Do 1"; ending "Rest" [("EndType", VText "StepTime"); ("SpecialType", VNone); ("Oper", VText "="); ("Step", VText "003"); ("Value", VText "00:5.0:00")];
     plain "AdvCycle"; ending "Loop 1" [("EndType", VText "Loop Cnt"); ("SpecialType", VNone); ("Oper", VText "="); ("Step", VText "001"); ("Value", VNone); ("StepValue", VText "3")];
     plain "End"])])])]).
Proof.
  eexists. split; [vm_compute; reflexivity|]. split; [|vm_compute; reflexivity].
  apply Forall_forall. intros d I v E. assert (X : v = "") by (destruct I as [<-|[<-|[]]]; vm_compute in E; congruence). subst v. apply printable_by. reflexivity.
Qed.
(** Without sequences there is one step, and reading gives no list of steps. *)
Example C142_one_step : from_file (steps_to_xml print_zero (VText "x") [end_step]) = Ok (VDict [("MaccorTestProcedure", VDict [("header", VText "x"); ("ProcSteps", VDict [("TestStep",
  VDict [("StepType", VText "End"); ("StepMode", VNone); ("StepValue", VNone); ("Limits", VNone); ("Ends", VNone); ("Reports", VNone); ("Range", VNone); ("Option1", VNone); ("Option2", VNone); ("Option3", VNone); ("StepNote", VNone)])])])]).
Proof. vm_compute. reflexivity. Qed.
(** The text of that file *)
Example C142_text : let e := String cr (String nl "") in steps_to_xml print_zero (VText "x") [end_step] =
  "<?xml version=""1.0"" encoding=""UTF-8""?>" ++ e ++ "<?maccor-application progid=""Maccor Procedure File""?>" ++ String nl "" ++
  "<MaccorTestProcedure>" ++ e ++ "  <header>x</header>" ++ e ++ "  <ProcSteps>" ++ e ++ "    <TestStep>" ++ e ++
  "      <StepType>  End   </StepType>" ++ e ++ "      <StepMode>        </StepMode>" ++ e ++ "      <StepValue></StepValue>" ++ e ++
  "      <Limits/>" ++ e ++ "      <Ends/>" ++ e ++ "      <Reports/>" ++ e ++ "      <Range></Range>" ++ e ++
  "      <Option1></Option1>" ++ e ++ "      <Option2></Option2>" ++ e ++ "      <Option3></Option3>" ++ e ++ "      <StepNote></StepNote>" ++ e ++
  "    </TestStep>" ++ e ++ "  </ProcSteps>" ++ e ++ "</MaccorTestProcedure>" ++ e.
Proof. vm_compute. reflexivity. Qed.
(** Line ends that are not mixed *)
Example C142_crlf_lines : crlf_lines (ended "a" ++ ended "b").
Proof. exists ["a"; "b"]. split; [intros l [<-|[<-|[]]] [X|[]]; discriminate X|reflexivity]. Qed.

Print Assumptions C142_read.
Print Assumptions C142_lines.
Print Assumptions C142_line_ends_refuted.
Print Assumptions C142_converted.
