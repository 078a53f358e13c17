(** C114 and C115: Biologic settings files and the formation protocol. *)
From Verif Require Import Py Num Model_Text Model_Arbin Model_M2B Model_Procedure Model_Mps Spec_Mps Template_Formation Proofs_Mps Proofs_Mps_Formation.

(** C114: a settings file with one technique is read completely, whatever the line ends: every header line
    under its name and every cell of the table under its sequence (from 1) and row name. *)
Theorem C114_file_is_read : forall w f before after e, well_formed w f before after -> line_end e ->
  settings_of w (S (length (f_names f))) (join e (lines_of w f)) = Ok (settings before after (f_num f) (f_kind f) (f_names f) (texts (f_seqs f))).
Proof. intros w f b a e W E. exact (file_read W e E). Qed.
(** C114: settings are written with every header line, every row name and every cell in its place;
    cells that are not texts are written as str() shows them. *)
Theorem C114_settings_are_written : forall show w f before after cells, well_formed w f before after ->
  length cells = length (f_seqs f) -> (forall s, In s cells -> length s = length (f_names f)) ->
  settings_text show w (settings before after (f_num f) (f_kind f) (f_names f) cells) =
  Ok (join crlf (lines_of w {| f_before := f_before f; f_num := f_num f; f_kind := f_kind f; f_names := f_names f; f_seqs := map (map (py_str show)) cells; f_after := f_after f |})).
Proof. exact any_cells_written. Qed.
(** C114: reading a file and writing it again gives the same lines, with Windows line ends; reading that gives
    the same settings. *)
Theorem C114_round_trip : forall show w f before after e, well_formed w f before after -> line_end e ->
  exists s, settings_of w (S (length (f_names f))) (join e (lines_of w f)) = Ok s /\ settings_text show w s = Ok (join crlf (lines_of w f)) /\
    settings_of w (S (length (f_names f))) (join crlf (lines_of w f)) = Ok s.
Proof. exact round_trip. Qed.
(** C114: a text without a technique is rejected with an error about a variable, not about the file. *)
Theorem C114_no_technique : forall w n text, (forall l, In l (mps_lines text) -> ~ occurs "Technique" l) -> settings_of w n text = Err UnboundLocalError.
Proof. exact no_technique_error. Qed.
(** The shipped template is such a file; it has 62 rows, the number from_file assumes. *)
Example C114_template : exists before after, well_formed column_width formation_v1 before after /\ S (length (f_names formation_v1)) = step_entry_length /\ line_end crlf.
Proof. eexists. eexists. split; [apply check_sound; vm_compute; reflexivity|]. split; [reflexivity|left; reflexivity]. Qed.
Example C114_no_technique_example : settings_of 20 63 "BT-LAB SETTING FILE" = Err UnboundLocalError.
Proof. reflexivity. Qed.
Definition small_file (rows : list string) : string := join crlf (["BT-LAB SETTING FILE"; "Technique : 1"; "Modulo Bat"]%string ++ rows).
(** C114 does not extend to several techniques: the rows of all but the last one are also taken for header
    lines and written a second time. *)
Definition two_techniques : string :=
  (join crlf ["BT-LAB SETTING FILE"; "Technique : 1"; "CC"; "Ns  0   "; "val 5   "; "Technique : 2"; "CV"; "Ns  0   "; "val 6   "])%string.
Theorem C114_two_techniques_refuted : exists w n text s show out, settings_of w n text = Ok s /\ settings_text show w s = Ok out /\ out <> text /\ (String.length text < String.length out)%nat.
Proof.
  exists 4%nat, 3%nat, two_techniques. eexists. exists (fun _ => ""%string). eexists. split; [vm_compute; reflexivity|]. split; [vm_compute; reflexivity|].
  split; [intro H; apply (f_equal String.length) in H; vm_compute in H; discriminate|vm_compute; lia].
Qed.
(** C114 does not extend to rows whose last cell is not padded: the last sequence is lost without an error. *)
Theorem C114_unpadded_refuted : exists w n text s, settings_of w n text = Ok s /\ contains "CC" text = true /\
  forall k, vget ["Technique"; "1"; "Step"; k; "ctrl_type"]%string s <> VText "CC".
Proof.
  exists 20%nat, 3%nat, (small_file ["Ns                  0                   1"; "ctrl_type           Rest                CC"]%string). eexists. split; [vm_compute; reflexivity|]. split; [reflexivity|].
  intros k. cbn. destruct (String.eqb k "1"); cbn; discriminate.
Qed.
(** C114 does not extend to header lines that occur twice: the second one is lost. *)
Theorem C114_repeated_line_refuted : exists w n text s show out, settings_of w n text = Ok s /\ settings_text show w s = Ok out /\ (String.length out < String.length text)%nat.
Proof.
  exists 4%nat, 2%nat, (join crlf ["Range : 1"; "Range : 2"; "Technique : 1"; "CC"; "Ns  0   "]%string). eexists. exists (fun _ => ""%string). eexists. split; [vm_compute; reflexivity|]. split; [vm_compute; reflexivity|vm_compute; lia].
Qed.
(** C114 does not extend to header lines with a colon but no name and value: reading fails. *)
Theorem C114_colon_refuted : exists w n text, contains "Technique" text = true /\ settings_of w n text = Err ValueError.
Proof. exists 4%nat, 2%nat, (join crlf ["Started at 10:15"; "Technique : 1"; "CC"; "Ns  0   "]%string). split; reflexivity. Qed.
(** C114 does not extend to the value "blank", which is written as an empty line, nor to the value "Metadata",
    which makes writing fail after the line. *)
Theorem C114_special_values_refuted : exists w n t1 t2 s1 s2 show out, settings_of w n t1 = Ok s1 /\ contains "Comments : blank" t1 = true /\
  settings_text show w s1 = Ok out /\ contains "Comments" out = false /\
  settings_of w n t2 = Ok s2 /\ settings_text show w s2 = Err KeyError.
Proof.
  exists 4%nat, 2%nat, (join crlf ["Comments : blank"; "Technique : 1"; "CC"; "Ns  0   "]%string), (join crlf ["Comments : Metadata"; "Technique : 1"; "CC"; "Ns  0   "]%string).
  eexists. eexists. exists (fun _ => ""%string). eexists. repeat split; vm_compute; reflexivity.
Qed.

(** C115: the formation protocol is applied exactly if the settings say charge and discharge alternate and every
    step is of the kind and has the units and limits the protocol needs; otherwise it raises AssertionError.
    In either case only the requested places change. *)
Theorem C115_applied_exactly_if : forall r obj obj' e, formation r obj = (obj', e) ->
  (e = None <-> vget ["Metadata"; "Cycle Definition"]%string obj = VText "Charge/Discharge alternance" /\ forall s, In s (formation_steps r) -> identified obj s) /\
  (e = None \/ e = Some AssertionError) /\ same_elsewhere (written r) obj obj'.
Proof. exact formation_outcome. Qed.
(** C115: every step gets its current (rate times nominal capacity), voltage, hold time, rest time or number of
    repetitions, with three decimals. *)
Theorem C115_values : forall r obj obj', formation r obj = (obj', None) -> forall s, In s (formation_steps r) -> gets obj' s.
Proof. exact formation_values. Qed.
(** C115: the file written for a settings file with at least 14 sequences has the same lines and cells,
    except for the requested cells. *)
Theorem C115_file : forall show w f before after r obj' e, well_formed w f before after -> f_num f = "1"%string -> (14 <= length (f_seqs f))%nat ->
  (forall field, In field ["ctrl1_val"; "lim1_value"; "ctrl_repeat"]%string -> In field (f_names f)) ->
  formation r (settings before after "1" (f_kind f) (f_names f) (texts (f_seqs f))) = (obj', e) ->
  exists cells, obj' = settings before after "1" (f_kind f) (f_names f) cells /\ length cells = length (f_seqs f) /\ (forall s, In s cells -> length s = length (f_names f)) /\
    settings_text show w obj' = Ok (join crlf (lines_of w {| f_before := f_before f; f_num := "1"; f_kind := f_kind f; f_names := f_names f; f_seqs := map (map (py_str show)) cells; f_after := f_after f |})) /\
    forall j i s s', nth_error (f_seqs f) j = Some s -> nth_error cells j = Some s' -> (i < length (f_names f))%nat ->
      ~ In (place_of (str_int (Z.of_nat (S j))) (nth i (f_names f) ""%string)) (written r) -> nth i s' VNone = VText (nth i s ""%string).
Proof. exact formation_file. Qed.
(** The shipped template is accepted for all parameters. *)
Definition template_settings : val := match settings_of column_width step_entry_length (join crlf (lines_of column_width formation_v1)) with Ok s => s | Err _ => VNone end.
Theorem C115_template_accepted : forall r, exists obj', formation r template_settings = (obj', None).
Proof. apply accepted_if. intro r. set (s := template_settings). vm_compute in s. lazy. reflexivity. Qed.
Example C115_template_file : f_num formation_v1 = "1"%string /\ (14 <= length (f_seqs formation_v1))%nat /\
  (forall field, In field ["ctrl1_val"; "lim1_value"; "ctrl_repeat"]%string -> In field (f_names formation_v1)).
Proof. split; [reflexivity|]. split; [cbn; lia|]. intros field H. cbn in H. cbn. intuition. Qed.
Definition some_param : form_param := Build_form_param (1 # 5) (1 # 2) (37 # 10) 30 60 1 (42 # 10) 15 5 (1 # 2) 3 1 (42 # 10) 1 3 (7 # 2) (1 # 3) (42 # 10) (1 # 2) 3 120.
Example C115_example : let obj := fst (formation some_param template_settings) in
  (exists y, vget (place_of "12" "ctrl1_val") obj = VNum y /\ y == 67 # 1000) /\ vget (place_of "11" "ctrl_repeat") obj = VText "2" /\ vget (place_of "12" "ctrl_type") obj = VText "CC".
Proof. vm_compute. split; [eexists; split; [reflexivity|reflexivity]|]. auto. Qed.
(** A file that is not a formation template is rejected. *)
Example C115_rejected : exists e, snd (formation some_param (VDict [])) = Some e.
Proof. eexists. reflexivity. Qed.

Print Assumptions C114_file_is_read.
Print Assumptions C114_settings_are_written.
Print Assumptions C114_round_trip.
Print Assumptions C114_no_technique.
Print Assumptions C114_two_techniques_refuted.
Print Assumptions C114_unpadded_refuted.
Print Assumptions C114_repeated_line_refuted.
Print Assumptions C114_colon_refuted.
Print Assumptions C114_special_values_refuted.
Print Assumptions C115_applied_exactly_if.
Print Assumptions C115_values.
Print Assumptions C115_file.
Print Assumptions C115_template_accepted.
