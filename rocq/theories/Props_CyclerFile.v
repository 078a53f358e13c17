(** C128-C131: the readers of raw Biologic and Novonix files. *)
From Verif Require Import Py Num Model_Text Model_Arbin Model_Biologic Model_Stamp Model_RawFile Model_CyclerFile.
From Verif Require Import Spec_Numeral Spec_Cmd Spec_Stamp Spec_RawFile Spec_CyclerFile.
From Verif Require Import Proofs_Stamp Proofs_CyclerFile Proofs_CyclerText.

(** ** C128 *)
(** The channel, the comment and the hash of the protocol of a Biologic file.  Channel "A1" is 11:
    the place of the letter in the alphabet, followed by the number. *)
Theorem C128_metadata md5 before b0 others rest run slot number tail z note v :
  Forall plain_text (before ++ b0 :: others) ->
  only_line "Run on channel" (before ++ b0 :: others) run -> run_line run slot number tail ->
  integer (str_int (Z.of_nat (nat_of_ascii slot) - 64) ++ number) z ->
  only_line "Comments" (before ++ b0 :: others) note -> comment_line note v ->
  protocol_line b0 -> (forall y, In y (before ++ others) -> contains "Cycle Definition" y = false) -> ~ In ""%string others ->
  (length (before ++ b0 :: others) <= Z.to_nat 10000)%nat ->
  exists st, biologic_metadata md5 (map dos (before ++ b0 :: others) ++ dos "" :: rest) = Ok st /\
    b_channel st = Some z /\ b_barcode st = Some v /\ b_protocol st = Some (md5 (protocol_text b0 others)).
Proof. exact (metadata_ok md5 before b0 others rest run slot number tail z note v). Qed.
(** Cells that ran the same protocol have the same hash, whatever else the files say. *)
Definition well_formed (before : list string) (b0 : string) (others : list string) : Prop :=
  Forall plain_text (before ++ b0 :: others) /\
  (exists run slot number tail z, only_line "Run on channel" (before ++ b0 :: others) run /\ run_line run slot number tail
     /\ integer (str_int (Z.of_nat (nat_of_ascii slot) - 64) ++ number) z) /\
  (exists note v, only_line "Comments" (before ++ b0 :: others) note /\ comment_line note v) /\
  protocol_line b0 /\ (forall y, In y (before ++ others) -> contains "Cycle Definition" y = false) /\ ~ In ""%string others /\
  (length (before ++ b0 :: others) <= Z.to_nat 10000)%nat.
Theorem C128_same_protocol md5 before before' b0 others rest rest' :
  well_formed before b0 others -> well_formed before' b0 others ->
  exists st st', biologic_metadata md5 (map dos (before ++ b0 :: others) ++ dos "" :: rest) = Ok st /\
    biologic_metadata md5 (map dos (before' ++ b0 :: others) ++ dos "" :: rest') = Ok st' /\ b_protocol st = b_protocol st' /\ b_protocol st <> None.
Proof.
  intros (P & (run & slot & number & tail & z & R1 & R2 & R3) & (note & v & N1 & N2) & A & B & C & D) (P' & (run' & slot' & number' & tail' & z' & R1' & R2' & R3') & (note' & v' & N1' & N2') & A' & B' & C' & D').
  destruct (metadata_ok md5 before b0 others rest run slot number tail z note v) as (st & E & _ & _ & H); auto.
  destruct (metadata_ok md5 before' b0 others rest' run' slot' number' tail' z' note' v') as (st' & E' & _ & _ & H'); auto.
  exists st, st'. rewrite H, H'. repeat split; auto. discriminate.
Qed.
(** False: "the barcode is the comment of the file".  With an apostrophe in it, or lines that end in a
    line feed only, part of the line end stays; what stands before a colon is lost. *)
Theorem C128_barcode_refuted :
  let file c := ["Run on channel : A1 (SN 1)"; "Comments : " ++ c; "Cycle Definition : Charge/Discharge alternance"; "Ns 0"; ""]%string in
  let q := String (ascii_of_nat 39) "" in
  (exists st, biologic_metadata (fun t => t) (map dos (file ("cell" ++ q ++ "s"))%string) = Ok st /\ b_barcode st = Some ("cell" ++ q ++ "s" ++ crlf_text ++ String (ascii_of_nat 34) "")%string) /\
  (exists st, biologic_metadata (fun t => t) (map unix (file "cell")%string) = Ok st /\ b_barcode st = Some ("cell" ++ String (ascii_of_nat 92) "n")%string) /\
  (exists st, biologic_metadata (fun t => t) (map dos (file "lot : 7")%string) = Ok st /\ b_barcode st = Some "7"%string).
Proof.
  cbv zeta. split; [|split].
  - eexists. split; [vm_compute; reflexivity|]. vm_compute. reflexivity.
  - eexists. split; [vm_compute; reflexivity|]. vm_compute. reflexivity.
  - eexists. split; [vm_compute; reflexivity|]. reflexivity.
Qed.
(** False: "the hash is one of the protocol only".  When the comment comes after the protocol, the
    lines in between are counted in. *)
Theorem C128_protocol_only_refuted :
  let protocol := ["Cycle Definition : Charge/Discharge alternance"; "Ns 0"; ""]%string in
  exists st st', biologic_metadata (fun t => t) (map dos (["Run on channel : A1 (SN 1)"; "Comments : x"]%string ++ protocol)) = Ok st /\
    biologic_metadata (fun t => t) (map dos ("Run on channel : A1 (SN 1)"%string :: protocol ++ ["Device : MPG"; ""; "Comments : x"]%string)) = Ok st' /\
    b_protocol st <> b_protocol st' /\ b_protocol st <> None /\ b_protocol st' <> None.
Proof. cbv zeta. eexists. eexists. split; [vm_compute; reflexivity|]. split; [vm_compute; reflexivity|]. repeat split; discriminate. Qed.
(** The text of a line of bytes, from which the metadata is taken: quoted with apostrophes unless there is an apostrophe and no
    quotation mark; printable; and it says what the bytes were, so that no two lines give the same text. *)
Theorem C128_bytes s : exists q r, bytes_str s = String "b" (String q r) /\ read_literal q r = Some s /\
  q = (if contains (String (ascii_of_nat 39) "") s && negb (contains (String (ascii_of_nat 34) "") s) then ascii_of_nat 34 else ascii_of_nat 39).
Proof.
  unfold bytes_str. fold sq dq. match goal with |- context [String "b" (String ?x _)] => set (q := x) end. exists q. eexists. split; [reflexivity|]. split; [|reflexivity].
  apply read_bytes. subst q. match goal with |- context [if ?b then dq else sq] => destruct b end; auto.
Qed.
Theorem C128_lines_differ s s' : bytes_str s = bytes_str s' -> s = s'.
Proof.
  intro E. destruct (C128_bytes s) as (q & r & A & B & _). destruct (C128_bytes s') as (q' & r' & A' & B' & _). rewrite A, A' in E. injection E as -> ->. congruence.
Qed.
(** The metadata is read from the file beside the data with extension .mpl. *)
Theorem C128_path stem : contains ".csv" stem = false -> biologic_metadata_path (stem ++ ".csv") = (stem ++ ".mpl")%string.
Proof.
  intro N. unfold biologic_metadata_path, replace_text. replace (stem ++ ".csv")%string with (stem ++ ".csv" ++ "")%string by reflexivity.
  rewrite Proofs_Strings.str_split_first; [reflexivity | discriminate|]. apply Proofs_RawFile.first_head; [reflexivity | exact N].
Qed.
Print Assumptions C128_bytes.
Print Assumptions C128_lines_differ.
Print Assumptions C128_path.
Print Assumptions C128_metadata.
Print Assumptions C128_same_protocol.
Print Assumptions C128_barcode_refuted.
Print Assumptions C128_protocol_only_refuted.
Example C128_example :
  let b0 := "Cycle Definition : Charge/Discharge alternance"%string in
  well_formed ["BT-Lab SETTING FILE"; "Run on channel : B12 (SN 9876)"; ""; "  Comments : TRI_01 "]%string b0 ["Ns  0  1"; "ctrl_type  CC  CV"]%string /\
  exists st, biologic_metadata (fun t => t) (map dos ["BT-Lab SETTING FILE"; "Run on channel : B12 (SN 9876)"; ""; "  Comments : TRI_01 "; b0; "Ns  0  1"; "ctrl_type  CC  CV"; ""]%string) = Ok st
    /\ b_channel st = Some 212%Z /\ b_barcode st = Some "TRI_01"%string /\ b_protocol st = Some (protocol_text b0 ["Ns  0  1"; "ctrl_type  CC  CV"]%string).
Proof.
  cbv zeta. split; [|eexists; split; [vm_compute; reflexivity|]; vm_compute; auto].
  assert (PT : forall s, forallb (fun c => (32 <=? nat_of_ascii c)%nat && (nat_of_ascii c <=? 126)%nat && negb (Ascii.eqb c (ascii_of_nat 39)) && negb (Ascii.eqb c (ascii_of_nat 92))) (list_ascii_of_string s) = true -> plain_text s).
  { intros s H c I. rewrite forallb_forall in H. specialize (H c I). rewrite !andb_true_iff, !Nat.leb_le, !negb_true_iff, !Ascii.eqb_neq in H. unfold plain_char. tauto. }
  assert (TD : forall s c d a, s = String c a -> is_space c = false -> (exists b, s = b ++ String d "")%string -> is_space d = false -> tidy s).
  { intros s c d a E C (b & E') D. split.
    - intros x r X B. rewrite E in X. injection X as <- _. apply Proofs_RawFile.space_iff in B. congruence.
    - intros x y X B. rewrite E' in X. apply Proofs_RawFile.space_iff in B.
      assert (K : d = y) by (clear -X; revert x X; induction b as [|z b IH]; intros [|z' x] X; cbn in X; injection X; intros; subst; auto; try (destruct x; discriminate); try (destruct b; discriminate); try (eapply IH; eassumption)).
      congruence. }
  split; [repeat (apply Forall_cons; [apply PT; reflexivity|]); apply Forall_nil|]. split; [|split; [|split; [|split; [|split]]]].
  - exists "Run on channel : B12 (SN 9876)"%string, "B"%char, "12"%string, " (SN 9876)"%string, 212%Z. split; [|split].
    + exists ["BT-Lab SETTING FILE"]%string. eexists. split; [reflexivity|]. intros y I. cbn in I. repeat (destruct I as [<-|I]; [reflexivity|]). destruct I.
    + split; [|repeat split; try reflexivity; [discriminate | right; exists "(SN 9876)"%string; reflexivity]].
      split; [eapply (TD _ "R"%char ")"%char); [reflexivity | reflexivity | exists "Run on channel : B12 (SN 9876"%string; reflexivity | reflexivity]|].
      exists ""%string, ""%string. repeat split; intros c I; destruct I.
    + apply Proofs_Numeral.integer_iff. reflexivity.
  - exists "  Comments : TRI_01 "%string, "TRI_01"%string. split.
    + exists ["BT-Lab SETTING FILE"; "Run on channel : B12 (SN 9876)"; ""]%string. eexists. split; [reflexivity|]. intros y I. cbn in I. repeat (destruct I as [<-|I]; [reflexivity|]). destruct I.
    + split; [|reflexivity]. split; [eapply (TD _ "C"%char "1"%char); [reflexivity | reflexivity | exists "Comments : TRI_0"%string; reflexivity | reflexivity]|].
      exists "  "%string, " "%string. repeat split; intros c I; cbn in I; repeat (destruct I as [<-|I]; [apply Proofs_RawFile.space_iff; reflexivity|]); destruct I.
  - exists "Charge/Discharge alternance"%string. split; [eapply (TD _ "C"%char "e"%char); [reflexivity | reflexivity | exists "Cycle Definition : Charge/Discharge alternanc"%string; reflexivity | reflexivity]|].
    exists ""%string, ""%string. repeat split; intros c I; destruct I.
  - intros y I. cbn in I. repeat (destruct I as [<-|I]; [reflexivity|]). destruct I.
  - intro I. cbn in I. repeat (destruct I as [I|I]; [discriminate I|]). destruct I.
  - apply Nat.leb_le. vm_compute. reflexivity.
Qed.

(** ** C129 *)
(** The columns of a Biologic data file, in the units of the data, row by row. *)
Theorem C129_columns float_of mapped mapping ext pre cols rows lines data :
  biologic_file ext pre cols rows lines -> NoDup cols -> complete (length cols) rows ->
  biologic_table float_of mapped mapping ext lines = Ok data ->
  (forall src name k, In (src, name, k) biologic_numbers -> filled cols rows data src name (number_cell float_of k)) /\
  filled cols rows data "Ns" "step_index" (whole_cell float_of) /\
  filled cols rows data "time/s" "date_time" text_cell /\
  sget data "data_point" = Some (map (fun i => BI (Z.of_nat i)) (seq 1 (length rows))) /\
  (In "cycle_index"%string cols -> filled cols rows data "cycle_index" "cycle_index" (whole_cell float_of)) /\
  (~ In "cycle_index"%string cols -> mapping = false -> filled cols rows data "cycle number" "cycle_index" (whole_cell float_of)).
Proof. exact (data_columns float_of mapped mapping ext pre cols rows lines data). Qed.
(** With a mapping file the numbers of the cycles are those of C20, from the steps and the loops. *)
Theorem C129_mapped float_of mapped ext pre cols rows lines data :
  biologic_file ext pre cols rows lines -> NoDup cols -> complete (length cols) rows -> ~ In "cycle_index"%string cols ->
  biologic_table float_of mapped true ext lines = Ok data ->
  exists ns loops c, sget data "step_index" = Some ns /\ mapped ns loops = Ok c /\ sget data "cycle_index" = Some (map BI c) /\
    (In "Loop"%string cols -> exists j vals, nth_error cols j = Some "Loop"%string /\ loops = Some vals /\ column_is text_cell j rows vals) /\
    (~ In "Loop"%string cols -> loops = None).
Proof. exact (data_mapped float_of mapped ext pre cols rows lines data). Qed.
(** A file with all the columns and numbers in them is read. *)
Theorem C129_total float_of mapped ext pre cols rows lines :
  biologic_file ext pre cols rows lines -> NoDup cols -> complete (length cols) rows ->
  (forall c, In c biologic_needed -> In c cols) -> In "cycle number"%string cols ->
  (forall r j c s, In r rows -> nth_error cols j = Some c -> nth_error r j = Some s ->
     c = "Ns"%string \/ c = "cycle_index"%string \/ c = "cycle number"%string \/ In c (map (fun n => fst (fst n)) biologic_numbers) ->
     exists q, float_of s = Some q) ->
  exists data, biologic_table float_of mapped false ext lines = Ok data.
Proof. exact (data_total float_of mapped ext pre cols rows lines). Qed.
(** No file is read in which a column is missing, or in which a line breaks off between the columns. *)
Theorem C129_missing float_of mapped mapping ext pre cols rows lines data c :
  biologic_file ext pre cols rows lines -> NoDup cols -> In c ("cycle number"%string :: biologic_needed) ->
  biologic_table float_of mapped mapping ext lines = Ok data -> In c cols.
Proof. exact (data_missing float_of mapped mapping ext pre cols rows lines data c). Qed.
Theorem C129_broken_off float_of mapped mapping ext pre cols rows lines data :
  biologic_file ext pre cols rows lines -> NoDup cols -> biologic_table float_of mapped mapping ext lines = Ok data ->
  forall c1 c2 j1 j2 r, In c1 biologic_needed -> In c2 biologic_needed -> nth_error cols j1 = Some c1 -> nth_error cols j2 = Some c2 -> In r rows ->
    (nth_error r j1 = None <-> nth_error r j2 = None).
Proof. exact (rows_whole float_of mapped mapping ext pre cols rows lines data). Qed.
(** The instants of the records, as in C120, with the fractions of a second. *)
Theorem C129_pacific dst st us u : proper st -> (yr st < 9999)%Z -> proper_us us -> shown dst u = count st ->
  exists st', biologic_iso dst (biologic_text st us) = Ok (iso_us st' us) /\ proper st' /\ shown dst (count st') = count st /\ (count st' <= u)%Z.
Proof. exact (biologic_pacific dst st us u). Qed.
(** The time of the test is the time on the clock since the first record. *)
Theorem C129_test_time su0 rest : (forall st us, In (st, us) (su0 :: rest) -> proper st /\ proper_us us) ->
  biologic_test_time (map (fun su => biologic_text (fst su) (snd su)) (su0 :: rest)) =
  Ok (map (fun su => inject_Z (count_us (fst su) (snd su) - count_us (fst su0) (snd su0)) / 1000000) (su0 :: rest)).
Proof. exact (test_time_ok su0 rest). Qed.
(** False: "the time of the test is the time since the first record".  Two minutes after 8:59 UTC on
    3 November 2019 it is 58 minutes before the start of the test. *)
Definition minute (st : stamp) (m : Z) : stamp := {| yr := yr st; mo := mo st; dy := dy st; hh := hh st; mi := m; ss := 0 |}.
Theorem C129_elapsed_refuted :
  exists a b u u', proper a /\ proper b /\ shown dst_2019 u = count a /\ shown dst_2019 u' = count b /\ (u' - u = 120)%Z /\
    exists t, biologic_test_time [biologic_text a 0; biologic_text b 0] = Ok [0 / 1000000; t] /\ t == inject_Z (-3480).
Proof.
  exists (minute (at_hour 2019 11 3 1) 59), (minute (at_hour 2019 11 3 1) 1), (count (minute (at_hour 2019 11 3 8) 59)), (count (minute (at_hour 2019 11 3 9) 1)).
  split; [repeat split; vm_compute; discriminate|]. split; [repeat split; vm_compute; discriminate|]. do 3 (split; [vm_compute; reflexivity|]).
  eexists. split; [vm_compute; reflexivity | vm_compute; reflexivity].
Qed.
(** False: "a file with all the columns is read".  The name of the last column ends with the line. *)
Definition file_of (cols : list string) (rows : list (list string)) : list string := map dos (map (join ";") (cols :: rows)).
Theorem C129_any_order_refuted :
  let cols := ["cycle number"; "Ns"; "Ecell/V"; "I/mA"; "Q discharge/mA.h"; "Q charge/mA.h"; "Energy charge/W.h"; "Energy discharge/W.h"; "time/s"]%string in
  (forall c, In c ("cycle number"%string :: biologic_needed) -> In c cols) /\
  (forall float_of mapped, (forall s, float_of s <> None) ->
     biologic_table float_of mapped false ".csv" (file_of cols [["1"; "0"; "3.5"; "1"; "0"; "0"; "0"; "0"; "10/21/2019 23:59:59.0"]%string]) = Err KeyError) /\
  exists data, biologic_table (fun _ => Some 1) (fun _ _ => Err ValueError) false ".csv"
    (file_of (cols ++ ["x"%string]) [["1"; "0"; "3.5"; "1"; "0"; "0"; "0"; "0"; "10/21/2019 23:59:59.0"; ""]%string]) = Ok data.
Proof.
  cbv zeta. split; [|split].
  - intros c I. cbn in *. tauto.
  - intros float_of mapped H.
    assert (G : forall s, exists q, float_of s = Some q) by (intro s; destruct (float_of s) eqn:E; [eauto | destruct (H s E)]).
    unfold biologic_table, file_of. cbn [map join get_file_type].
    destruct (G "0"%string) as [q0 E0], (G "1"%string) as [q1 E1], (G "3.5"%string) as [q2 E2].
    match goal with |- bind ?x _ = _ => let y := eval vm_compute in x in change x with y end. cbn [bind].
    match goal with |- context [str_split ?a ?b] => let y := eval vm_compute in (str_split a b) in change (str_split a b) with y end.
    match goal with |- context [map (str_split ?a) ?b] => let y := eval vm_compute in (map (str_split a) b) in change (map (str_split a) b) with y end.
    unfold read_table. cbn -[Qmult truncate]. rewrite ?E0, ?E1, ?E2. cbn -[Qmult truncate].
    unfold biologic_data, with_cycles, raw_column. cbn -[Qmult truncate]. rewrite E1. reflexivity.
  - eexists. vm_compute. reflexivity.
Qed.
Print Assumptions C129_columns.
Print Assumptions C129_mapped.
Print Assumptions C129_total.
Print Assumptions C129_missing.
Print Assumptions C129_broken_off.
Print Assumptions C129_pacific.
Print Assumptions C129_test_time.
Print Assumptions C129_elapsed_refuted.
Print Assumptions C129_any_order_refuted.
Example C129_example :
  biologic_iso dst_2019 "10/21/2019 23:59:59.250000" = Ok "2019-10-22T06:59:59.250000+00:00"%string
  /\ biologic_iso dst_2019 "10/21/2019 23:59:59.25" = Ok "2019-10-22T06:59:59.250000+00:00"%string
  /\ biologic_iso dst_2019 "10/21/2019 23:59:59.000" = Ok "2019-10-22T06:59:59+00:00"%string
  /\ biologic_iso dst_2019 "10/21/2019 23:59:59" = Err ValueError
  /\ (exists t, biologic_test_time ["10/21/2019 23:59:59.250"; "10/22/2019 00:00:01.000"]%string = Ok [0 / 1000000; t] /\ t == 7 # 4).
Proof. vm_compute. repeat (split; [reflexivity|]). eexists. split; reflexivity. Qed.
Example C129_table_example :
  let cols := ["Ns"; "time/s"; "cycle number"; "Ecell/V"; "I/mA"; "Q discharge/mA.h"; "Q charge/mA.h"; "Energy charge/W.h"; "Energy discharge/W.h"; String (ascii_of_nat 13) (String (ascii_of_nat 10) "")]%string in
  let row := ["2.0"; "10/21/2019 23:59:59.25"; "1"; "3.5"; "250"; "0"; "0"; "0"; "0"; ""]%string in
  let float_of s := if String.eqb s "2.0" then Some 2 else if String.eqb s "3.5" then Some (7 # 2) else if String.eqb s "250" then Some 250 else if String.eqb s "1" then Some 1 else Some 0 in
  biologic_file ".csv" ["EC-Lab ASCII FILE"]%string cols [row] ("EC-Lab ASCII FILE"%string :: map (join ";") [cols; row]) /\ NoDup cols /\ complete (length cols) [row] /\
  exists data, biologic_table float_of (fun _ _ => Err ValueError) false ".csv" ("EC-Lab ASCII FILE"%string :: map (join ";") [cols; row]) = Ok data /\
    sget data "voltage" = Some [BF ((7 # 2) * 1)] /\ sget data "current" = Some [BF (250 * (1 # 1000))] /\ sget data "step_index" = Some [BI 2] /\ sget data "cycle_index" = Some [BI 1].
Proof.
  cbv zeta. split; [|split; [|split]].
  - exists ";"%char. split; [left; split; reflexivity|]. split; [reflexivity|]. split; [intros l [<-|[]] [H _]; discriminate H|]. split; [split; vm_compute; reflexivity|]. split; [apply Nat.ltb_lt; reflexivity|].
    intros r I. cbn in I. repeat (destruct I as [<-|I]; [split; [discriminate|]; intros c J; cbn in J; repeat (destruct J as [<-|J]; [reflexivity|]); destruct J|]). destruct I.
  - repeat constructor; cbn; intro H; repeat (destruct H as [H|H]; [discriminate H|]); exact H.
  - intros r [<-|[]]. reflexivity.
  - eexists. split; [vm_compute; reflexivity|]. vm_compute. auto.
Qed.

(** ** C130 *)
(** The summary of a Novonix file: what stands after the colon is stored under the entry the line is
    taken for; of several lines, the last counts; an entry without a line is None. *)
Theorem C130_summary pre entries rest lines meta h k :
  summary_file pre entries rest lines -> novonix_metadata lines = Ok (meta, h) -> In k (map fst novonix_fields) ->
  ((forall e, In e entries -> ~ taken_for (summary_entry (fst e) (snd e)) k) -> sget meta k = Some None) /\
  (forall a e b, entries = a ++ e :: b -> taken_for (summary_entry (fst e) (snd e)) k ->
     (forall e', In e' b -> ~ taken_for (summary_entry (fst e') (snd e')) k) -> sget meta k = Some (noted (snd e))).
Proof. exact (summary_ok pre entries rest lines meta h k). Qed.
(** A line is taken for one entry at most. *)
Theorem C130_one_entry line k k' : taken_for line k -> taken_for line k' -> k = k'.
Proof. exact (taken_fun line k k'). Qed.
(** False: "a line is stored under its label".  "Description: Cell 4" is taken for the cell, since
    phrases are looked for in the whole line; a value with a colon is cut; lines that end in
    a carriage return and a line feed leave the text of the former. *)
Definition novonix_file (ls : list string) : list string := map unix ("[Summary]" :: ls ++ ["[End Summary]"; "[Data]"; "Date and Time,Cycle Number"])%string.
Theorem C130_labels_refuted :
  (exists meta h, novonix_metadata (novonix_file ["Cell: 1"; "Description: Cell 4"]%string) = Ok (meta, h) /\ sget meta "cell" = Some (Some "Cell 4"%string) /\ sget meta "description" = Some None) /\
  (exists meta h, novonix_metadata (novonix_file ["Protocol: C:/protocols/a.pro"]%string) = Ok (meta, h) /\ sget meta "protocol" = Some (Some "/protocols/a.pro"%string)) /\
  (exists meta h, novonix_metadata (map dos ["[Summary]"; "Cell: 1"; "[End Summary]"; "Date and Time,Cycle Number"]%string) = Ok (meta, h)
     /\ sget meta "cell" = Some (Some ("1" ++ String (ascii_of_nat 92) "r")%string)).
Proof.
  split; [|split]; eexists; eexists; (split; [vm_compute; reflexivity|]); vm_compute; auto.
Qed.
Print Assumptions C130_summary.
Print Assumptions C130_one_entry.
Print Assumptions C130_labels_refuted.
Example C130_example :
  exists meta h, novonix_metadata (novonix_file ["Version: 5.0.1"; "Serial Number: N-12"; "Channel: 7"; "Mass (g): "]%string) = Ok (meta, h) /\ h = 8%nat
    /\ sget meta "barcode" = Some (Some "N-12"%string) /\ sget meta "channel" = Some (Some "7"%string) /\ sget meta "mass" = Some None /\ sget meta "area" = Some None
  /\ taken_for (summary_entry "Serial Number" "N-12") "barcode".
Proof.
  eexists. eexists. split; [vm_compute; reflexivity|]. vm_compute [sget]. repeat (split; [reflexivity|]).
  exists [("channel", "Channel"); ("cell", "Cell")]%string, "Serial Number"%string. eexists. split; [reflexivity|]. split; [reflexivity|].
  intros kp I. cbn in I. repeat (destruct I as [<-|I]; [reflexivity|]). destruct I.
Qed.

(** ** C131 *)
(** The table of a Novonix file without blank lines. *)
Theorem C131_table pre header rows cells :
  Forall (fun x => only_blanks x = false) (pre ++ header :: rows) ->
  (forall r, In r (header :: rows) -> length (str_split "," r) = cells) ->
  novonix_frame (length pre + 1) (pre ++ header :: rows) = Ok (map Some (str_split "," header), map (fun r => map Some (str_split "," r)) rows).
Proof. exact (frame_ok pre header rows cells). Qed.
(** False: "the table starts at the header".  A blank line before the header makes a row of the data
    the header. *)
Theorem C131_blank_refuted :
  novonix_find_header ["[Summary]"; ""; "[Data]"; "Cycle Number,Step Type"; "1,0"; "1,1"]%string = Ok 4%nat /\
  novonix_frame 4 ["[Summary]"; ""; "[Data]"; "Cycle Number,Step Type"; "1,0"; "1,1"]%string = Ok ([Some "1"; Some "0"]%string, [[Some "1"; Some "1"]%string]).
Proof. split; vm_compute; reflexivity. Qed.
(** Times are read in either of two formats, without regard to the zone. *)
Theorem C131_dates (us : bool) sts : Forall proper sts -> novonix_iso (map (if us then novonix_us_text else novonix_text) sts) = Ok (map local_text sts).
Proof. exact (dates_all sts us). Qed.
(** A file with times in both formats is not read. *)
Theorem C131_mixed xs a b : proper a -> proper b -> In (novonix_text a) xs -> In (novonix_us_text b) xs -> novonix_iso xs = Err ValueError.
Proof. exact (dates_mixed xs a b). Qed.
Print Assumptions C131_table.
Print Assumptions C131_blank_refuted.
Print Assumptions C131_dates.
Print Assumptions C131_mixed.
Example C131_example :
  novonix_iso ["2020-10-22 03:29:26 PM"; "2020-10-22 12:00:00 AM"]%string = Ok ["2020-10-22T15:29:26"; "2020-10-22T00:00:00"]%string
  /\ novonix_iso ["10/22/2020 03:29:26 PM"]%string = Ok ["2020-10-22T15:29:26"]%string
  /\ novonix_text {| yr := 2020; mo := 10; dy := 22; hh := 15; mi := 29; ss := 26 |} = "2020-10-22 03:29:26 PM"%string
  /\ novonix_frame 2 ["[Data]"; "Cycle Number,Step Type"; "1,0"; "1,1"]%string
     = Ok ([Some "Cycle Number"; Some "Step Type"]%string, [[Some "1"; Some "0"]; [Some "1"; Some "1"]]%string).
Proof. vm_compute. auto. Qed.
