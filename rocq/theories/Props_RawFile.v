(** C122-C127: reading raw Maccor and Arbin files and impedance spectra. *)
From Verif Require Import Py Num Model_Text Model_Arbin Model_Maccor Model_Cmd Model_Stamp Model_RawFile.
From Verif Require Import Spec_Numeral Spec_Maccor Spec_Cmd Spec_Stamp Spec_RawFile Proofs_RawFile.
Local Open Scope string_scope.

(** ** C122 *)
(** The five values of the header line are the metadata of a Maccor file, and a number as the
    extension is its channel. *)
Theorem C122_metadata dir stem ext z first t1 t2 t3 t4 t5 today test filename procedure barcode :
  holds first (header "" (header_line t1 t2 t3 t4 t5)) -> unambiguous "" (header_line t1 t2 t3 t4 t5) ->
  holds t1 today -> holds t2 test -> holds t3 filename -> holds t4 procedure -> holds t5 barcode ->
  good_name stem ext -> integer ext z ->
  maccor_metadata (file_name dir stem ext) first = Ok
    [("_today_datetime", MText today); ("start_datetime", MText test); ("filename", MText filename);
     ("protocol", MText procedure); ("barcode", MText barcode); ("channel_id", MNum z)].
Proof.
  intros H U H1 H2 H3 H4 H5 G I. rewrite (maccor_metadata_ok _ _ _ _ _ _ _ _ _ _ _ _ _ H eq_refl U H1 H2 H3 H4 H5).
  rewrite (channel_number _ _ _ _ G I). reflexivity.
Qed.
(** Without a number there the other values are the same and no channel is known. *)
Theorem C122_no_channel dir stem ext first t1 t2 t3 t4 t5 today test filename procedure barcode :
  holds first (header "" (header_line t1 t2 t3 t4 t5)) -> unambiguous "" (header_line t1 t2 t3 t4 t5) ->
  holds t1 today -> holds t2 test -> holds t3 filename -> holds t4 procedure -> holds t5 barcode ->
  good_name stem ext -> (forall z, ~ integer ext z) ->
  exists d, maccor_metadata (file_name dir stem ext) first = Ok d /\
    sget d "_today_datetime" = Some (MText today) /\ sget d "start_datetime" = Some (MText test) /\
    sget d "filename" = Some (MText filename) /\ sget d "protocol" = Some (MText procedure) /\
    sget d "barcode" = Some (MText barcode) /\ sget d "channel_id" = None.
Proof.
  intros H U H1 H2 H3 H4 H5 G I. rewrite (maccor_metadata_ok _ _ _ _ _ _ _ _ _ _ _ _ _ H eq_refl U H1 H2 H3 H4 H5).
  rewrite (channel_none _ _ _ G I). eexists. split; [reflexivity|]. repeat split; reflexivity.
Qed.
Definition sample_line : string :=
  "Today's Date 07/15/2019  Date of Test: 07/12/2019  Filename: C:\data\PreDiag_000107.010  Procedure: PreDiag_000107.000  Comment/Barcode: EXP".
(** False: "the metadata always has an entry channel_id".  For a name without a number it is called
    "channnel_id". *)
Theorem C122_channel_refuted : exists path d, maccor_metadata path sample_line = Ok d /\ sget d "channel_id" = None /\ sget d "channnel_id" = Some MNone.
Proof. exists "/data/PreDiag_000107.txt". eexists. split; [vm_compute; reflexivity|]. split; reflexivity. Qed.
Print Assumptions C122_metadata.
Print Assumptions C122_no_channel.
Print Assumptions C122_channel_refuted.

Example C122_example : maccor_metadata "/data/PreDiag_000107_000107.010" (sample_line ++ eol) = Ok
  [("_today_datetime", MText "07/15/2019"); ("start_datetime", MText "07/12/2019"); ("filename", MText "C:\data\PreDiag_000107.010");
   ("protocol", MText "PreDiag_000107.000"); ("barcode", MText "EXP"); ("channel_id", MNum 10)]
  /\ good_name "PreDiag_000107_000107" "010".
Proof. split; [vm_compute; reflexivity|]. repeat split. exists "P"%char. split; [left; reflexivity | discriminate]. Qed.

(** ** C123 *)
(** The project at the start of the name of an Arbin file decides what the file is validated
    against; all Maccor files are validated against one schema. *)
Theorem C123_arbin dir d project rest : plain_project project -> slash_free rest ->
  arbin_schema dir (d ++ "/" ++ project ++ "_" ++ rest) = path_join dir (arbin_schema_file project).
Proof. exact (arbin_schema_project dir d project rest). Qed.
Theorem C123_maccor dir path : maccor_schema dir path = path_join dir "schema-maccor-2170.yaml".
Proof. exact (maccor_schema_const dir path). Qed.
Print Assumptions C123_arbin.
Print Assumptions C123_maccor.
Example C123_example : plain_project "PriorLAMVal" /\
  arbin_schema "/schemas" "/data/PriorLAMVal_000024_00003E_Raw.csv" = "/schemas/schema-arbin-18650-2170.yaml" /\
  arbin_schema "/schemas" "/data/2017-12-04_4_65C-69per_6C_CH29.csv" = "/schemas/schema-arbin-lfp.yaml".
Proof. vm_compute. auto. Qed.

(** ** C124 *)
Section Columns.
  Context {V : Type} (missing : V -> bool) (cast : string -> list V -> result (list V)).
  Context (quantity : string -> string -> list (string * list V) -> result (list V)) (stamps : list V -> result (list V)).
  Notation read_maccor := (maccor_table cast quantity stamps maccor_types maccor_columns).
  Notation read_arbin := (arbin_table missing cast stamps arbin_types arbin_columns).

  (** Wherever a standard column stands in a Maccor file, and in whatever case its name is written, it is
      the column of its standard name, in its standard type. *)
  Theorem C124_standard raw out k n ty k' c : distinct_columns maccor_columns added raw -> read_maccor raw = Ok out ->
    In (k, n, ty) maccor_standard -> lower k' = lower k -> In (k', c) raw ->
    exists c', sget out n = Some c' /\ cast ty c = Ok c'.
  Proof.
    intros [N A] H I L R. destruct (maccor_ok cast quantity stamps _ _ _ _ H N A) as (G & _). specialize (G k' c R).
    unfold result_name, converted in G. rewrite L in G. cbn [maccor_standard In] in I.
    repeat (destruct I as [[= <- <- <-] | I]; [apply G; discriminate|]). destruct I.
  Qed.
  (** Columns that are not standard keep their values, under their names in lower case; the state is kept as a text. *)
  Theorem C124_others raw out k c : distinct_columns maccor_columns added raw -> read_maccor raw = Ok out -> In (k, c) raw ->
    (~ In (lower k) (map fst maccor_types) -> ~ In (lower k) (map fst maccor_columns) -> lower k <> "_state" -> sget out (lower k) = Some c) /\
    (lower k = "state" -> exists c1 c', cast "category" c = Ok c1 /\ cast "str" c1 = Ok c' /\ sget out "_state" = Some c').
  Proof.
    intros [N A] H R. destruct (maccor_ok cast quantity stamps _ _ _ _ H N A) as (G & G2 & _). split.
    - intros T C S. specialize (G k c R). assert (E : result_name maccor_columns k = lower k).
      { unfold result_name. destruct (find _ maccor_columns) as [[a b]|] eqn:F; [|reflexivity]. apply find_some in F as [F E]. apply String.eqb_eq in E. cbn in E. subst a. destruct C. apply in_map_iff. eexists. split; [|exact F]. reflexivity. }
      rewrite E in G. destruct (G S) as (c' & X & Y). unfold converted in Y. destruct (sget maccor_types (lower k)) eqn:Z; [|subst; exact X].
      destruct T. apply smem_in. apply smem_iff. eauto.
    - intro L. specialize (G2 k c R). unfold result_name, converted in G2. rewrite L in G2. exact (G2 eq_refl).
  Qed.
  (** The capacities and energies of charge and discharge are computed from the columns of the result, the instants
      from its dates, and there are no further columns. *)
  Theorem C124_added raw out : distinct_columns maccor_columns added raw -> read_maccor raw = Ok out ->
    (forall q s n, In (q, s, n) summed -> exists t c, quantity q s t = Ok c /\ sget out n = Some c /\
       forall k c, In (k, c) raw -> sget t (result_name maccor_columns k) = sget out (result_name maccor_columns k)) /\
    (exists c d, sget out "date_time" = Some c /\ stamps c = Ok d /\ sget out "date_time_iso" = Some d) /\
    (forall n, In n (map fst out) <-> (exists k c, In (k, c) raw /\ n = result_name maccor_columns k) \/ In n added).
  Proof. intros [N A] H. destruct (maccor_ok cast quantity stamps _ _ _ _ H N A) as (_ & _ & G). exact G. Qed.
  (** A file is refused if a column with a type is missing; with all of them it is read when no conversion fails. *)
  Theorem C124_missing raw k ty : In (k, ty) maccor_types -> (forall k' c, In (k', c) raw -> lower k' <> k) -> read_maccor raw = Err KeyError.
  Proof. exact (maccor_missing cast quantity stamps _ _ raw k ty). Qed.
  Theorem C124_reads raw : (forall k ty, In (k, ty) maccor_types -> exists k' c, In (k', c) raw /\ lower k' = k) ->
    (forall ty c, exists c', cast ty c = Ok c') -> (forall q s t, exists c, quantity q s t = Ok c) -> (forall c, exists d, stamps c = Ok d) ->
    exists out, read_maccor raw = Ok out.
  Proof. exact (maccor_total cast quantity stamps raw). Qed.
  (** The same for Arbin files, where a column with missing values is not converted and only the date must be there. *)
  Theorem C124_arbin raw out k n ty k' c : distinct_columns arbin_columns ["date_time_iso"] raw -> read_arbin raw = Ok out ->
    In (k, n, ty) arbin_standard -> lower k' = lower k -> In (k', c) raw ->
    exists c', sget out n = Some c' /\ if existsb missing c then c' = c else cast ty c = Ok c'.
  Proof.
    intros [N A] H I L R. destruct (arbin_ok missing cast (fun _ _ _ => Ok []) stamps _ _ _ _ H N) as (G1 & G2 & _).
    { intros k0 c0 I0 E. apply (A _ _ I0). left. symmetry. exact E. }
    specialize (G1 k' c R). specialize (G2 k' c R). unfold result_name, converted in G1, G2. rewrite L in G1, G2. destruct (existsb missing c).
    - exists c. split; [|reflexivity]. cbn [arbin_standard In] in I. repeat (destruct I as [[= <- <- <-] | I]; [apply G2; reflexivity|]). destruct I.
    - cbn [arbin_standard In] in I. repeat (destruct I as [[= <- <- <-] | I]; [apply G1; reflexivity|]). destruct I.
  Qed.
  Theorem C124_arbin_added raw out : distinct_columns arbin_columns ["date_time_iso"] raw -> read_arbin raw = Ok out ->
    (exists c d, sget out "date_time" = Some c /\ stamps c = Ok d /\ sget out "date_time_iso" = Some d) /\
    (forall n, In n (map fst out) <-> (exists k c, In (k, c) raw /\ n = result_name arbin_columns k) \/ n = "date_time_iso").
  Proof.
    intros [N A] H. destruct (arbin_ok missing cast (fun _ _ _ => Ok []) stamps _ _ _ _ H N) as (_ & _ & G); [|exact G].
    intros k0 c0 I0 E. apply (A _ _ I0). left. symmetry. exact E.
  Qed.
  Theorem C124_arbin_missing raw : (forall k c, In (k, c) raw -> lower k <> "datetime" /\ lower k <> "date_time") ->
    (forall ty c, exists c', cast ty c = Ok c') -> read_arbin raw = Err KeyError.
  Proof.
    intros N K. apply arbin_no_date; [|exact K]. intros k c I. destruct (N _ _ I) as [N1 N2]. unfold result_name.
    destruct (find _ arbin_columns) as [[a b]|] eqn:F; [|exact N2]. apply find_some in F as [F E]. apply String.eqb_eq in E. cbn [fst] in E. subst a.
    cbn [arbin_columns In] in F. repeat (destruct F as [[= E <-] | F]; [try discriminate; congruence|]). destruct F.
  Qed.
End Columns.
Print Assumptions C124_standard.
Print Assumptions C124_others.
Print Assumptions C124_added.
Print Assumptions C124_missing.
Print Assumptions C124_reads.
Print Assumptions C124_arbin.
Print Assumptions C124_arbin_added.
Print Assumptions C124_arbin_missing.
(** A file with all columns and one of its own; cells are texts here, and a conversion writes the type before them. *)
Definition sample_raw : list (string * list string) := ("Temp 1", ["25"]) :: map (fun p => (fst p, [fst p])) (rev maccor_types).
Definition sample_cast (ty : string) (c : list string) : result (list string) := Ok (map (fun x => ty ++ " " ++ x) c).
Example C124_example : distinct_columns maccor_columns added sample_raw /\
  exists out, maccor_table sample_cast (fun q s _ => Ok [q ++ " " ++ s]) (fun c => Ok c) maccor_types maccor_columns sample_raw = Ok out /\
    sget out "current" = Some ["float32 amps"] /\ sget out "_state" = Some ["str category state"] /\ sget out "temp 1" = Some ["25"] /\
    sget out "discharge_energy" = Some ["energy discharge"] /\ sget out "date_time_iso" = Some ["str dpt time"].
Proof.
  split.
  - assert (K : forallb (fun n => (count_occ string_dec (map (fun kc => result_name maccor_columns (fst kc)) sample_raw) n =? 1)%nat && negb (existsb (String.eqb n) added))
      (map (fun kc => result_name maccor_columns (fst kc)) sample_raw) = true) by (vm_compute; reflexivity).
    rewrite forallb_forall in K. split.
    + apply (NoDup_count_occ' string_dec). intros n I. specialize (K n I). apply andb_true_iff in K as [K _]. apply Nat.eqb_eq. exact K.
    + intros k c I J. specialize (K (result_name maccor_columns k)). apply andb_true_iff in K as [_ K]; [|apply in_map_iff; exists (k, c); auto].
      apply negb_true_iff in K. assert (X : existsb (String.eqb (result_name maccor_columns k)) added = true) by (apply existsb_exists; eexists; split; [exact J | apply String.eqb_refl]). congruence.
  - eexists. split; [vm_compute; reflexivity|]. repeat split; vm_compute; reflexivity.
Qed.

(** ** C125 *)
(** The metadata of stem.csv is looked for in stem_Metadata.csv; if there is none there is no metadata. *)
Theorem C125_path stem : contains ".csv" stem = false -> arbin_metadata_path (stem ++ ".csv") None = stem ++ "_Metadata.csv".
Proof. exact (arbin_path stem). Qed.
Theorem C125_given path m : m <> "" -> arbin_metadata_path path (Some m) = m.
Proof. intro N. unfold arbin_metadata_path. destruct (String.eqb_spec m ""); [congruence | reflexivity]. Qed.
Theorem C125_empty path : arbin_metadata_path path (Some "") = arbin_metadata_path path None.
Proof. reflexivity. Qed.
Theorem C125_none csv path given : csv (arbin_metadata_path path given) = None -> arbin_metadata csv path given = Ok ([], None).
Proof. intro E. unfold arbin_metadata. rewrite E. reflexivity. Qed.
(** Its first row is the metadata, under the standard names. *)
Theorem C125_values csv path given t : csv (arbin_metadata_path path given) = Some t -> t <> [] -> Forall (fun kc => snd kc <> []) t ->
  exists d, arbin_metadata csv path given = Ok (d, Some (arbin_metadata_path path given)) /\
    Forall2 (fun kc kv => fst kv = result_name arbin_metadata_fields (fst kc) /\ exists r, snd kc = snd kv :: r) t d.
Proof. exact (arbin_metadata_found csv path given t). Qed.
Theorem C125_names k n k' : In (k, n) arbin_named -> lower k' = lower k -> result_name arbin_metadata_fields k' = n.
Proof.
  intros I L. unfold result_name. rewrite L. cbn [arbin_named In] in I. repeat (destruct I as [[= <- <-] | I]; [reflexivity|]). destruct I.
Qed.
(** False: "metadata is read from a metadata file".  The extension is looked for in lower case; for run.CSV the first
    record of the data itself becomes the metadata. *)
Theorem C125_own_file_refuted : exists csv path d, csv path = Some [("Test_Time", [MText "0.0"]); ("Voltage", [MText "3.2"])] /\
  (forall p, p <> path -> csv p = None) /\ arbin_metadata csv path None = Ok (d, Some path) /\ sget d "voltage" = Some (MText "3.2").
Proof.
  exists (fun p => if String.eqb p "/data/run.CSV" then Some [("Test_Time", [MText "0.0"]); ("Voltage", [MText "3.2"])] else None), "/data/run.CSV". eexists.
  split; [reflexivity|]. split; [intros p N; apply String.eqb_neq in N; rewrite N; reflexivity|]. split; [vm_compute; reflexivity | reflexivity].
Qed.
Print Assumptions C125_path.
Print Assumptions C125_given.
Print Assumptions C125_empty.
Print Assumptions C125_none.
Print Assumptions C125_values.
Print Assumptions C125_names.
Print Assumptions C125_own_file_refuted.
Example C125_example :
  let csv p := if String.eqb p "/data/cell_Metadata.csv" then Some [("Item_ID", [MText "EL1"; MText "EL2"]); ("IV_Ch_ID", [MNum 28; MNum 29])] else None in
  arbin_metadata csv "/data/cell.csv" None = Ok ([("barcode", MText "EL1"); ("channel_id", MNum 28)], Some "/data/cell_Metadata.csv").
Proof. vm_compute. reflexivity. Qed.

(** ** C126 *)
(** The spectra of dir/stem.ext are the files dir/stem.*.ext, each once. *)
Theorem C126_found listing other dir stem ext : no_wildcard dir -> plain_name stem ext ->
  forall p, In p (glob listing other (eis_pattern (file_name dir stem ext))) <->
    exists n, In n (listing (dir ++ "/")) /\ spectrum_of stem ext n /\ p = dir ++ "/" ++ n.
Proof. intros W (W2 & W3 & S1 & S2 & D). exact (glob_ok listing other dir stem ext W W2 W3 S1 S2 D). Qed.
Theorem C126_once listing other dir stem ext : no_wildcard dir -> plain_name stem ext ->
  NoDup (listing (dir ++ "/")) -> NoDup (glob listing other (eis_pattern (file_name dir stem ext))).
Proof. intros W (W2 & W3 & S1 & S2 & D). exact (glob_once listing other dir stem ext W W2 W3 S1 S2 D). Qed.
(** Loading reads all of them, or the paths that are given instead, in order. *)
Theorem C126_loaded listing lines_of other raw runs paths : load_eis listing lines_of other raw [] = Ok (runs, paths) ->
  paths = glob listing other (eis_pattern raw) /\ Forall2 (fun p r => exists ls, lines_of p = Some ls /\ eis_from_file ls = Ok r) paths runs.
Proof. exact (load_eis_ok listing lines_of other raw runs paths). Qed.
Theorem C126_given listing lines_of other raw ps runs paths : ps <> [] -> load_eis listing lines_of other raw ps = Ok (runs, paths) ->
  paths = ps /\ Forall2 (fun p r => exists ls, lines_of p = Some ls /\ eis_from_file ls = Ok r) paths runs.
Proof. exact (load_eis_given listing lines_of other raw ps runs paths). Qed.
(** What is read from a spectrum file: the sweep, the method, the name, the time it was started, the words of the
    ninth line, and the cells of every line of the table that is not blank. *)
Theorem C126_spectrum l0 a1 t1 v1 v1' method filename l4 l5 a6 t6 d u w st l7 l8 ws l9 rs ls :
  labelled "Frequency Sweep:" a1 t1 -> holds t1 v1 -> corrected v1 v1' ->
  labelled "Start Date:" a6 t6 -> holds t6 (d ++ "Start Time:" ++ u) -> holds d (eis_date w st) -> holds u (eis_time st) ->
  In w weekdays -> proper st -> ss st = 0%Z -> has_words l8 ws -> Forall one_line rs -> Forall2 line_as_read rs ls ->
  filter shown_line rs <> [] ->
  eis_from_file (app [l0; a1 ++ "Frequency Sweep:" ++ t1; method; filename; l4; l5; a6 ++ "Start Date:" ++ t6; l7; l8; l9] ls) =
    Ok ({| em_sweep := v1'; em_method := method; em_filename := filename; em_start := local_text st; em_line8 := ws |},
        map cells_of (filter shown_line rs)).
Proof.
  intros L1 H1 C1 L6 H6 Hd Hu W P S Hw F R N. rewrite (eis_file_ok l0 a1 t1 v1 v1' method filename l4 l5 a6 t6 d u w st l7 l8 ws l9 rs ls) by assumption.
  destruct (filter shown_line rs); [congruence | reflexivity].
Qed.
(** A file that ends before its table is refused. *)
Theorem C126_no_table lines : (length lines <= 10)%nat -> exists e, eis_from_file lines = Err e.
Proof. exact (eis_short lines). Qed.
(** False: "only spectra are loaded".  For a path without an extension the cycler's own file is taken for a spectrum. *)
Theorem C126_own_file_refuted : exists listing other raw, glob listing other (eis_pattern raw) = [raw].
Proof. exists (fun _ => ["run"]), (fun _ => []), "/data/run". vm_compute. reflexivity. Qed.
Print Assumptions C126_found.
Print Assumptions C126_once.
Print Assumptions C126_loaded.
Print Assumptions C126_given.
Print Assumptions C126_spectrum.
Print Assumptions C126_no_table.
Print Assumptions C126_own_file_refuted.

Definition sample_spectrum : list string :=
  ["Impedance" ++ eol; "Frequency Sweep: Open Circut Potential" ++ eol; "Method: A" ++ eol; "File: B" ++ eol; eol; eol;
   "Start Date: Wednesday, July 03, 2019 Start Time: 09:05" ++ eol; eol; "Cell 1 " ++ eol; eol;
   "Freq" ++ tab ++ "Z" ++ eol; "1000" ++ tab ++ "0.03" ++ eol; " " ++ eol; "10" ++ tab ++ "0.05"].
Example C126_example :
  glob (fun _ => ["run.092"; "run.E1.092"; "run.E2.092"; "run.E1.091"]) (fun _ => []) (eis_pattern (file_name "/data" "run" "092")) = ["/data/run.E1.092"; "/data/run.E2.092"]
  /\ eis_from_file sample_spectrum = Ok ({| em_sweep := "Open Circuit Potential"; em_method := "Method: A" ++ eol; em_filename := "File: B" ++ eol;
       em_start := "2019-07-03T09:05:00"; em_line8 := ["Cell"; "1"] |}, [["Freq"; "Z"]; ["1000"; "0.03"]; ["10"; "0.05"]]).
Proof. vm_compute. auto. Qed.

(** ** C127 *)
(** A datapath with spectra cannot be read back from the file it is saved in; any other one with absolute paths can. *)
Theorem C127_reload filename paths : prefix "/" filename = true -> Forall (fun kp => absolute (snd kp) /\ single (snd kp)) paths ->
  exists paths', reload_paths filename paths = Ok paths' /\ sget paths' "structured" = Some (OnePath filename) /\ forall k, k <> "structured" -> sget paths' k = sget paths k.
Proof.
  intros A F. apply reload_works; [exact A|]. eapply Forall_impl; [|exact F]. intros [k p] [H1 H2]. destruct p; cbn in *; auto.
Qed.
Theorem C127_reload_refuted filename paths l : prefix "/" filename = true -> Forall (fun kp => absolute (snd kp)) paths ->
  In ("eis", ManyPaths l) paths -> l <> [] -> reload_paths filename paths = Err TypeError.
Proof. intros A F. apply reload_fails; [exact A|]. eapply Forall_impl; [|exact F]. intros [k p] H. destruct p; exact H. Qed.
(** A spectrum with a table of metadata is the same after as_dict and from_dict, up to the labels of the rows of its data. *)
Theorem C127_round_trip {V} (e : eis V) m : e_meta e = MetaTable m -> NoDup (et_index m) -> et_cols m <> [] ->
  Forall (fun kc => length (snd kc) = length (et_index m)) (et_cols m) ->
  exists d, eis_as_dict e = Ok d /\ et_cols (e_data (eis_from_dict d)) = et_cols (e_data e) /\ e_meta (eis_from_dict d) = MetaTable m.
Proof. exact (eis_round e m). Qed.
(** False for the spectra read from Maccor files: their metadata is a dictionary, and as_dict fails on every one. *)
Theorem C127_maccor_refuted {V} (e : eis V) d : e_meta e = MetaDict d -> eis_as_dict e = Err AttributeError.
Proof. intro E. unfold eis_as_dict. rewrite E. reflexivity. Qed.
Print Assumptions C127_reload.
Print Assumptions C127_reload_refuted.
Print Assumptions C127_round_trip.
Print Assumptions C127_maccor_refuted.
Example C127_example :
  reload_paths "/s/run.json" [("raw", OnePath "/data/run.092"); ("metadata", NoPath); ("eis", ManyPaths ["/data/run.E1.092"])] = Err TypeError
  /\ reload_paths "/s/run.json" [("raw", OnePath "/data/run.092"); ("metadata", NoPath)] = Ok [("raw", OnePath "/data/run.092"); ("metadata", NoPath); ("structured", OnePath "/s/run.json")]
  /\ exists d, eis_as_dict {| e_data := {| et_index := [5]%Z; et_cols := [("Z", [1]%Z)] |}; e_meta := MetaTable {| et_index := [7]%Z; et_cols := [("start", [2]%Z)] |} |} = Ok d
    /\ eis_from_dict d = {| e_data := {| et_index := [0]%Z; et_cols := [("Z", [1]%Z)] |}; e_meta := MetaTable {| et_index := [7]%Z; et_cols := [("start", [2]%Z)] |} |}.
Proof. split; [reflexivity|]. split; [reflexivity|]. eexists. split; reflexivity. Qed.
