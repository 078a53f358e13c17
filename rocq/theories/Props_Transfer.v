(** C132-C134: moving and re-processing files in S3, and quoting. *)
From Verif Require Import Py Num Model_RawFile Model_Transfer Spec_Transfer Proofs_Transfer.

(** ** C132 *)
(** The files of a project are those of its folder; names with an excluded text in them are left out. *)
Theorem C132_listed inp folder_ paginate excluded pages : folder folder_ -> slash_free inp -> paginate (folder_ ++ "/")%string = map Some pages ->
  exists names, list_files inp folder_ paginate excluded = Ok names /\
    forall n, In n names <-> In n (concat pages) /\ contains (folder_ ++ "/" ++ inp) n = true /\ Forall (fun x => contains x n = false) excluded.
Proof. exact (listed inp folder_ paginate excluded pages). Qed.
(** A folder without files raises KeyError. *)
Theorem C132_no_files inp folder_ paginate excluded : folder folder_ -> In None (paginate (folder_ ++ "/")%string) ->
  list_files inp folder_ paginate excluded = Err KeyError.
Proof. exact (no_page inp folder_ paginate excluded). Qed.
(** A copy is put beside the original, with the name of the project replaced. *)
Theorem C132_key inp out key dir name name' : inp <> ""%string -> slash_free out -> in_folder key dir name -> renamed inp out name name' ->
  moved_key inp out key = (dir ++ "/" ++ name')%string.
Proof. exact (moved_key_ok inp out key dir name name'). Qed.
(** Finding (C132): if the name of the new project starts with a slash, the copy leaves the folder. *)
Theorem C132_absolute_refuted inp out key dir name name' : inp <> ""%string -> in_folder key dir name -> renamed inp out name name' -> prefix "/" name' = true ->
  moved_key inp out key = name'.
Proof.
  intros N K R P. unfold moved_key. rewrite (os_split_ok key dir name K), (renamed_ok inp out name name' N R). unfold os_join. rewrite P. reflexivity.
Qed.
Print Assumptions C132_absolute_refuted.
Example C132_absolute_example : moved_key "PreDiag" "/other" "raw/PreDiag_1.052" = "/other_1.052"%string.
Proof. reflexivity. Qed.
(** It is the name in the first line that is replaced; all other lines stay as they are. *)
Theorem C132_text inp out e l ls l' : inp <> ""%string -> line_end e -> one_line inp -> one_line l -> Forall one_line ls -> renamed inp out l l' ->
  moved_text inp out (join e (l :: ls)) = join (String lf "") (l' :: ls).
Proof. exact (moved_text_ok inp out e l ls l'). Qed.
(** Every file is sent that S3 takes, in order; a trial goes to another bucket; what is sent is the beginning of the new
    text, all of it where nothing is left in a buffer. *)
Theorem C132_uploads inp out bucket (dry : bool) object held accepted names :
  Forall (fun k => exists dir name, in_folder k dir name /\ contains inp name = true) names ->
  let target := if dry then "beep-sync-test-stage"%string else bucket in
  exists sent, transfer inp out bucket dry object held accepted names
      = Ok (map (fun k => (target, moved_key inp out k, sent k)) (filter (fun k => accepted target (moved_key inp out k)) names))
    /\ forall k, (exists rest, moved_text inp out (object k) = (sent k ++ rest)%string)
       /\ (held (moved_text inp out (object k)) = 0%nat -> sent k = moved_text inp out (object k)).
Proof.
  intros F target. exists (sent inp out object held). split; [exact (uploads inp out bucket dry object held accepted names F)|].
  intro k. split; [apply sent_prefix | apply sent_whole].
Qed.
(** False: "the copy holds the data of the file".  The copy is uploaded before it is closed, and a text of less than 8192
    bytes is then still in the buffer: an empty file is uploaded. *)
Theorem C132_content_refuted inp out bucket (dry : bool) object held accepted key dir name :
  (forall t, (Z.of_nat (String.length t) < 8192)%Z -> held t = String.length t) ->
  in_folder key dir name -> contains inp name = true -> (Z.of_nat (String.length (moved_text inp out (object key))) < 8192)%Z ->
  (forall b k, accepted b k = true) ->
  transfer inp out bucket dry object held accepted [key] = Ok [((if dry then "beep-sync-test-stage"%string else bucket), moved_key inp out key, ""%string)].
Proof.
  intros H K C L A. rewrite (uploads inp out bucket dry object held accepted [key]); [|constructor; [exists dir, name; auto | constructor]].
  cbn [filter]. rewrite A. cbn [map]. rewrite (sent_nothing inp out object held key H L). reflexivity.
Qed.
(** Files with the project only at the start of their names get different names. *)
Theorem C132_apart inp out dir dir' x y : inp <> ""%string -> slash_free out ->
  in_folder (dir ++ "/" ++ inp ++ x) dir (inp ++ x) -> in_folder (dir' ++ "/" ++ inp ++ y) dir' (inp ++ y) ->
  contains inp x = false -> contains inp y = false ->
  moved_key inp out (dir ++ "/" ++ inp ++ x) = moved_key inp out (dir' ++ "/" ++ inp ++ y) -> dir = dir' /\ x = y.
Proof. exact (moved_apart inp out dir dir' x y). Qed.
(** False: "different files get different names".  With the new name already in a name, one copy replaces another. *)
Theorem C132_apart_refuted : exists a b, a <> b /\ moved_key "PredictionDiagnostics" "PreDiag" a = moved_key "PredictionDiagnostics" "PreDiag" b
  /\ contains "d/PredictionDiagnostics" a = true /\ contains "d/PredictionDiagnostics" b = true.
Proof.
  exists "d/PredictionDiagnostics_1_PreDiag.052"%string, "d/PredictionDiagnostics_1_PredictionDiagnostics.052"%string.
  split; [discriminate|]. vm_compute. auto.
Qed.
Definition quick : string := "d3Batt/raw/maccor/PredictionDiagnostics_000151_test.052".
Example C132_example :
  moved_key "PredictionDiagnostics" "PreDiag" quick = "d3Batt/raw/maccor/PreDiag_000151_test.052"%string
  /\ in_folder quick "d3Batt/raw/maccor" "PredictionDiagnostics_000151_test.052"
  /\ renamed "PredictionDiagnostics" "PreDiag" "PredictionDiagnostics_000151_test.052" "PreDiag_000151_test.052"
  /\ moved_text "PredictionDiagnostics" "PreDiag" (String.concat (String cr (String lf "")) ["Filename: PredictionDiagnostics_1"; "Rec# PredictionDiagnostics"]%string)
     = String.concat (String lf "") ["Filename: PreDiag_1"; "Rec# PredictionDiagnostics"]%string.
Proof.
  split; [reflexivity|]. split; [|split; [|reflexivity]].
  - split; [reflexivity|]. split; [exists "d"%char, "3Batt/raw/maccor"%string, "r"%char; repeat split; discriminate|].
    unfold slash_free. cbn. intuition discriminate.
  - apply (renamed_front "PredictionDiagnostics" "PreDiag" "_000151_test.052"); [discriminate | reflexivity].
Qed.
Print Assumptions C132_listed.
Print Assumptions C132_no_files.
Print Assumptions C132_key.
Print Assumptions C132_text.
Print Assumptions C132_uploads.
Print Assumptions C132_content_refuted.
Print Assumptions C132_apart.
Print Assumptions C132_apart_refuted.

(** ** C133 *)
(** Of up to a thousand files those of the project that have more than 1000 bytes are announced again, the last one first,
    unless there is one structured file that is at most six hours old. *)
Theorem C133_events input output now s3_prefix s3_output : listing input s3_prefix <> [] -> (length (listing input s3_prefix) <= Z.to_nat 1000)%nat ->
  (forall o, In o input -> exists n, structured_name (o_key o) n) ->
  exists es os, scan input output now s3_prefix s3_output = Ok es /\ Forall2 event_of os es /\ subsequence (rev os) input /\
    forall o, In o os <-> In o (listing input s3_prefix) /\ chosen o /\
      exists n, structured_name (o_key o) n /\ ~ just_made output now (s3_output ++ "/" ++ n).
Proof.
  intros N L S. destruct (scan_ok input output now s3_prefix s3_output N L) as (es & os & E & F & B & I). exists es, os.
  split; [exact E|]. split; [exact F|]. split; [exact B|]. intro o. rewrite I. split.
  - intros (A & C & J). split; [exact A|]. split; [exact C|]. destruct (S o) as (n & D); [apply filter_In in A; apply A|]. exists n. split; [exact D|].
    rewrite <- (structure_name_ok _ _ D). exact J.
  - intros (A & C & n & D & J). split; [exact A|]. split; [exact C|]. rewrite (structure_name_ok _ _ D). exact J.
Qed.
(** A prefix without files raises KeyError. *)
Theorem C133_no_files input output now s3_prefix s3_output : listing input s3_prefix = [] -> scan input output now s3_prefix s3_output = Err KeyError.
Proof. intro E. unfold scan, list_objects. change (filter (fun o => prefix s3_prefix (o_key o)) input) with (listing input s3_prefix). rewrite E. reflexivity. Qed.
(** False: "all files at the location are announced".  Only a thousand are listed. *)
Theorem C133_all_refuted input output now s3_prefix s3_output l1 o l2 es : listing input s3_prefix = (l1 ++ o :: l2)%list -> length l1 = Z.to_nat 1000 ->
  ~ In (o_key o) (map o_key l1) -> scan input output now s3_prefix s3_output = Ok es -> ~ In (o_key o) (map ev_filename es).
Proof. exact (beyond input output now s3_prefix s3_output l1 o l2 es). Qed.
(** False: "a file that was not structured is announced".  Files that differ after the first dot of their names share one
    structured file: here the one of channel 052 stands for that of channel 053 too. *)
Definition raw (k : string) : s3_object := {| o_key := k; o_size := 5000; o_etag := "h"; o_modified := 0 |}.
Theorem C133_unstructured_refuted : exists a b s, o_key a <> o_key b /\ chosen a /\ chosen b /\
  scan [a; b] [s] 7200 "raw/" "structure" = Ok [] /\ o_key s = "structure/PredictionDiagnostics_000151_structure.json"%string.
Proof.
  exists (raw "raw/PredictionDiagnostics_000151.052"), (raw "raw/PredictionDiagnostics_000151.053"), (raw "structure/PredictionDiagnostics_000151_structure.json").
  split; [discriminate|]. split; [repeat split; reflexivity|]. split; [repeat split; reflexivity|]. split; vm_compute; reflexivity.
Qed.
Example C133_example :
  scan [raw "raw/PredictionDiagnostics_1.052"; raw "raw/PredictionDiagnostics_1x.052"; raw "raw/PredictionDiagnostics_2.052"; raw "raw/Other_2.052"]
    [] 0 "raw/" "structure"
  = Ok (map (fun k => {| ev_filename := k; ev_bucket := "beep-input-data-stage"; ev_size := 5000; ev_hash := "h" |})
      ["raw/PredictionDiagnostics_2.052"; "raw/PredictionDiagnostics_1.052"]%string).
Proof. vm_compute. reflexivity. Qed.
Example C133_all_example : exists input l1 o l2, listing input "raw/" = (l1 ++ o :: l2)%list /\ length l1 = Z.to_nat 1000 /\ ~ In (o_key o) (map o_key l1) /\ chosen o.
Proof.
  exists (repeat (raw "raw/PredictionDiagnostics_1.052") 1000 ++ [raw "raw/PredictionDiagnostics_2.052"]),
    (repeat (raw "raw/PredictionDiagnostics_1.052") 1000), (raw "raw/PredictionDiagnostics_2.052"), [].
  split; [vm_compute; reflexivity|]. split; [vm_compute; reflexivity|]. split; [|repeat split; reflexivity].
  intro I. apply in_map_iff in I as (x & E & I). apply repeat_spec in I. subst x. discriminate.
Qed.
Print Assumptions C133_events.
Print Assumptions C133_no_files.
Print Assumptions C133_all_refuted.
Print Assumptions C133_unstructured_refuted.

(** ** C134 *)
(** A JSON text comes through the command line as one word, unchanged. *)
Theorem C134_posix s : ~ In "'"%char (list_ascii_of_string s) -> sh_words false None (os_format false s) = Some [s].
Proof. exact (posix s). Qed.
Theorem C134_windows s : win_safe s -> win_words false 0 None (os_format true s) = [s].
Proof. exact (windows s). Qed.
(** False without the conditions: two apostrophes are lost, one leaves the command unfinished. *)
Theorem C134_posix_refuted : exists s t, sh_words false None (os_format false s) = Some [t] /\ s <> t
  /\ sh_words false None (os_format false "{comment: it's}") = None.
Proof. exists "rock 'n' roll"%string, "rock n roll"%string. split; [vm_compute; reflexivity|]. split; [discriminate | reflexivity]. Qed.
(** On Windows a quotation mark that JSON escapes ends the word. *)
Definition inch : string := ("{" ++ String quote_mark "d" ++ String quote_mark ": " ++ String quote_mark "5" ++ String backslash (String quote_mark " disk") ++ String quote_mark "}")%string.
Theorem C134_windows_refuted : exists a b, win_words false 0 None (os_format true inch) = [a; b].
Proof. eexists. eexists. vm_compute. reflexivity. Qed.
Definition mode_run : string := ("{" ++ String quote_mark "mode" ++ String quote_mark ": " ++ String quote_mark "run" ++ String quote_mark "}")%string.
Example C134_example : win_safe mode_run /\ ~ In "'"%char (list_ascii_of_string mode_run)
  /\ os_format false mode_run = ("'" ++ mode_run ++ "'")%string
  /\ win_words false 0 None ("validate " ++ os_format true mode_run) = ["validate"%string; mode_run].
Proof.
  split; [split; [reflexivity | discriminate]|]. split; [cbn; intuition discriminate|]. split; vm_compute; reflexivity.
Qed.
Print Assumptions C134_posix.
Print Assumptions C134_windows.
Print Assumptions C134_posix_refuted.
Print Assumptions C134_windows_refuted.
