(** Model of the scripts that move and re-process files in S3 and of the quoting of JSON on the command line:
    ProjectTransfer (beep/utils/project_transfer.py:23-105), scan (beep/utils/retrigger.py:76-128) and
    os_format (beep/utils/__init__.py:52-66).
    Simplifications: texts are lists of bytes and can be decoded; a project name is not empty; times are
    whole seconds. *)
From Verif Require Import Py Num Model_Arbin Model_RawFile.

(** ** Paths *)

(** os.path.join (for [list_files], beep/utils/project_transfer.py:45, 99) *)
Definition os_join (a b : string) : string :=
  if prefix "/" b then b
  else if String.eqb a "" || Ascii.eqb (last (list_ascii_of_string a) " "%char) "/" then (a ++ b)%string
  else (a ++ "/" ++ b)%string.
(** str.rstrip("/") (for [os_split], beep/utils/project_transfer.py:81) *)
Fixpoint rstrip_slash (s : string) : string :=
  match s with
  | EmptyString => EmptyString
  | String c r => match rstrip_slash r with EmptyString => if Ascii.eqb c "/" then EmptyString else String c EmptyString | t => String c t end
  end.
(** os.path.split, for keys that do not start with a slash (beep/utils/project_transfer.py:81) *)
Definition os_split (p : string) : string * string :=
  let l := str_split "/" p in (rstrip_slash (join "/" (removelast l)), last l ""%string).

(** ** Moving files to another project *)

Section Transfer.
  (** beep/utils/project_transfer.py:34-38 *)
  Variables input_project output_project bucket prefix_ : string.
  Variable dry_run : bool.
  (** the pages of the listing of a prefix; a page without objects has no "Contents"
      (for [all_objects], beep/utils/project_transfer.py:62-64) *)
  Variable paginate : string -> list (option (list string)).
  (** the text of an object (for [moved_text], beep/utils/project_transfer.py:83-85) *)
  Variable object : string -> string.
  (** how many bytes of what was written are not yet in the file when it is uploaded: it is neither closed nor flushed
      (for [transfer], beep/utils/project_transfer.py:92-101) *)
  Variable held : string -> nat.
  (** whether S3 takes an upload; a ClientError is only printed (for [transfer], beep/utils/project_transfer.py:97-103) *)
  Variable accepted : string -> string -> bool.

  (** beep/utils/project_transfer.py:51-67 get_all_objects *)
  Definition all_objects : result (list string) :=
    let p := if Ascii.eqb (last (list_ascii_of_string prefix_) " "%char) "/" then prefix_ else (prefix_ ++ "/")%string in
    let! pages := mapM (fun page => match page with Some l => Ok l | None => Err KeyError end) (paginate p) in
    Ok (concat pages).
  (** beep/utils/project_transfer.py:40-49 get_list_files *)
  Definition list_files (excluded : list string) : result (list string) :=
    let! objects := all_objects in
    let names := filter (contains (os_join prefix_ input_project)) objects in
    Ok (fold_left (fun names x => filter (fun n => negb (contains x n)) names) excluded names).

  (** reading a text file: "\r\n" and "\r" are line ends too (for [moved_text], beep/utils/project_transfer.py:86-87) *)
  Fixpoint universal (s : string) : string :=
    match s with
    | EmptyString => EmptyString
    | String c r => if (nat_of_ascii c =? 13)%nat
                    then match r with
                         | String d r' => if (nat_of_ascii d =? 10)%nat then String nl (universal r') else String nl (universal r)
                         | EmptyString => String nl ""
                         end
                    else String c (universal r)
    end.
  (** readline: up to the first line end (for [moved_text], beep/utils/project_transfer.py:87) *)
  Fixpoint first_line (s : string) : string * string :=
    match s with
    | EmptyString => (""%string, ""%string)
    | String c r => if Ascii.eqb c nl then (String c "", r) else let (a, b) := first_line r in (String c a, b)
    end.
  (** the text written (beep/utils/project_transfer.py:86-94) *)
  Definition moved_text (text : string) : string :=
    let (line, rest) := first_line (universal text) in (replace_text input_project output_project line ++ rest)%string.
  (** the key of the copy (beep/utils/project_transfer.py:81, 99-101) *)
  Definition moved_key (key : string) : string :=
    let (directory, name) := os_split key in os_join directory (replace_text input_project output_project name).
  (** beep/utils/project_transfer.py:69-105 download_and_modify: what is uploaded, in order, as bucket, key and text.
      Simplification: a name without the input project, which would be overwritten while it is read, raises an exception. *)
  Definition transfer (names : list string) : result (list (string * string * string)) :=
    let! all := mapM (fun key =>
        if contains input_project (snd (os_split key)) then
          let text := moved_text (object key) in
          let sent := substring 0 (String.length text - held text) text in
          Ok (if dry_run then "beep-sync-test-stage"%string else bucket, moved_key key, sent)
        else Err (OtherError "overwritten")) names in
    Ok (filter (fun u => accepted (fst (fst u)) (snd (fst u))) all).
End Transfer.

(** ** Triggering the processing of files again *)

(** an object of a listing (for [scan], beep/utils/retrigger.py:85-104) *)
Record s3_object := { o_key : string; o_size : Z; o_etag : string; o_modified : Z }.
(** beep/utils/retrigger.py:119-124 *)
Record event := { ev_filename : string; ev_bucket : string; ev_size : Z; ev_hash : string }.
(** list_objects_v2: at most a thousand objects (for [scan], beep/utils/retrigger.py:85, 104) *)
Definition list_objects (bucket : list s3_object) (p : string) : list s3_object :=
  firstn (Z.to_nat 1000) (filter (fun o => prefix p (o_key o)) bucket).
(** str.strip of quotation marks (for [scan], beep/utils/retrigger.py:123) *)
Fixpoint lstrip_quote (s : string) : string :=
  match s with String c r => if (nat_of_ascii c =? 34)%nat then lstrip_quote r else s | EmptyString => EmptyString end.
(** for [scan], beep/utils/retrigger.py:123 *)
Fixpoint rstrip_quote (s : string) : string :=
  match s with
  | EmptyString => EmptyString
  | String c r => match rstrip_quote r with EmptyString => if (nat_of_ascii c =? 34)%nat then EmptyString else String c EmptyString | t => String c t end
  end.
(** beep/utils/retrigger.py:76-79 get_structure_name *)
Definition structure_name (key : string) : string :=
  (hd ""%string (str_split "." (last (str_split "/" key) ""%string)) ++ "_structure.json")%string.
Section Scan.
  (** the buckets, in the order of S3 (for [scan], beep/utils/retrigger.py:85, 104) *)
  Variables input output : list s3_object.
  (** beep/utils/retrigger.py:100 *)
  Variable now : Z.
  (** beep/utils/retrigger.py:87-96 *)
  Definition wanted (o : s3_object) : bool :=
    (1000 <? o_size o)%Z && contains "PredictionDiagnostics" (o_key o) && negb (contains "x" (o_key o))
    && negb (contains "Complete" (o_key o)).
  (** beep/utils/retrigger.py:99-112 *)
  Definition stale (s3_output : string) (o : s3_object) : bool :=
    match list_objects output (s3_output ++ "/" ++ structure_name (o_key o)) with
    | [s] => (o_modified s <? now - 6 * 3600)%Z
    | _ => true
    end.
  (** beep/utils/retrigger.py:82-128 scan: the events, in order *)
  Definition scan (s3_prefix s3_output : string) : result (list event) :=
    match list_objects input s3_prefix with
    | [] => Err KeyError
    | objects =>
        Ok (map (fun o => {| ev_filename := o_key o; ev_bucket := "beep-input-data-stage"; ev_size := o_size o;
                             ev_hash := rstrip_quote (lstrip_quote (o_etag o)) |})
                (rev (filter (stale s3_output) (filter wanted objects))))
    end.
End Scan.

(** ** JSON on the command line *)

(** beep/utils/__init__.py:52-66 os_format *)
Definition os_format (nt : bool) (json : string) : string :=
  let dq := String (ascii_of_nat 34) "" in
  if nt then (dq ++ replace_text dq (String (ascii_of_nat 92) dq) json ++ dq)%string
  else ("'" ++ json ++ "'")%string.
