(** Model of the conversion of a Biologic file to a Maccor file (beep/protocol/biologic_mb_to_maccor.py:37-71).
    Simplifications: files are their bytes by name, without directories; decoding, encoding, which files can be opened for writing and the
    conversion of the text (C35-C37, C64-C66, C142) are parameters; a disk does not fail while it is written. *)
From Verif Require Import Py.

(** the files (for [convert], beep/protocol/biologic_mb_to_maccor.py:57-69) *)
Definition files := string -> option string.
(** a file gets new bytes (for [convert], beep/protocol/biologic_mb_to_maccor.py:68-69) *)
Definition put (fs : files) (name bytes : string) : files := fun f => if String.eqb f name then Some bytes else fs f.
(** what text mode writes for a line feed is os.linesep (for [convert], beep/protocol/biologic_mb_to_maccor.py:68-69) *)
Fixpoint newlines (linesep s : string) : string :=
  match s with
  | EmptyString => EmptyString
  | String c r => if Ascii.eqb c "010" then (linesep ++ newlines linesep r)%string else String c (newlines linesep r)
  end.
Section Convert.
  Variable linesep : string.
  Variable decode : string -> result string.
  Variable encode : string -> result string.
  Variable to_xml : string -> result string.
  Variable writable : string -> bool.
  (** beep/protocol/biologic_mb_to_maccor.py:37-71 convert: the outcome, and the files after it *)
  Definition convert (fs : files) (mps_filepath out_filepath : string) : result unit * files :=
    match fs mps_filepath with
    | None => (Err (OtherError "Exception"), fs)
    | Some raw =>
        match (let! text := decode raw in to_xml text) with
        | Err e => (Err e, fs)
        | Ok xml =>
            if writable out_filepath then
              match encode (newlines linesep xml) with
              | Err e => (Err e, put fs out_filepath "")
              | Ok bytes => (Ok tt, put fs out_filepath bytes)
              end
            else (Err FileNotFoundError, fs)
        end
    end.
End Convert.
