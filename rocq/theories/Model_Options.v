(** Model of the options of the script that processes files again (beep/utils/retrigger.py:34-73).  Simplifications: what
    ast.literal_eval makes of a text is a parameter; given anything but a text it raises ValueError; dictionaries are lists in
    order of insertion. *)
From Verif Require Import Py.

Section Options.
  Context {L : Type}. (* values of literals *)
  (** a value of docopt or of eval_args (for [parse_arg], beep/utils/retrigger.py:54-68) *)
  Inductive value := Text (s : string) | Flag (b : bool) | Nothing | Literal (l : L).
  Variable literal_eval : string -> result value.
  (** beep/utils/retrigger.py:54-60 _fix_boolean *)
  Definition fix_boolean (x : value) : value :=
    match x with
    | Text s => if String.eqb s "True" then Flag true else if String.eqb s "False" then Flag false else x
    | _ => x
    end.
  (** ast.literal_eval of any value (for [parse_arg], beep/utils/retrigger.py:65) *)
  Definition evaluated (x : value) : result value := match x with Text s => literal_eval s | _ => Err ValueError end.
  (** beep/utils/retrigger.py:62-69 _parse_args *)
  Definition parse_arg (x : value) : result value :=
    let x := fix_boolean x in
    match evaluated x with
    | Ok v => Ok v
    | Err ValueError => Ok x
    | Err (OtherError e) => if String.eqb e "SyntaxError" then Ok x else Err (OtherError e)
    | Err e => Err e
    end.
  (** x[2:] (for [eval_args], beep/utils/retrigger.py:72) *)
  Definition without_dashes (x : string) : string := match x with String _ (String _ r) => r | _ => EmptyString end.
  (** beep/utils/retrigger.py:47-73 eval_args *)
  Definition eval_args (args : list (string * value)) : result (list (string * value)) :=
    let! vs := mapM (fun kv => parse_arg (snd kv)) args in
    Ok (fold_left (fun d kv => sset d (fst kv) (snd kv)) (combine (map (fun kv => without_dashes (fst kv)) args) vs) []).
End Options.
Arguments value : clear implicits.
(** beep/utils/retrigger.py:37-38 DotDict.__getattr__ *)
Definition get_attribute {A} (d : list (string * A)) (key : string) : result A := match sget d key with Some v => Ok v | None => Err KeyError end.
(** beep/utils/retrigger.py:40-44 DotDict.__setattr__, for names that are no attributes of the dictionary itself *)
Definition set_attribute {A} (d : list (string * A)) (key : string) (v : A) : list (string * A) := sset d key v.
(** the defaults of the options, as docopt gives them (beep/utils/retrigger.py:15-18) *)
Definition default_options {L} : list (string * value L) :=
  [("--help", Flag false); ("--version", Flag false); ("--mode", Text "'test'"); ("--s3_prefix", Text "'d3Batt/raw/arbin'"); ("--s3_output", Text "'d3Batt/structure'")]%string.
