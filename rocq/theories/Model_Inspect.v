(** Model of "beep inspect" (beep/cmd.py:1614-1762).  Simplifications: the loaders, what an object stores, pprint and
    the texts of frames are parameters; values that an f-string formats are texts already; each [print] is one
    text; log messages are not modelled; errors of a
    subclass, like those of reading json, are errors of their class; a featurizer's dictionary is the text of its dictionary without its features. *)
From Verif Require Import Py Model_CyclerFile.

Definition nl : ascii := "010"%char. (** a line feed (for [tabbed], beep/cmd.py:1720) *)
Definition tab : ascii := "009"%char. (** a tab (for [tabbed], beep/cmd.py:1720) *)
(** d_formatted.replace("\n", "\n\t") (beep/cmd.py:1720) *)
Fixpoint tabbed (s : string) : string :=
  match s with
  | EmptyString => EmptyString
  | String c r => if Ascii.eqb c nl then String nl (String tab (tabbed r)) else String c (tabbed r)
  end.

Section Inspect.
  Context {V F : Type}. (* values that are printed with pprint; frames *)
  (** what is read of an object, one constructor for each branch of beep/cmd.py:1660-1762 *)
  Inductive obj :=
  | Datapath (id : string) (paths metadata : V) (schema : string) (parameters : V) (attribute : string -> option F)
  | Featurizer (paths : V) (linked : string) (hyperparameters metadata : V) (features : F)
  | Matrix (featurizers : list (string * string * string)) (matrix : F)
  | Experiment (targets model impute homogenize : string) (thresholds : string -> string) (sklearn : list (string * string)) (feature_matrix target_matrix : F)
  | Other.
  (** loadfn gives an object, or a dictionary or list, which have no as_dict (beep/cmd.py:1636-1639) *)
  Inductive loaded := Object (o : obj) | Plain.
  Variable abspath : string -> string.
  Variable loadfn : string -> result loaded.
  Variable auto_load_processed auto_load : string -> result obj.
  Variable as_dict : obj -> result V.
  Variable pretty : V -> string.
  Variable table info : F -> string.

  (** beep/cmd.py:1635-1639, the body of the try *)
  Definition load_any (file : string) : result obj :=
    let! l := loadfn file in
    match l with
    | Plain => Err AttributeError
    | Object o => let! _ := as_dict o in Ok o
    end.
  (** beep/cmd.py:1635-1656 *)
  Definition load_file (file : string) : result obj :=
    match load_any file with
    | Ok o => Ok o
    | Err AttributeError | Err ValueError | Err KeyError =>
        if ends_with ".json" file || ends_with ".json.gz" file
        then match auto_load_processed file with Ok o => Ok o | Err _ => Err ValueError end
        else match auto_load file with Ok o => Ok o | Err _ => Err ValueError end
    | Err e => Err e
    end.
  (** print(a); print(a.info()), where info prints and returns None (beep/cmd.py:1689-1690, 1724-1725, 1757-1758) *)
  Definition print_frame (f : F) : list string := [table f; info f; "None"%string].
  (** beep/cmd.py:1686-1692, one attribute *)
  Definition print_attribute (attribute : string -> option F) (a : string) : list string :=
    (String nl (a ++ ":"))%string :: match attribute a with Some f => print_frame f | None => [String tab "No object."] end.
  (** beep/cmd.py:1715-1721, one featurizer of a matrix *)
  Definition print_featurizer (x : string * string * string) : list string :=
    let '(module, name, text) := x in [(String nl (String tab ("Featurizer " ++ module ++ " " ++ name)))%string; String tab (tabbed text)].
  (** beep/cmd.py:1660-1762, the printed texts *)
  Definition print_object (file : string) (o : obj) : result (list string) :=
    match o with
    | Datapath id paths metadata schema parameters attribute =>
        Ok ([(String nl (String nl ("BEEP Datapath: " ++ file ++ String nl (String nl ""))))%string;
             (String nl ("Semiunique id: '" ++ id ++ "'"))%string;
             String nl "File paths"; pretty paths;
             String nl "File metadata:"; pretty metadata;
             (String nl ("Validation schema: " ++ schema))%string;
             String nl "Structuring parameters:"; pretty parameters;
             String nl "Structured attributes:"] ++
            flat_map (print_attribute attribute) ["structured_summary"; "structured_data"; "diagnostic_data"; "diagnostic_summary"; "raw_data"]%string)
    | Featurizer paths linked hyperparameters metadata features =>
        Ok [(String nl (String nl ("BEEP Featurizer: {file}" ++ String nl (String nl ""))))%string;
            String nl "File paths:"; pretty paths;
            (String nl ("Linked datapath semiunique id: " ++ linked))%string;
            String nl "Hyperparameters:"; pretty hyperparameters;
            String nl "Metadata:"; pretty metadata;
            String nl "Features:"; table features]
    | Matrix featurizers matrix =>
        Ok ([(String nl (String nl ("BEEP Feature Matrix: " ++ file ++ String nl (String nl ""))))%string; String nl "Featurizers:"] ++
            flat_map print_featurizer featurizers ++ String nl "Matrix:" :: print_frame matrix)
    | Experiment targets model impute homogenize thresholds sklearn feature_matrix target_matrix =>
        Ok ([(String nl (String nl ("BEEP Linear Model Experiment: " ++ file ++ String nl (String nl ""))))%string;
             (String nl ("Targets: " ++ targets))%string; (String nl ("Model name: " ++ model))%string;
             (String nl ("Impute strategy: " ++ impute))%string; (String nl ("Homogenize features: " ++ homogenize))%string;
             String nl "NaN Thresholds:"] ++
            map (fun k => (String tab ("-" ++ k ++ ": " ++ thresholds k))%string) ["train_feature_drop_nan_thresh"; "train_sample_drop_nan_thresh"; "predict_sample_nan_thresh"]%string ++
            String nl "Model parameters:" :: map (fun pv => (String tab ("- " ++ fst pv ++ ": " ++ snd pv))%string) sklearn ++
            [String nl "Matrices:"; String nl "feature_matrix"] ++ print_frame feature_matrix ++ String nl "target_matrix" :: print_frame target_matrix)
    | Other => let! d := as_dict o in Ok [pretty d]
    end.
  (** beep/cmd.py:1623-1762 inspect: the printed texts *)
  Definition inspect (file : string) : result (list string) :=
    let! o := load_file (abspath file) in print_object (abspath file) o.
End Inspect.
Arguments obj : clear implicits.
Arguments loaded : clear implicits.
