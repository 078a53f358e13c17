(** C144: "beep inspect": which object a file is taken for, when it is refused, and what is printed of every kind of object. *)
From Verif Require Import Py Model_Inspect Spec_Inspect Proofs_Inspect.
Local Open Scope string_scope.

Section Inspect.
  Context {V F : Type} (abspath : string -> string) (loadfn : string -> result (loaded V F)) (auto_load_processed auto_load : string -> result (obj V F)) (as_dict : obj V F -> result V) (pretty : V -> string) (table info : F -> string).
  Notation inspect := (inspect abspath loadfn auto_load_processed auto_load as_dict pretty table info).
  Notation print_object := (print_object as_dict pretty table info).
  Notation subject := (subject loadfn auto_load_processed auto_load as_dict).
  Notation no_subject := (no_subject loadfn auto_load_processed auto_load as_dict).

  (** Something is printed exactly if the file, by its absolute name, is taken for an object. *)
  Theorem C144_object file out : inspect file = Ok out <-> exists o, subject (abspath file) o /\ print_object (abspath file) o = Ok out.
  Proof.
    unfold Model_Inspect.inspect. split.
    - intro H. destruct (load_file _ _ _ _ (abspath file)) as [o|e] eqn:L; cbn in H; [|discriminate H]. exists o. split; [apply load_ok, L|exact H].
    - intros (o & S & P). apply load_ok in S. rewrite S. exact P.
  Qed.
  (** A file that is no object of beep is a ValueError, whatever the last loader raises; an error of the first loader that is none
      of three kinds is passed on. *)
  Theorem C144_refused file e : no_subject (abspath file) e -> inspect file = Err e.
  Proof. intro N. apply load_err in N. unfold Model_Inspect.inspect. rewrite N. reflexivity. Qed.
  (** A file is taken for one object or refused with one error. *)
  Theorem C144_one file : (exists o, subject file o /\ (forall p, subject file p -> p = o) /\ forall e, ~ no_subject file e) \/
    (exists e, no_subject file e /\ (forall x, no_subject file x -> x = e) /\ forall o, ~ subject file o).
  Proof.
    destruct (load_file loadfn auto_load_processed auto_load as_dict file) as [o|e] eqn:L.
    - left. exists o. split; [apply load_ok, L|]. split; [intros p P; apply load_ok in P; congruence|]. intros e E. apply load_err in E. congruence.
    - right. exists e. split; [apply load_err, L|]. split; [intros x X; apply load_err in X; congruence|]. intros o O. apply load_ok in O. congruence.
  Qed.
  (** What is printed of a datapath: its file, id, paths, metadata, schema and parameters, and each of the five frames or that there is none. *)
  Theorem C144_datapath file id paths metadata schema parameters attribute : exists out,
    print_object file (Datapath id paths metadata schema parameters attribute) = Ok out /\
    hd_error out = Some (line (line ("BEEP Datapath: " ++ file ++ line (line "")))) /\
    section out (line ("Semiunique id: '" ++ id ++ "'")) [] /\ section out (line "File paths") [pretty paths] /\ section out (line "File metadata:") [pretty metadata] /\
    section out (line ("Validation schema: " ++ schema)) [] /\ section out (line "Structuring parameters:") [pretty parameters] /\
    forall a, In a ["structured_summary"; "structured_data"; "diagnostic_data"; "diagnostic_summary"; "raw_data"] ->
      section out (line (a ++ ":")) (match attribute a with Some f => [table f; info f; "None"] | None => [indent "No object."] end).
  Proof.
    eexists. split; [reflexivity|]. split; [reflexivity|].
    split; [eexists [_], _; reflexivity|]. split; [eexists [_; _], _; reflexivity|]. split; [eexists [_; _; _; _], _; reflexivity|]. split; [eexists [_; _; _; _; _; _], _; reflexivity|].
    split; [eexists [_; _; _; _; _; _; _], _; reflexivity|].
    intros a I. apply in_split in I. destruct I as (l & r & E). rewrite E. rewrite flat_map_app. cbn [flat_map]. match goal with |- section (?h ++ ?x ++ print_attribute _ _ _ a ++ ?y) _ _ => exists (h ++ x)%list, y end. rewrite <- app_assoc. f_equal.
  Qed.
  (** The order of the headings. *)
  Theorem C144_order file id paths metadata schema parameters attribute out : print_object file (Datapath id paths metadata schema parameters attribute) = Ok out ->
    in_order [line (line ("BEEP Datapath: " ++ file ++ line (line ""))); line ("Semiunique id: '" ++ id ++ "'"); line "File paths"; line "File metadata:"; line ("Validation schema: " ++ schema); line "Structuring parameters:"; line "Structured attributes:";
      line "structured_summary:"; line "structured_data:"; line "diagnostic_data:"; line "diagnostic_summary:"; line "raw_data:"] out.
  Proof.
    intro H. cbn [Model_Inspect.print_object] in H. injection H as <-. unfold line.
    apply found_next, found_next, found_next, not_yet, found_next, not_yet, found_next, found_next, not_yet, found_next. cbn [flat_map]. unfold print_attribute. cbn [app].
    apply found_next, in_order_after, found_next, in_order_after, found_next, in_order_after, found_next, in_order_after, found_next, done_all.
  Qed.
  (** Any other object is printed as the dictionary that would be stored. *)
  Theorem C144_other file d : as_dict Other = Ok d -> print_object file Other = Ok [pretty d].
  Proof. intro H. cbn. rewrite H. reflexivity. Qed.
  (** What is printed of a featurizer. *)
  Theorem C144_featurizer file paths linked hyperparameters metadata features : exists out,
    print_object file (Featurizer paths linked hyperparameters metadata features) = Ok out /\
    section out (line "File paths:") [pretty paths] /\ section out (line ("Linked datapath semiunique id: " ++ linked)) [] /\
    section out (line "Hyperparameters:") [pretty hyperparameters] /\ section out (line "Metadata:") [pretty metadata] /\ section out (line "Features:") [table features].
  Proof.
    eexists. split; [reflexivity|]. split; [eexists [_], _; reflexivity|]. split; [eexists [_; _; _], _; reflexivity|]. split; [eexists [_; _; _; _], _; reflexivity|].
    split; [eexists [_; _; _; _; _; _], _; reflexivity|]. eexists [_; _; _; _; _; _; _; _], _; reflexivity.
  Qed.
  (** What is printed of a matrix: all its featurizers, in their order, each with every line indented, then the frame. *)
  Theorem C144_matrix file featurizers matrix : exists out bodies,
    print_object file (Matrix featurizers matrix) = Ok out /\ hd_error out = Some (line (line ("BEEP Feature Matrix: " ++ file ++ line (line "")))) /\
    Forall2 (fun x b => exists t, b = [line (indent ("Featurizer " ++ fst (fst x) ++ " " ++ snd (fst x))); t] /\ indented (snd x) t) featurizers bodies /\
    section out (line "Featurizers:") (concat bodies) /\ section out (line "Matrix:") [table matrix; info matrix; "None"].
  Proof.
    exists ([line (line ("BEEP Feature Matrix: " ++ file ++ line (line ""))); line "Featurizers:"] ++ flat_map print_featurizer featurizers ++ line "Matrix:" :: print_frame table info matrix)%list, (map print_featurizer featurizers).
    split; [reflexivity|]. split; [reflexivity|]. split; [|split].
    - induction featurizers as [|[[m n] t] l IH]; constructor; [|exact IH]. eexists. split; [reflexivity|]. apply tabbed_is.
    - rewrite flat_map_concat_map. eexists [_], _. reflexivity.
    - eexists (_ :: _ :: flat_map print_featurizer featurizers), []. reflexivity.
  Qed.
  (** What is printed of an experiment with a linear model. *)
  Theorem C144_experiment file targets model impute homogenize thresholds sklearn feature_matrix target_matrix : exists out,
    print_object file (Experiment targets model impute homogenize thresholds sklearn feature_matrix target_matrix) = Ok out /\
    hd_error out = Some (line (line ("BEEP Linear Model Experiment: " ++ file ++ line (line "")))) /\
    section out (line ("Targets: " ++ targets)) [line ("Model name: " ++ model); line ("Impute strategy: " ++ impute); line ("Homogenize features: " ++ homogenize)] /\
    section out (line "NaN Thresholds:") [indent ("-train_feature_drop_nan_thresh: " ++ thresholds "train_feature_drop_nan_thresh"); indent ("-train_sample_drop_nan_thresh: " ++ thresholds "train_sample_drop_nan_thresh");
      indent ("-predict_sample_nan_thresh: " ++ thresholds "predict_sample_nan_thresh")] /\
    section out (line "Model parameters:") (map (fun pv => indent ("- " ++ fst pv ++ ": " ++ snd pv)) sklearn) /\
    section out (line "feature_matrix") [table feature_matrix; info feature_matrix; "None"] /\ section out (line "target_matrix") [table target_matrix; info target_matrix; "None"].
  Proof.
    eexists. split; [reflexivity|]. split; [reflexivity|]. split; [eexists [_], _; reflexivity|]. split; [eexists [_; _; _; _; _], _; reflexivity|].
    split; [eexists [_; _; _; _; _; _; _; _; _], _; reflexivity|].
    set (m := map (fun pv => String tab ("- " ++ fst pv ++ ": " ++ snd pv)) sklearn).
    split; [eexists (_ :: _ :: _ :: _ :: _ :: _ :: _ :: _ :: _ :: _ :: m ++ [_])%list, _|eexists (_ :: _ :: _ :: _ :: _ :: _ :: _ :: _ :: _ :: _ :: m ++ [_; _; _; _; _])%list, []]; cbn [app]; rewrite <- app_assoc; reflexivity.
  Qed.
End Inspect.
(** The title does not name the file of a featurizer: the braces of the code are printed. *)
Theorem C144_title_refuted : ~ forall file o out, print_object (V := unit) (F := unit) (fun _ => Ok tt) (fun _ => "") (fun _ => "") (fun _ => "") file o = Ok out ->
  (forall d, out <> [d]) -> exists t kind, hd_error out = Some t /\ t = line (line (kind ++ file ++ line (line ""))).
Proof.
  intro H. specialize (H "x" (Featurizer tt "" tt tt tt) _ eq_refl). destruct H as (t & kind & E & G); [intros d D; discriminate D|]. cbn in E. injection E as <-. injection G as G.
  assert (L : forall k, ("BEEP Featurizer: {file}" ++ line (line "") = k ++ "x" ++ line (line ""))%string -> False).
  { clear. intros k. cbn. repeat (destruct k as [|? k]; cbn; [intro H; discriminate H|]; (intro H; discriminate H) || (intro H; injection H as _ H; revert H)). }
  exact (L kind G).
Qed.

(** Non-vacuity. *)
Example raw_example : inspect (V := unit) (F := unit) (fun f => "/d/" ++ f) (fun _ => Err ValueError) (fun _ => Err TypeError) (fun _ => Ok (Datapath "i" tt tt "s" tt (fun a => if String.eqb a "raw_data" then Some tt else None))) (fun _ => Ok tt)
    (fun _ => "p") (fun _ => "t") (fun _ => "n") "a.092"
  = Ok [line (line ("BEEP Datapath: /d/a.092" ++ line (line ""))); line "Semiunique id: 'i'"; line "File paths"; "p"; line "File metadata:"; "p"; line "Validation schema: s"; line "Structuring parameters:"; "p"; line "Structured attributes:";
        line "structured_summary:"; indent "No object."; line "structured_data:"; indent "No object."; line "diagnostic_data:"; indent "No object."; line "diagnostic_summary:"; indent "No object."; line "raw_data:"; "t"; "n"; "None"].
Proof. reflexivity. Qed.
Example json_example : inspect (V := unit) (F := unit) (fun f => f) (fun _ => Ok Plain) (fun _ => Err TypeError) (fun _ => Ok Other) (fun _ => Ok tt) (fun _ => "p") (fun _ => "t") (fun _ => "n") "a.json" = Err ValueError
  /\ inspect (V := unit) (F := unit) (fun f => f) (fun _ => Err FileNotFoundError) (fun _ => Ok Other) (fun _ => Ok Other) (fun _ => Ok tt) (fun _ => "p") (fun _ => "t") (fun _ => "n") "a.json" = Err FileNotFoundError.
Proof. split; reflexivity. Qed.
Example indented_example : indented ("a" ++ line "b") (indent ("a" ++ line (indent "b"))).
Proof. apply (tabbed_is ("a" ++ line "b")). Qed.
Example refused_example : no_subject (V := unit) (F := unit) (fun _ => Ok Plain) (fun _ => Err TypeError) (fun _ => Ok Other) (fun _ => Ok tt) "a.json" ValueError.
Proof. apply load_err. reflexivity. Qed.

Print Assumptions C144_object.
Print Assumptions C144_refused.
Print Assumptions C144_one.
Print Assumptions C144_datapath.
Print Assumptions C144_order.
Print Assumptions C144_other.
Print Assumptions C144_featurizer.
Print Assumptions C144_matrix.
Print Assumptions C144_experiment.
Print Assumptions C144_title_refuted.
