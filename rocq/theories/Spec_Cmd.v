(** What the commands of beep are expected to report, stated without following their loops. *)
From Verif Require Import Py Num Model_Cmd.

Section Structure.
  Context (md5 : string -> string -> result string) {data : Type}.
  Context (auto_load : string -> string -> result data) (schema : data -> string) (validate : data -> result (bool * string)).
  Context (structure_with autostructure : data -> result data).
  Context (structuring_parameters : data -> string) (dump : bool -> data -> result string) (writable : string -> result unit).

  (** [d] is what file [f] with bytes [b] contains, and it passes validation. *)
  Definition passes (f b : string) (d : data) : Prop :=
    (exists h, md5 f b = Ok h) /\ auto_load f b = Ok d /\ exists r, validate d = Ok (true, r).
  Definition process (o : options) : data -> result data := if automatic o then autostructure else structure_with.
  (** It can be structured into [d'], whose text [t] can be put at [out]. *)
  Definition becomes (o : options) (f b out : string) (d' : data) (t : string) : Prop :=
    validation_only o = false /\
    (exists d, passes f b d /\ process o d = Ok d') /\ dump (no_raw o) d' = Ok t /\ writable out = Ok tt.
  (** What goes wrong with a file. *)
  Inductive trouble (o : options) (f b out : string) : exn -> Prop :=
  | unhashed e : md5 f b = Err e -> trouble o f b out e
  | unloaded h e : md5 f b = Ok h -> auto_load f b = Err e -> trouble o f b out e
  | unchecked h d e : md5 f b = Ok h -> auto_load f b = Ok d -> validate d = Err e -> trouble o f b out e
  | rejected h d r : md5 f b = Ok h -> auto_load f b = Ok d -> validate d = Ok (false, r) -> trouble o f b out BEEPValidationError
  | unstructured d e : validation_only o = false -> passes f b d -> process o d = Err e -> trouble o f b out e
  | unwritten d d' e : validation_only o = false -> passes f b d -> process o d = Ok d' ->
      (let! t := dump (no_raw o) d' in let! _ := writable out in Ok t) = Err e -> trouble o f b out e
  | unhashed_output d' t e : becomes o f b out d' t -> md5 out t = Err e -> trouble o f b out e.

  (** The status recorded for a file is true of it. *)
  Record truthful (o : options) (f b out : string) (s : status) : Prop := {
    about_validity : validated s = true <-> exists d, passes f b d;
    about_structure : structured s = true <-> exists d' t, becomes o f b out d' t;
    about_output : output s = if structured s then Some out else None;
    about_trouble : forall e, trace s = Some e <-> trouble o f b out e;
    about_hash : forall h, md5 f b = Ok h -> raw_md5 s = Some h;
    about_schema : forall d, passes f b d -> validation_schema s = Some (schema d);
    about_parameters : forall d' t, becomes o f b out d' t -> parameters s = Some (structuring_parameters d');
    about_result : forall d' t h, becomes o f b out d' t -> md5 out t = Ok h -> processed_md5 s = Some h }.
  (** The file at [out] afterwards. *)
  Definition written (o : options) (f b out : string) (w w' : disk) : Prop :=
    (forall d' t, becomes o f b out d' t -> sget w' out = Some t) /\
    ((forall d' t, ~ becomes o f b out d' t) -> sget w' out = sget w out).
  (** Nobody presses Ctrl-C. *)
  Definition uninterrupted : Prop :=
    (forall f b, md5 f b <> Err KeyboardInterrupt) /\ (forall f b, auto_load f b <> Err KeyboardInterrupt) /\
    (forall d, validate d <> Err KeyboardInterrupt) /\ (forall d, structure_with d <> Err KeyboardInterrupt) /\
    (forall d, autostructure d <> Err KeyboardInterrupt) /\ (forall r d, dump r d <> Err KeyboardInterrupt) /\
    (forall p, writable p <> Err KeyboardInterrupt).
End Structure.

(** Inputs and outputs do not get in each other's way. *)
Definition apart (fs outs : list string) : Prop :=
  NoDup fs /\ NoDup outs /\ length outs = length fs /\ forall x, In x outs -> ~ In x fs.

(** Names: everything up to the last slash, up to the last dot. *)
Definition slash_free (s : string) : Prop := contains "/" s = false.
Definition dot_free (s : string) : Prop := contains "." s = false.

Section Featurize.
  Context {run feat value : Type}.
  (** The hyperparameters used: the defaults with those given put over them. *)
  Definition merged (d : list (string * value)) (p : option (list (string * value))) (h : list (string * value)) : Prop :=
    forall k, sget h k = match p with
                         | Some p => match last_error (map snd (filter (fun x => String.eqb (fst x) k) p)) with
                                     | Some v => Some v | None => sget d k end
                         | None => sget d k
                         end.
  Context (fvalidate : feat -> result (bool * string)) (create_features : feat -> result feat).
  (** The featurizer computed [y] on the run. *)
  Definition computed (c : fclass run feat value) (h : list (string * value)) (r : run) (y : feat) : Prop :=
    exists x reason, make _ _ _ c r h = Ok x /\ fvalidate x = Ok (true, reason) /\ create_features x = Ok y.
  Definition accepts (c : fclass run feat value) (h : list (string * value)) (r : run) : Prop :=
    exists x reason, make _ _ _ c r h = Ok x /\ fvalidate x = Ok (true, reason).
  Record true_entry (r : run) (ch : fclass run feat value * list (string * value)) (s : sub value) : Prop := {
    entry_name : featurizer_name _ s = fname _ _ _ (fst ch);
    entry_hyper : hyperparameters _ s = snd ch;
    entry_valid : valid _ s = true <-> accepts (fst ch) (snd ch) r;
    entry_featurized : featurized _ s = true <-> exists y, computed (fst ch) (snd ch) r y;
    entry_trace : featurized _ s = false -> s_trace _ s <> None }.
  (** The features that enter the matrix: those computed, file by file, featurizer by featurizer. *)
  Inductive gathered : list (run * (fclass run feat value * list (string * value))) -> list feat -> Prop :=
  | gathered_nil : gathered [] []
  | gathered_yes r ch l y ys : computed (fst ch) (snd ch) r y -> gathered l ys -> gathered ((r, ch) :: l) (y :: ys)
  | gathered_no r ch l ys : (forall y, ~ computed (fst ch) (snd ch) r y) -> gathered l ys -> gathered ((r, ch) :: l) ys.
  (** The class a featurizer name stands for: shipped with beep, or an importable one. *)
  Definition stands_for (native : list (string * fclass run feat value)) (import_class : string -> result (option (fclass run feat value)))
    (n : string) (c : fclass run feat value) : Prop :=
    sget native n = Some c \/ (sget native n = None /\ contains "." n = true /\ import_class n = Ok (Some c)).
  (** A name, with hyperparameters or without, asks for a class and the hyperparameters to use. *)
  Definition asked (native : list (string * fclass run feat value)) (import_class : string -> result (option (fclass run feat value)))
    (np : string * option (list (string * value))) (ch : fclass run feat value * list (string * value)) : Prop :=
    stands_for native import_class (fst np) (fst ch) /\ merged (defaults _ _ _ (fst ch)) (snd np) (snd ch).
  Definition read_as (load_processed : string -> string -> result run) (w : disk) (f : string) (r : run) : Prop :=
    exists b, sget w f = Some b /\ load_processed f b = Ok r.
  (** The names given on the command line: a group, or the names themselves. *)
  Definition chosen (all_features all_targets given names : list string) : Prop :=
    (In "all_features"%string given /\ names = all_features) \/
    (~ In "all_features"%string given /\ In "all_targets"%string given /\ names = all_targets) \/
    (~ In "all_features"%string given /\ ~ In "all_targets"%string given /\ names = given).
End Featurize.
