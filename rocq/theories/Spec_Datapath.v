(** What a user expects of a datapath object over its life. *)
From Verif Require Import Py Num Model_Datapath.

(** Two frames with the same columns (row labels aside). *)
Definition same_columns (f g : frame) : Prop := f_cols f = f_cols g.
Definition same_columns_opt (f g : option frame) : Prop :=
  match f, g with Some a, Some b => same_columns a b | None, None => True | _, _ => False end.

Section Spec.
  Context {D B : Type}.
  (** Whether the object counts as structured after a history, from the calls alone. *)
  Fixpoint structured_after (now : bool) (ops : list (op D B)) : bool :=
    match ops with
    | [] => now
    | OStructure _ :: r => structured_after true r
    | OUnstructure :: r => structured_after false r
    | OSetDiag _ :: r => structured_after now r
    | OValidate :: r => structured_after now r
    | OReload _ _ :: r => structured_after now r          (* saving and loading changes nothing *)
    end.
  Definition no_reload (o : op D B) : Prop := match o with OReload _ _ => False | _ => True end.
  (** Every reload in the history happens while the object is structured. *)
  Fixpoint reloads_structured (now : bool) (ops : list (op D B)) : Prop :=
    match ops with
    | [] => True
    | OStructure _ :: r => reloads_structured true r
    | OUnstructure :: r => reloads_structured false r
    | OSetDiag _ :: r => reloads_structured now r
    | OValidate :: r => reloads_structured now r
    | OReload _ _ :: r => now = true /\ reloads_structured now r
    end.
  Definition all_ok (l : list (result unit)) : Prop := Forall (fun r => r = Ok tt) l.
  Definition never_structured (d : datapath D B) : Prop :=
    dp_sdata d = None /\ dp_ssum d = None /\ dp_ddata d = None /\ dp_dsum d = None /\
    dp_diag d = None /\ dp_params d = None.
  (** [d2] is [d1] with unchanged identity: same metadata, paths, schema, legacy flag. *)
  Definition same_identity (d1 d2 : datapath D B) : Prop :=
    dp_meta d1 = dp_meta d2 /\ dp_paths d1 = dp_paths d2 /\ dp_schema d1 = dp_schema d2 /\ dp_legacy d1 = dp_legacy d2.
  (** Raw data unchanged except for the helper column. *)
  Definition same_raw (f g : option frame) : Prop :=
    match f, g with
    | None, None => True
    | Some a, Some b => f_index a = f_index b /\
        forall c, c <> "time_since_cycle_start"%string -> sget (f_cols a) c = sget (f_cols b) c
    | _, _ => False
    end.
End Spec.
