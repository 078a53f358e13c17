(** Feature tables and matrices seen from outside. *)
From Verif Require Import Py Num Model_Features.

(** The entry of a matrix for a file and a column. *)
Definition position {A} (eqb : A -> A -> bool) (x : A) : list A -> option nat :=
  fix go l := match l with [] => None | y :: r => if eqb x y then Some 0%nat else option_map S (go r) end.
Definition entry (m : matrix) (file column : string) : option cell :=
  match sget (m_rows m) file, position String.eqb column (m_columns m) with
  | Some r, Some i => nth_error r i
  | _, _ => None
  end.
(** Names and hashes contain no colon. *)
Definition no_colon (s : string) : Prop := contains ":" s = false.

Section Features.
  Context {val : Type} (show : val -> string) (hash : string -> string).
  Notation featurizer := (featurizer val).
  (** The file a featurizer was applied to. *)
  Definition file_of (f : featurizer) (file : string) : Prop := sget (f_paths _ f) "structured" = Some file /\ file <> ""%string.
  (** It has a feature [c] with value [v]. *)
  Definition has_feature (f : featurizer) (c : string) (v : cell) : Prop :=
    exists t, f_features _ f = Some t /\ In (c, [v]) (columns t).
  (** One row, every column with one value. *)
  Definition one_row (f : featurizer) : Prop :=
    exists t, f_features _ f = Some t /\ n_rows t = 1%nat /\ Forall (fun c => length (snd c) = 1%nat) (columns t) /\ NoDup (map fst (columns t)).
  (** The heading of a feature: its name, the class, the hash of the hyperparameters. *)
  Definition heading (f : featurizer) (c : string) : string :=
    (c ++ "::" ++ f_class _ f ++ "::" ++ hash (param_str _ show (f_hyper _ f)))%string.
  (** The same feature computed twice: same file, class, hyperparameters and name. *)
  Definition clash (f g : featurizer) : Prop :=
    exists file c v w, file_of f file /\ file_of g file /\ f_class _ f = f_class _ g /\
      hash (param_str _ show (f_hyper _ f)) = hash (param_str _ show (f_hyper _ g)) /\ has_feature f c v /\ has_feature g c w.
  Definition no_clashes (l : list featurizer) : Prop :=
    forall i j f g, (i < j)%nat -> nth_error l i = Some f -> nth_error l j = Some g -> ~ clash f g.
  Definition plain (f : featurizer) : Prop :=
    no_colon (f_class _ f) /\ no_colon (hash (param_str _ show (f_hyper _ f))).
  (** Features come in one row and belong to a file. *)
  Definition ready (f : featurizer) : Prop := one_row f /\ exists file, file_of f file.
End Features.

(** Hyperparameters cover those of the class. *)
Definition covers {V} (given defaults : list (string * V)) : Prop := forall k, In k (map fst defaults) -> In k (map fst given).
