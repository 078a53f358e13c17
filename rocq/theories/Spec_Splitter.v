(** What a splitter may contain, in terms of the feature matrix. *)
From Verif Require Import Py Num Model_Features Spec_Features Model_Splitter.

(** A matrix with distinct columns and samples and full rows. *)
Definition proper (m : matrix) : Prop :=
  NoDup (m_columns m) /\ NoDup (labels m) /\ Forall (fun r => length (snd r) = length (m_columns m)) (m_rows m).

(** The value of a sample under a column, infinities counted as missing. *)
Definition cleaned (m : matrix) (s n : string) : cell := match entry m s n with Some c => no_inf c | None => NaN end.
Definition there (m : matrix) (s n : string) : bool := negb (is_nan (cleaned m s n)).

Section Spec.
  Variables (str : cell -> string) (c : config) (m : matrix).
  Definition wanted : list string := features c ++ opt_list (split_columns c) ++ opt_list (exclusion_columns c).
  (** Columns present in enough samples. *)
  Definition kept_columns : list string :=
    filter (fun n => Qle_bool (feature_thresh c * count (labels m)) (count (filter (fun s => there m s n) (labels m)))) wanted.
  (** Samples with enough of these columns. *)
  Definition enough (s : string) : Prop := sample_thresh c * count kept_columns <= count (filter (there m s) kept_columns).
  Definition enoughb (s : string) : bool := Qle_bool (sample_thresh c * count kept_columns) (count (filter (there m s) kept_columns)).
  (** Samples flagged true in every exclusion column. *)
  Definition included (s : string) : Prop := forall e, In e (opt_list (exclusion_columns c)) -> entry m s e = Some (Flag true).
  Definition includedb (s : string) : bool :=
    forallb (fun e => match entry m s e with Some (Flag true) => true | _ => false end) (opt_list (exclusion_columns c)).
  (** The group of a sample: the printed values of its split columns. *)
  Definition group (value : string -> string -> cell) (s : string) : string := join "::" (map (fun n => str (value s n)) (opt_list (split_columns c))).
  (** Enough of the group is included. *)
  Definition group_share (value : string -> string -> cell) (s : string) : Q :=
    let members := filter (fun t => enoughb t && String.eqb (group value s) (group value t)) (labels m) in
    count (filter includedb members) / count members.
  Definition group_kept (value : string -> string -> cell) (s : string) : Prop :=
    match split_columns c, exclusion_columns c with Some _, Some _ => drop_split_threshold c <= group_share value s | _, _ => True end.
  Definition has_targets (s : string) : Prop := forall t, In t (targets c) -> there m s t = true.
End Spec.

(** Distinct columns are asked for, none called like the splitter's own. *)
Definition distinct_columns (c : config) : Prop := NoDup (wanted c) /\ ~ In "grouping_column"%string (wanted c) /\ NoDup (targets c).
(** The matrix the splitter works on. *)
Definition homogenized (c : config) (m : matrix) : matrix := if homogenize c then rename strip_to_class m else m.
