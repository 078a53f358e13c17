(** What a linear model is trained on and predicts, in terms of the matrices given. *)
From Verif Require Import Py Num Model_Features Spec_Features Model_Splitter Spec_Splitter Model_Linear.

(** The matrix with its headings stripped, if asked for. *)
Definition stripped (b : bool) (m : matrix) : matrix := if b then rename strip_hash m else m.

Section Training.
  Variables (c : settings) (m y : matrix).
  (** Features present in at least the fraction [thr] of the samples. *)
  Definition present_in (thr : Q) (n : string) : Prop := thr * count (labels m) <= count (filter (fun s => there m s n) (labels m)).
  Definition training_columns : list string :=
    filter (fun n => Qle_bool (sample_thr c * count (labels m)) (count (filter (fun s => there m s n) (labels m)))) (m_columns m).
  (** Samples with at least the threshold fraction of these features. *)
  Definition sample_enough (s : string) : Prop := sample_thr c * count training_columns <= count (filter (there m s) training_columns).
  Definition sample_enoughb (s : string) : bool := Qle_bool (sample_thr c * count training_columns) (count (filter (there m s) training_columns)).
  Definition training_targets (s : string) : Prop := forall t, In t (l_targets c) -> there y s t = true.
  Definition training_targetsb (s : string) : bool := forallb (there y s) (l_targets c).
End Training.

(** The number in a cell. *)
Definition number (c : cell) : option Q := match c with Number x => Some x | Flag b => Some (if b then 1 else 0) | _ => None end.
(** The prediction for numbers [xs]: the intercept plus, for every feature, its weight times the scaled number. *)
Fixpoint weighted (ws : list Q) (sc : list (Q * Q)) (xs : list Q) : Q :=
  match ws, sc, xs with
  | w :: ws, (mu, d) :: sc, x :: xs => w * ((x - mu) / d) + weighted ws sc xs
  | _, _, _ => 0
  end.
