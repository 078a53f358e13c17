(** Pandas series of numbers: maximum, minimum, differences, mean, running sum.
    A series is a list of [num]; NaN ([None]) is skipped as pandas does. *)
From Verif Require Import Py.

(** Series.max() / Series.min(), skipping NaN. *)
Fixpoint col_max (l : list num) : num :=
  match l with
  | [] => None
  | None :: r => col_max r
  | Some x :: r => match col_max r with
                   | None => Some x
                   | Some m => Some (if Qle_bool x m then m else x)
                   end
  end.
Fixpoint col_min (l : list num) : num :=
  match l with
  | [] => None
  | None :: r => col_min r
  | Some x :: r => match col_min r with
                   | None => Some x
                   | Some m => Some (if Qle_bool m x then m else x)
                   end
  end.

(** Series.diff(): NaN first, NaN wherever one of the two values is NaN. *)
Definition nsub (a b : num) : num :=
  match a, b with Some x, Some y => Some (x - y) | _, _ => None end.
Fixpoint diff_from (prev : num) (l : list num) : list num :=
  match l with [] => [] | x :: r => nsub x prev :: diff_from x r end.
Definition diff (l : list num) : list num :=
  match l with [] => [] | x :: r => None :: diff_from x r end.

(** The non-NaN values. *)
Fixpoint dropna (l : list num) : list Q :=
  match l with [] => [] | Some x :: r => x :: dropna r | None :: r => dropna r end.
Fixpoint qsum (l : list Q) : Q := match l with [] => 0 | x :: r => x + qsum r end.
(** Series.mean(): NaN if there is no value. *)
Definition mean (l : list num) : num :=
  match dropna l with
  | [] => None
  | xs => Some (qsum xs / inject_Z (Z.of_nat (length xs)))
  end.

(** Series.cumsum(): NaN entries stay NaN and do not reset the total. *)
Fixpoint cumsum_from (t : Q) (l : list num) : list num :=
  match l with
  | [] => []
  | Some x :: r => Some (t + x) :: cumsum_from (t + x) r
  | None :: r => None :: cumsum_from t r
  end.
Definition cumsum (l : list num) : list num := cumsum_from 0 l.

Lemma Qlt_bool_iff a b : Qlt_bool a b = true <-> a < b.
Proof.
  unfold Qlt_bool. rewrite negb_true_iff. split; intro H.
  - apply Qnot_le_lt. intro K. apply Qle_bool_iff in K. congruence.
  - destruct (Qle_bool b a) eqn:E; [|reflexivity].
    apply Qle_bool_iff in E. exfalso. apply (Qlt_not_le _ _ H E).
Qed.
Lemma Qlt_bool_false a b : Qlt_bool a b = false <-> b <= a.
Proof.
  unfold Qlt_bool. rewrite negb_false_iff. apply Qle_bool_iff.
Qed.

(** ** max / min of a column *)
Lemma col_max_spec l :
  match col_max l with
  | None => forall q, ~ In (Some q) l
  | Some m => In (Some m) l /\ forall q, In (Some q) l -> q <= m
  end.
Proof.
  induction l as [|[x|] l IH]; simpl.
  - auto.
  - destruct (col_max l) as [m|].
    + destruct IH as [H1 H2]. destruct (Qle_bool x m) eqn:E.
      * apply Qle_bool_iff in E. split; auto. intros q [K|K]; auto. injection K as ->; auto.
      * assert (m < x) by (apply Qnot_le_lt; intro K; apply Qle_bool_iff in K; congruence).
        split; auto. intros q [K|K]; [injection K as ->; apply Qle_refl|]. specialize (H2 _ K). lra.
    + split; auto. intros q [K|K]; [injection K as ->; apply Qle_refl|]. destruct (IH _ K).
  - destruct (col_max l) as [m|].
    + destruct IH as [H1 H2]. split; auto. intros q [K|K]; [discriminate|auto].
    + intros q [K|K]; [discriminate|]. apply (IH _ K).
Qed.
Lemma col_min_spec l :
  match col_min l with
  | None => forall q, ~ In (Some q) l
  | Some m => In (Some m) l /\ forall q, In (Some q) l -> m <= q
  end.
Proof.
  induction l as [|[x|] l IH]; simpl.
  - auto.
  - destruct (col_min l) as [m|].
    + destruct IH as [H1 H2]. destruct (Qle_bool m x) eqn:E.
      * apply Qle_bool_iff in E. split; auto. intros q [K|K]; auto. injection K as ->; auto.
      * assert (x < m) by (apply Qnot_le_lt; intro K; apply Qle_bool_iff in K; congruence).
        split; auto. intros q [K|K]; [injection K as ->; apply Qle_refl|]. specialize (H2 _ K). lra.
    + split; auto. intros q [K|K]; [injection K as ->; apply Qle_refl|]. destruct (IH _ K).
  - destruct (col_min l) as [m|].
    + destruct IH as [H1 H2]. split; auto. intros q [K|K]; [discriminate|auto].
    + intros q [K|K]; [discriminate|]. apply (IH _ K).
Qed.

