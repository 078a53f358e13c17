(** Lists of names, sorting, and tables: facts shared by the feature matrix, the splitter and the models. *)
From Coq Require Import Permutation.
From Verif Require Import Py Num Model_Features Spec_Features Proofs_Strings Proofs_Diagnostic.

Lemma str_in_iff x l : str_in x l = true <-> In x l.
Proof.
  unfold str_in. rewrite existsb_exists. split.
  - intros (y & Y & E). apply String.eqb_eq in E. subst. exact Y.
  - intro H. exists x. split; [exact H|apply String.eqb_refl].
Qed.
Lemma str_in_false x l : str_in x l = false <-> ~ In x l.
Proof. rewrite <- str_in_iff. destruct (str_in x l); split; congruence. Qed.
Lemma all_distinct_iff l : all_distinct l = true <-> NoDup l.
Proof.
  induction l as [|x l IH]; cbn; [split; [constructor|reflexivity]|].
  rewrite andb_true_iff, negb_true_iff, str_in_false, IH. split; [intros [A B]; constructor; auto|intro H; inversion H; auto].
Qed.
Lemma same_list_iff a : forall b, same_list a b = true <-> a = b.
Proof.
  induction a as [|x a IH]; intros [|y b]; cbn; try (split; congruence).
  rewrite andb_true_iff, String.eqb_eq, IH. split; [intros [-> ->]; reflexivity|intros [= -> ->]; auto].
Qed.
Lemma uniq_in x l : In x (uniq_s l) <-> In x l.
Proof.
  induction l as [|y l IH]; cbn; [tauto|]. rewrite filter_In, IH, negb_true_iff. destruct (String.eqb_spec y x) as [->|N]; [tauto|]. intuition.
Qed.
Lemma nodup_filter {A} (p : A -> bool) l : NoDup l -> NoDup (filter p l).
Proof.
  induction 1 as [|x l N ND IH]; cbn; [constructor|]. destruct (p x); [|exact IH]. constructor; [|exact IH]. rewrite filter_In. tauto.
Qed.
Lemma uniq_nodup l : NoDup (uniq_s l).
Proof.
  induction l as [|y l IH]; cbn; [constructor|]. constructor; [|apply nodup_filter, IH].
  rewrite filter_In, String.eqb_refl. cbn. intuition congruence.
Qed.
Lemma filter_all {A} (p : A -> bool) l : (forall x, In x l -> p x = true) -> filter p l = l.
Proof.
  induction l as [|x l IH]; intro H; cbn; [reflexivity|]. rewrite (H x) by (left; reflexivity). f_equal. apply IH. intros y Y. apply H. right. exact Y.
Qed.
Lemma uniq_id l : NoDup l -> uniq_s l = l.
Proof.
  induction 1 as [|x l N ND IH]; cbn; [reflexivity|]. rewrite IH. f_equal. apply filter_all. intros y Y.
  apply negb_true_iff, String.eqb_neq. intros ->. tauto.
Qed.
Section Sort.
  Context {A : Type} (key : A -> string).
  Lemma insert_perm x l : Permutation (insert_s key x l) (x :: l).
  Proof.
    induction l as [|y l IH]; cbn; [reflexivity|]. destruct (string_leb _ _); [reflexivity|].
    etransitivity; [apply perm_skip, IH|]. apply perm_swap.
  Qed.
  Lemma sort_perm l : Permutation (sort_s key l) l.
  Proof. induction l as [|x l IH]; cbn; [reflexivity|]. etransitivity; [apply insert_perm|]. apply perm_skip, IH. Qed.
End Sort.

Lemma nodup_flat_map {A B} (f : A -> list B) l :
  (forall x, In x l -> NoDup (f x)) -> ForallOrdPairs (fun x y => forall b, In b (f x) -> ~ In b (f y)) l -> NoDup (flat_map f l).
Proof.
  induction l as [|x l IH]; intros N P; cbn; [constructor|]. inversion P as [|? ? F P']; subst.
  apply NoDup_app_iff. split; [apply N; left; reflexivity|]. split.
  - apply IH; [intros; apply N; right; assumption|exact P'].
  - intros b B1 B2. apply in_flat_map in B2. destruct B2 as (y & Y & B2). rewrite Forall_forall in F. exact (F y Y b B1 B2).
Qed.
Lemma fop_filter {A} (R : A -> A -> Prop) p l : ForallOrdPairs R l -> ForallOrdPairs R (filter p l).
Proof.
  induction 1 as [|x l F P IH]; cbn; [constructor|]. destruct (p x); [|exact IH]. constructor; [|exact IH].
  rewrite Forall_forall in *. intros y Y. apply filter_In in Y. apply F, Y.
Qed.
Lemma fop_impl {A} (R R' : A -> A -> Prop) l : (forall x y, In x l -> In y l -> R x y -> R' x y) -> ForallOrdPairs R l -> ForallOrdPairs R' l.
Proof.
  intros H P. induction P as [|x l F P IH]; constructor.
  - rewrite Forall_forall in *. intros y Y. apply H; [left; reflexivity|right; exact Y|apply F, Y].
  - apply IH. intros a b Ha Hb. apply H; right; assumption.
Qed.
Lemma fop_nth {A} (R : A -> A -> Prop) l :
  ForallOrdPairs R l <-> forall i j a b, (i < j)%nat -> nth_error l i = Some a -> nth_error l j = Some b -> R a b.
Proof.
  split.
  - induction 1 as [|x l F P IH]; intros i j a b L; [destruct i; discriminate|].
    destruct i as [|i], j as [|j]; cbn; try lia.
    + intros [= <-] J. rewrite Forall_forall in F. apply F. eapply nth_error_In. exact J.
    + apply IH. lia.
  - induction l as [|x l IH]; intro H; constructor.
    + apply Forall_forall. intros y Y. apply In_nth_error in Y. destruct Y as [j J]. apply (H 0%nat (S j)); [lia|reflexivity|exact J].
    + apply IH. intros i j a b L I J. apply (H (S i) (S j)); [lia|exact I|exact J].
Qed.

(** ** Positions *)
Lemma position_sget {V} (l : list (string * V)) c : sget l c = match position String.eqb c (map fst l) with Some i => nth_error (map snd l) i | None => None end.
Proof.
  induction l as [|[k v] l IH]; cbn; [reflexivity|]. destruct (String.eqb c k); [reflexivity|].
  change (d_get String.eqb l c) with (sget l c). rewrite IH. destruct (position String.eqb c (map fst l)); reflexivity.
Qed.
Lemma position_map {B} (g : string -> B) c l i : position String.eqb c l = Some i -> nth_error (map g l) i = Some (g c).
Proof.
  revert i. induction l as [|x l IH]; intro i; cbn; [discriminate|]. destruct (String.eqb_spec c x) as [->|N].
  - intros [= <-]. reflexivity.
  - destruct (position String.eqb c l) as [j|]; cbn; [|discriminate]. intros [= <-]. cbn. apply IH. reflexivity.
Qed.
Lemma position_in c l : In c l <-> exists i, position String.eqb c l = Some i.
Proof.
  induction l as [|x l IH]; cbn; [split; [tauto|intros [i [=]]]|].
  destruct (String.eqb_spec c x) as [->|N]; [split; [exists 0%nat; reflexivity|auto]|].
  rewrite IH. split.
  - intros [E|[i ->]]; [congruence|]. exists (S i). reflexivity.
  - intros [i E]. right. destruct (position String.eqb c l) as [j|]; [exists j; reflexivity|discriminate].
Qed.

(** ** The last of the pieces between double colons *)
Lemma last_colon a b a' b' : no_colon b -> no_colon b' -> (a ++ "::" ++ b = a' ++ "::" ++ b')%string -> a = a' /\ b = b'.
Proof.
  assert (W : forall a b a' b', no_colon b -> (String.length a <= String.length a')%nat -> (a ++ "::" ++ b = a' ++ "::" ++ b')%string -> a = a' /\ b = b').
  { clear. intros a b a' b' NB L E. destruct (app_split_le _ _ _ _ E L) as (m & -> & E').
    destruct m as [|x m]; [cbn in E'; injection E' as ->; rewrite app_nil_s; auto|exfalso].
    cbn in E'. injection E' as <- E'. destruct m as [|y m].
    - cbn in E'. injection E' as ->. apply char_free_cons in NB. tauto.
    - cbn in E'. injection E' as <- ->. apply char_free_app in NB. destruct NB as [_ NB]. apply char_free_cons in NB. tauto. }
  intros NB NB' E. destruct (Nat.le_ge_cases (String.length a) (String.length a')) as [L|L].
  - exact (W _ _ _ _ NB L E).
  - destruct (W _ _ _ _ NB' L (eq_sym E)) as [-> ->]. auto.
Qed.

(** ** Sorting does not depend on the order of entries with distinct keys *)
Lemma string_leb_nil s : string_leb "" s = true.
Proof. destruct s; reflexivity. Qed.
Lemma string_leb_cons a s b t : string_leb (String a s) (String b t) =
  match N.compare (N_of_ascii a) (N_of_ascii b) with Lt => true | Eq => string_leb s t | Gt => false end.
Proof. unfold string_leb. cbn [String.compare]. unfold Ascii.compare. destruct (N.compare _ _); reflexivity. Qed.
Lemma string_leb_trans a : forall b c, string_leb a b = true -> string_leb b c = true -> string_leb a c = true.
Proof.
  induction a as [|x a IH]; intros [|y b] [|z c]; try discriminate; intros H1 H2; try apply string_leb_nil.
  rewrite string_leb_cons in *. destruct (N.compare_spec (N_of_ascii x) (N_of_ascii y)) as [E|L|G]; try discriminate.
  - rewrite E. destruct (N.compare (N_of_ascii y) (N_of_ascii z)); try discriminate; [|reflexivity]. eapply IH; eassumption.
  - destruct (N.compare_spec (N_of_ascii y) (N_of_ascii z)) as [E'|L'|G']; try discriminate;
    (destruct (N.compare_spec (N_of_ascii x) (N_of_ascii z)); [lia|reflexivity|lia]).
Qed.
Lemma string_leb_total a : forall b, string_leb a b = false -> string_leb b a = true.
Proof.
  induction a as [|x a IH]; intros [|y b]; intro H; try reflexivity; try discriminate.
  rewrite string_leb_cons in *. rewrite N.compare_antisym. destruct (N.compare (N_of_ascii x) (N_of_ascii y)); cbn; try discriminate; auto.
Qed.
Lemma string_leb_antisym a : forall b, string_leb a b = true -> string_leb b a = true -> a = b.
Proof.
  induction a as [|x a IH]; intros [|y b] H1 H2; try reflexivity; try discriminate.
  rewrite string_leb_cons in H1, H2. rewrite N.compare_antisym in H2. destruct (N.compare_spec (N_of_ascii x) (N_of_ascii y)) as [E|L|G]; try discriminate.
  f_equal; [|apply IH; assumption]. rewrite <- (ascii_N_embedding x), <- (ascii_N_embedding y), E. reflexivity.
Qed.
Section Unique.
  Context {A : Type} (key : A -> string).
  Lemma insert_swap x y l : key x <> key y -> insert_s key x (insert_s key y l) = insert_s key y (insert_s key x l).
  Proof.
    intro N. induction l as [|z l IH]; cbn.
    - destruct (string_leb (key x) (key y)) eqn:XY, (string_leb (key y) (key x)) eqn:YX; try reflexivity.
      + exfalso. apply N, string_leb_antisym; assumption.
      + apply string_leb_total in XY. congruence.
    - destruct (string_leb (key y) (key z)) eqn:YZ, (string_leb (key x) (key z)) eqn:XZ; cbn; rewrite ?YZ, ?XZ.
      + destruct (string_leb (key x) (key y)) eqn:XY, (string_leb (key y) (key x)) eqn:YX; cbn; rewrite ?YZ, ?XZ; try reflexivity.
        * exfalso. apply N, string_leb_antisym; assumption.
        * apply string_leb_total in XY. congruence.
      + destruct (string_leb (key x) (key y)) eqn:XY; [|reflexivity]. rewrite (string_leb_trans _ _ _ XY YZ) in XZ. discriminate.
      + destruct (string_leb (key y) (key x)) eqn:YX; [|reflexivity]. rewrite (string_leb_trans _ _ _ YX XZ) in YZ. discriminate.
      + f_equal. exact IH.
  Qed.
  Lemma sort_unique l l' : NoDup (map key l) -> Permutation l l' -> sort_s key l = sort_s key l'.
  Proof.
    intros ND P. revert ND. induction P as [|x l l' P IH|x y l|l1 l2 l3 P1 IH1 P2 IH2]; intro ND; cbn in *.
    - reflexivity.
    - inversion ND; subst. rewrite IH by assumption. reflexivity.
    - inversion ND as [|? ? N ND']; subst. inversion ND' as [|? ? N' ND'']; subst. apply insert_swap. intro E. apply N. left. symmetry. exact E.
    - rewrite IH1 by exact ND. apply IH2. apply (Permutation_NoDup (Permutation_map key P1) ND).
  Qed.
End Unique.
