(** Lemmas for C35, C37, C65. *)
From Verif Require Import Py Model_Text Model_B2M Spec_Numeral Spec_B2M Proofs_Diagnostic Proofs_Structure Proofs_Numeral.

Lemma zmem_iff x l : zmem x l = true <-> In x l.
Proof.
  unfold zmem. rewrite existsb_exists. split; [intros (y & I & E); apply Z.eqb_eq in E; subst; exact I|].
  intro I. exists x. split; [exact I|apply Z.eqb_refl].
Qed.

(** ** The loops *)
Definition active (s : info) : bool := i_loop s && negb (i_inactive s).
Definition act (l : list info) (i : nat) (a : Z) : Prop := exists s, nth_error l i = Some s /\ active s = true /\ i_to s = a.
Definition numbered (k : Z) (l : list info) : Prop := forall i s, nth_error l i = Some s -> i_ns s = (k + Z.of_nat i)%Z.

Lemma numbered_tail k s l : numbered k (s :: l) -> i_ns s = k /\ numbered (k + 1) l.
Proof.
  intro N. split; [rewrite (N 0%nat s eq_refl); lia|]. intros i t I. rewrite (N (S i) t I). lia.
Qed.
Lemma act_S s l i a : act (s :: l) (S i) a <-> act l i a. Proof. reflexivity. Qed.
Lemma act_O s l a : act (s :: l) 0 a <-> active s = true /\ i_to s = a.
Proof. unfold act. cbn. split; [intros (t & [= <-] & H); exact H|intro H; exists s; auto]. Qed.
Lemma act_fun l i a b : act l i a -> act l i b -> a = b.
Proof. intros (s & H & _ & <-) (t & K & _ & <-). congruence. Qed.

Definition w0 : wstate := {| w_in := []; w_starts := []; w_cur := None |}.
Lemma ranges_app l1 : forall w l2, ranges_pass w (l1 ++ l2) = bind (ranges_pass w l1) (fun w => ranges_pass w l2).
Proof. induction l1 as [|s l1 IH]; intros w l2; cbn; auto. destruct (ranges_step w s); cbn; auto. Qed.

Record inv (k : Z) (l : list info) (w : wstate) : Prop := {
  v_starts : forall a, In a (w_starts w) <-> exists i, act l i a;
  v_mono : forall i j a b, act l i a -> act l j b -> (i < j)%nat -> (a < b)%Z;
  v_cur : match w_cur w with
          | None => forall i a, ~ act l i a
          | Some (a, b) => exists i, b = (k + Z.of_nat i)%Z /\ act l i a /\ forall j c, act l j c -> (i <= j)%nat
          end;
  v_in : forall x a b, d_get Z.eqb (w_in w) x = Some (a, b) <->
           exists i j, x = (k + Z.of_nat i)%Z /\ b = (k + Z.of_nat j)%Z /\ (i <= j)%nat /\ act l j a /\
             (forall j' c, act l j' c -> (i <= j')%nat -> (j <= j')%nat) /\ (a <= x)%Z }.

Lemma ranges_inv : forall l k w, numbered k l -> ranges_pass w0 (rev l) = Ok w -> inv k l w.
Proof.
  induction l as [|s l IH]; intros k w N R.
  - cbn in R. injection R as <-. constructor; cbn.
    + intro a. split; [intros []|]. intros (i & s & H & _). destruct i; discriminate H.
    + intros i j a b (s & H & _). destruct i; discriminate H.
    + intros i a (s & H & _). destruct i; discriminate H.
    + intros x a b. split; [discriminate|]. intros (i & j & _ & _ & _ & (s & H & _) & _). destruct j; discriminate H.
  - cbn [rev] in R. rewrite ranges_app in R. destruct (ranges_pass w0 (rev l)) as [w1|e] eqn:E; [|discriminate R].
    apply numbered_tail in N. destruct N as [NS N]. specialize (IH _ _ N eq_refl). clear E N.
    cbn [bind ranges_pass] in R.
    (* the state after the loop test *)
    assert (M : exists w2, inv (k + 1) l w1 /\ w_in w2 = w_in w1 /\
       (if active s then w_starts w2 = i_to s :: w_starts w1 /\ w_cur w2 = Some (i_to s, k) /\ (forall j b, act l j b -> (i_to s < b)%Z)
        else w_starts w2 = w_starts w1 /\ w_cur w2 = w_cur w1) /\
       w = match w_cur w2 with
           | Some (start, stop) => if (start <=? i_ns s)%Z then {| w_in := d_set Z.eqb (w_in w2) (i_ns s) (start, stop); w_starts := w_starts w2; w_cur := w_cur w2 |} else w2
           | None => w2 end).
    { unfold ranges_step in R. fold (active s) in R. destruct (active s) eqn:A.
      - destruct (w_cur w1) as [[st sp]|] eqn:C.
        + destruct (Z.leb_spec st (i_to s)) as [L|L]; [discriminate R|]. cbn [bind w_cur] in R.
          injection R as <-. exists {| w_in := w_in w1; w_starts := i_to s :: w_starts w1; w_cur := Some (i_to s, i_ns s) |}.
          split; [exact IH|]. split; [|split; [|reflexivity]]; cbn [w_in w_starts w_cur]; [reflexivity|].
          rewrite NS. repeat split. intros j b J. pose proof (v_cur _ _ _ IH) as V. rewrite C in V.
          destruct V as (i & _ & I & F). specialize (F j b J). destruct (Nat.eq_dec i j) as [<-|D].
          * rewrite (act_fun _ _ _ _ J I). exact L.
          * pose proof (v_mono _ _ _ IH i j st b I J ltac:(lia)). lia.
        + cbn [bind w_cur] in R. injection R as <-. exists {| w_in := w_in w1; w_starts := i_to s :: w_starts w1; w_cur := Some (i_to s, i_ns s) |}.
          split; [exact IH|]. split; [|split; [|reflexivity]]; cbn [w_in w_starts w_cur]; [reflexivity|].
          rewrite NS. repeat split. intros j b J. pose proof (v_cur _ _ _ IH) as V. rewrite C in V. destruct (V _ _ J).
      - cbn [bind] in R. injection R as <-. exists w1. split; [exact IH|]. auto. }
    clear R. destruct M as (w2 & I & WI & ST & ->). rewrite NS.
    assert (ACT0 : forall a, act (s :: l) 0 a -> active s = true /\ i_to s = a) by (intros a; apply act_O).
    assert (MONO : forall i j a b, act (s :: l) i a -> act (s :: l) j b -> (i < j)%nat -> (a < b)%Z).
    { intros i j a b HA HB L. destruct j as [|j]; [lia|]. destruct i as [|i].
      - apply ACT0 in HA. destruct HA as [A <-]. rewrite A in ST. destruct ST as (_ & _ & F). exact (F _ _ HB).
      - eapply (v_mono _ _ _ I i j); [exact HA|exact HB|lia]. }
    assert (STARTS : forall a, In a (w_starts w2) <-> exists i, act (s :: l) i a).
    { intro a. pose proof (v_starts _ _ _ I a) as V. destruct (active s) eqn:A.
      - destruct ST as (-> & _). cbn [In]. rewrite V. split.
        + intros [<-|[i H]]; [exists 0%nat; apply act_O; auto|exists (S i); exact H].
        + intros [[|i] H]; [apply ACT0 in H; tauto|right; exists i; exact H].
      - destruct ST as (-> & _). rewrite V. split; [intros [i H]; exists (S i); exact H|].
        intros [[|i] H]; [apply ACT0 in H; destruct H; congruence|exists i; exact H]. }
    assert (CUR : match w_cur w2 with
          | None => forall i a, ~ act (s :: l) i a
          | Some (a, b) => exists i, b = (k + Z.of_nat i)%Z /\ act (s :: l) i a /\ forall j c, act (s :: l) j c -> (i <= j)%nat
          end).
    { destruct (active s) eqn:A.
      - destruct ST as (_ & -> & _). exists 0%nat. split; [lia|]. split; [apply act_O; auto|]. lia.
      - destruct ST as (_ & ->). pose proof (v_cur _ _ _ I) as V. destruct (w_cur w1) as [[a b]|].
        + destruct V as (i & -> & H & F). exists (S i). split; [lia|]. split; [exact H|].
          intros [|j] c J; [apply ACT0 in J; destruct J; congruence|]. specialize (F _ _ J). lia.
        + intros [|i] a H; [apply ACT0 in H; destruct H; congruence|exact (V _ _ H)]. }
    assert (OLD : forall x a b, x <> k -> (d_get Z.eqb (w_in w2) x = Some (a, b) <->
           exists i j, x = (k + Z.of_nat i)%Z /\ b = (k + Z.of_nat j)%Z /\ (i <= j)%nat /\ act (s :: l) j a /\
             (forall j' c, act (s :: l) j' c -> (i <= j')%nat -> (j <= j')%nat) /\ (a <= x)%Z)).
    { intros x a b NX. rewrite WI, (v_in _ _ _ I). split.
      - intros (i & j & -> & -> & L & H & F & LE). exists (S i), (S j). repeat split; try lia; [exact H|].
        intros [|j'] c J L'; [lia|]. specialize (F j' c J ltac:(lia)). lia.
      - intros ([|i] & [|j] & -> & -> & L & H & F & LE); try lia. exists i, j. repeat split; try lia; [exact H|].
        intros j' c J L'. specialize (F (S j') c J ltac:(lia)). lia. }
    assert (NEW : d_get Z.eqb (w_in w2) k = None).
    { rewrite WI. destruct (d_get Z.eqb (w_in w1) k) as [[a b]|] eqn:G; auto. apply (v_in _ _ _ I) in G.
      destruct G as (i & j & G & _). lia. }
    destruct (w_cur w2) as [[a0 b0]|] eqn:C2.
    + destruct CUR as (i0 & -> & H0 & F0).
      destruct (Z.leb_spec a0 k) as [L|L].
      * constructor; cbn [w_in w_starts w_cur]; auto.
        -- exists i0. auto.
        -- intros x a b. rewrite d_get_set. destruct (Z.eqb_spec x k) as [->|NX]; [|apply OLD; exact NX].
           split.
           ++ intros [= <- <-]. exists 0%nat, i0. repeat split; try lia; [exact H0|]. intros j' c J _. exact (F0 _ _ J).
           ++ intros (i & j & E & -> & LE & H & F & LA). assert (i = 0%nat) by lia. subst i.
              assert (j = i0) by (pose proof (F0 _ _ H); pose proof (F _ _ H0 ltac:(lia)); lia). subst j.
              rewrite (act_fun _ _ _ _ H H0). reflexivity.
      * constructor; auto.
        -- rewrite C2. exists i0. auto.
        -- intros x a b. destruct (Z.eq_dec x k) as [->|NX]; [|apply OLD; exact NX]. rewrite NEW. split; [discriminate|].
           intros (i & j & E & -> & LE & H & F & LA). assert (i = 0%nat) by lia. subst i.
           assert (j = i0) by (pose proof (F0 _ _ H); pose proof (F _ _ H0 ltac:(lia)); lia). subst j.
           rewrite (act_fun _ _ _ _ H H0) in LA. lia.
    + constructor; auto.
      * rewrite C2. exact CUR.
      * intros x a b. destruct (Z.eq_dec x k) as [->|NX]; [|apply OLD; exact NX]. rewrite NEW. split; [discriminate|].
        intros (i & j & E & -> & LE & H & F & LA). destruct (CUR _ _ H).
Qed.

(** Once the assertions hold, no loop reaches into another. *)
Lemma loops_disjoint l w : numbered 0 l -> ranges_pass w0 (rev l) = Ok w -> starts_ok w = true ->
  forall j a, act l j a -> (0 <= a <= Z.of_nat j)%Z /\ forall j' c, act l j' c -> (a <= Z.of_nat j')%Z -> (j <= j')%nat.
Proof.
  intros N R S j a J. pose proof (ranges_inv l 0 w N R) as I.
  unfold starts_ok in S. rewrite forallb_forall in S. specialize (S a). rewrite (v_starts _ _ _ I) in S. specialize (S (ex_intro _ j J)).
  destruct (d_get Z.eqb (w_in w) a) as [[st sp]|] eqn:G; [|discriminate S]. apply Z.eqb_eq in S. subst st.
  apply (v_in _ _ _ I) in G. destruct G as (i & j2 & E & _ & L & J2 & F & _).
  assert (j2 = j).
  { destruct (Nat.lt_trichotomy j j2) as [X|[X|X]]; auto.
    - pose proof (v_mono _ _ _ I _ _ _ _ J J2 X). lia.
    - pose proof (v_mono _ _ _ I _ _ _ _ J2 J X). lia. }
  subst j2. split; [lia|]. intros j' c J' LE. apply (F j' c J'). lia.
Qed.

(** ** The numbering *)
Lemma nth_snoc {A} (l : list A) x i t : nth_error (l ++ [x]) i = Some t <-> nth_error l i = Some t \/ i = length l /\ t = x.
Proof.
  destruct (Nat.lt_ge_cases i (length l)) as [L|L].
  - rewrite nth_error_app1 by exact L. split; [auto|]. intros [H|[H _]]; [exact H|lia].
  - rewrite nth_error_app2 by exact L. split.
    + intro H. right. destruct (i - length l)%nat as [|k] eqn:E; [|destruct k; discriminate H]. injection H as <-. split; [lia|reflexivity].
    + intros [H|[-> ->]]; [|rewrite Nat.sub_diag; reflexivity]. apply nth_error_None in L. congruence.
Qed.
Lemma firstn_snoc {A} (l : list A) x i : (i <= length l)%nat -> firstn i (l ++ [x]) = firstn i l.
Proof. intro L. rewrite firstn_app. replace (i - length l)%nat with 0%nat by lia. apply app_nil_r. Qed.
Lemma nth_lt {A} (l : list A) i t : nth_error l i = Some t -> (i < length l)%nat.
Proof. intro H. apply nth_error_Some. congruence. Qed.

Definition blankb (s : info) : bool := i_loop s && Z.eqb (i_repeat s) 0.
Section Numbering.
  Variable l : list info.
  Variable starts : list Z.
  Hypothesis NUM : numbered 0 l.
  Definition blanks (l : list info) : list Z := map i_ns (filter blankb l).
  Definition isadv (s : info) : bool := i_loop s && Z.eqb (i_to s) (i_ns s - 1) && zmem (i_ns s - 1) (blanks l).
  Definition size (s : info) : Z :=
    if blankb s then 0%Z else if isadv s then 1%Z
    else ((if zmem (i_ns s) starts then 1 else 0) + (if i_loop s then 2 else 1))%Z.
  Definition own (s : info) : Z := if isadv s then 0%Z else if zmem (i_ns s) starts then 1%Z else 0%Z.
  Fixpoint total (l : list info) : Z := match l with [] => 0%Z | s :: r => (size s + total r)%Z end.
  Lemma total_app a b : total (a ++ b) = (total a + total b)%Z.
  Proof. induction a as [|s a IH]; cbn; lia. Qed.
  Lemma size_nonneg s : (0 <= size s)%Z.
  Proof. unfold size. destruct (blankb s), (isadv s), (zmem (i_ns s) starts), (i_loop s); lia. Qed.
  Lemma total_nonneg a : (0 <= total a)%Z.
  Proof. induction a as [|s a IH]; cbn; [lia|]. pose proof (size_nonneg s). lia. Qed.

  Lemma num_at l1 s l2 : l = l1 ++ s :: l2 -> i_ns s = Z.of_nat (length l1).
  Proof.
    intro E. rewrite (NUM (length l1) s); [lia|]. rewrite E, nth_error_app2 by lia. rewrite Nat.sub_diag. reflexivity.
  Qed.
  Lemma blanks_prefix l1 s l2 x : l = l1 ++ s :: l2 -> (x < Z.of_nat (length l1))%Z -> zmem x (blanks l) = zmem x (blanks l1).
  Proof.
    intros E L. apply Bool.eq_iff_eq_true. rewrite !zmem_iff. unfold blanks. rewrite E, filter_app, map_app, in_app_iff. split; [|auto].
    intros [H|H]; [exact H|]. exfalso. apply in_map_iff in H. destruct H as (t & <- & H). apply filter_In in H. destruct H as [H _].
    apply In_nth_error in H. destruct H as [j H].
    assert (K : nth_error l (length l1 + j) = Some t) by (rewrite E, nth_error_app2 by lia; replace (length l1 + j - length l1)%nat with j by lia; exact H).
    apply NUM in K. lia.
  Qed.

  Record ninv (l1 : list info) (n : nstate) : Prop := {
    u_cur : n_cur n = (1 + total l1)%Z;
    u_blank : forall x, In x (n_blank n) <-> In x (blanks l1);
    u_nums : forall x v, d_get Z.eqb (n_nums n) x = Some v <->
      exists i s, nth_error l1 i = Some s /\ blankb s = false /\ x = Z.of_nat i /\ v = (1 + total (firstn i l1) + own s)%Z;
    u_steps : forall v, In v (n_steps n) <->
      exists i s, nth_error l1 i = Some s /\ blankb s = false /\ isadv s = false /\ zmem (i_ns s) starts = true /\ v = (2 + total (firstn i l1))%Z;
    u_loops : forall i s, nth_error l1 i = Some s -> blankb s = false -> isadv s = false -> i_loop s = true ->
      exists t, py_nth l (i_to s) = Some t /\ i_loop t = false }.

  Lemma zmem_ext x a b : (forall y, In y a <-> In y b) -> zmem x a = zmem x b.
  Proof. intro H. apply Bool.eq_iff_eq_true. rewrite !zmem_iff. apply H. Qed.

  Lemma number_step l1 s l2 n n' : l = l1 ++ s :: l2 -> ninv l1 n ->
    number_seq l starts n (Z.of_nat (length l1)) s = Ok n' -> ninv (l1 ++ [s]) n'.
  Proof.
    intros E I H. pose proof (num_at _ _ _ E) as NS.
    assert (BL : zmem (i_ns s - 1) (n_blank n) = zmem (i_ns s - 1) (blanks l)).
    { rewrite (zmem_ext _ _ _ (u_blank _ _ I)). symmetry. apply (blanks_prefix _ _ _ _ E). lia. }
    unfold number_seq in H. fold (blankb s) in H. rewrite BL in H. fold (isadv s) in H.
    assert (TOT : total (l1 ++ [s]) = (total l1 + size s)%Z) by (rewrite total_app; cbn; lia).
    assert (FRESH : d_get Z.eqb (n_nums n) (i_ns s) = None).
    { destruct (d_get Z.eqb (n_nums n) (i_ns s)) as [v|] eqn:G; auto. apply (u_nums _ _ I) in G.
      destruct G as (i & t & T & _ & X & _). apply nth_lt in T. lia. }
    assert (NUMS : forall v', blankb s = false -> v' = (1 + total l1 + own s)%Z -> forall x v,
        d_get Z.eqb (d_set Z.eqb (n_nums n) (i_ns s) v') x = Some v <->
        exists i t, nth_error (l1 ++ [s]) i = Some t /\ blankb t = false /\ x = Z.of_nat i /\ v = (1 + total (firstn i (l1 ++ [s])) + own t)%Z).
    { intros v' B V x v. rewrite d_get_set. destruct (Z.eqb_spec x (i_ns s)) as [->|NX].
      - split.
        + intros [= <-]. exists (length l1), s. rewrite nth_snoc, firstn_snoc, firstn_all by lia. auto.
        + intros (i & t & T & _ & X & ->). assert (i = length l1) by lia. subst i. apply nth_snoc in T.
          destruct T as [T|[_ ->]]; [apply nth_lt in T; lia|]. rewrite firstn_snoc, firstn_all by lia. congruence.
      - rewrite (u_nums _ _ I). split.
        + intros (i & t & T & R). exists i, t. rewrite nth_snoc, firstn_snoc by (apply nth_lt in T; lia). auto.
        + intros (i & t & T & B' & X & R). apply nth_snoc in T. destruct T as [T|[-> ->]]; [|lia].
          rewrite firstn_snoc in R by (apply nth_lt in T; lia). eauto 6. }
    assert (STEPS : forall (st : list Z), (forall v, In v st <-> In v (n_steps n) \/ blankb s = false /\ isadv s = false /\ zmem (i_ns s) starts = true /\ v = (2 + total l1)%Z) ->
        forall v, In v st <->
        exists i t, nth_error (l1 ++ [s]) i = Some t /\ blankb t = false /\ isadv t = false /\ zmem (i_ns t) starts = true /\ v = (2 + total (firstn i (l1 ++ [s])))%Z).
    { intros st ST v. rewrite ST, (u_steps _ _ I). split.
      - intros [(i & t & T & R)|R].
        + exists i, t. rewrite nth_snoc, firstn_snoc by (apply nth_lt in T; lia). auto.
        + exists (length l1), s. rewrite nth_snoc, firstn_snoc, firstn_all by lia. tauto.
      - intros (i & t & T & R). apply nth_snoc in T. destruct T as [T|[-> ->]].
        + left. rewrite firstn_snoc in R by (apply nth_lt in T; lia). eauto.
        + right. rewrite firstn_snoc, firstn_all in R by lia. exact R. }
    assert (LOOPS : (blankb s = false -> isadv s = false -> i_loop s = true -> exists t, py_nth l (i_to s) = Some t /\ i_loop t = false) ->
        forall i t, nth_error (l1 ++ [s]) i = Some t -> blankb t = false -> isadv t = false -> i_loop t = true -> exists u, py_nth l (i_to t) = Some u /\ i_loop u = false).
    { intros HS i t T. apply nth_snoc in T. destruct T as [T|[-> ->]]; [exact (u_loops _ _ I i t T)|exact HS]. }
    assert (BLANKS : blanks (l1 ++ [s]) = blanks l1 ++ (if blankb s then [i_ns s] else [])).
    { unfold blanks. rewrite filter_app, map_app. cbn. destruct (blankb s); reflexivity. }
    destruct (blankb s) eqn:B.
    - injection H as <-. constructor; cbn [n_cur n_blank n_nums n_steps].
      + rewrite TOT, (u_cur _ _ I). unfold size. rewrite B. lia.
      + intro x. rewrite BLANKS, in_app_iff. cbn [In]. rewrite (u_blank _ _ I). tauto.
      + intros x v. rewrite (u_nums _ _ I). split.
        * intros (i & t & T & R). exists i, t. rewrite nth_snoc, firstn_snoc by (apply nth_lt in T; lia). auto.
        * intros (i & t & T & B' & R). apply nth_snoc in T. destruct T as [T|[-> ->]]; [|congruence].
          rewrite firstn_snoc in R by (apply nth_lt in T; lia). eauto 6.
      + apply STEPS. intro v. intuition congruence.
      + apply LOOPS. congruence.
    - destruct (isadv s) eqn:A.
      + injection H as <-. constructor; cbn [n_cur n_blank n_nums n_steps].
        * rewrite TOT, (u_cur _ _ I). unfold size. rewrite B, A. lia.
        * intro x. rewrite BLANKS, app_nil_r. apply (u_blank _ _ I).
        * apply NUMS; auto. rewrite (u_cur _ _ I). unfold own. rewrite A. lia.
        * apply STEPS. intro v. intuition congruence.
        * apply LOOPS. congruence.
      + (* 617 repeats the test of 596-599 *)
        replace (i_loop s && Z.eqb (i_to s) (Z.of_nat (length l1) - 1) && zmem (Z.of_nat (length l1) - 1) (n_blank n)) with false in H
          by (rewrite <- NS, BL; symmetry; exact A).
        assert (M : exists more, more = (if i_loop s then 2 else 1)%Z /\
                    (i_loop s = true -> exists t, py_nth l (i_to s) = Some t /\ i_loop t = false) /\
                    n' = {| n_cur := (if zmem (i_ns s) starts then n_cur n + 1 else n_cur n) + more;
                            n_steps := if zmem (i_ns s) starts then (if zmem (i_ns s) starts then (n_cur n + 1)%Z else n_cur n) :: n_steps n else n_steps n;
                            n_blank := n_blank n;
                            n_nums := d_set Z.eqb (n_nums n) (i_ns s) (if zmem (i_ns s) starts then (n_cur n + 1)%Z else n_cur n) |}).
        { destruct (i_loop s).
          - destruct (py_nth l (i_to s)) as [t|] eqn:PT; [|discriminate H]. destruct (i_loop t) eqn:LT; [discriminate H|].
            cbn [bind] in H. injection H as <-. exists 2%Z. split; [reflexivity|]. split; [|reflexivity]. intros _. exists t. auto.
          - cbn [bind] in H. injection H as <-. exists 1%Z. split; [reflexivity|]. split; [discriminate|reflexivity]. }
        destruct M as (more & MO & LT & ->). constructor; cbn [n_cur n_blank n_nums n_steps].
        * rewrite TOT. unfold size. rewrite B, A, MO, (u_cur _ _ I). destruct (zmem (i_ns s) starts); lia.
        * intro x. rewrite BLANKS, app_nil_r. apply (u_blank _ _ I).
        * apply NUMS; auto. unfold own. rewrite (u_cur _ _ I), A. destruct (zmem (i_ns s) starts); lia.
        * apply STEPS. intro v. rewrite (u_cur _ _ I). destruct (zmem (i_ns s) starts); cbn [In]; [|intuition congruence].
          split; [intros [<-|X]; [right|auto]|intros [X|(_ & _ & _ & ->)]; [auto|left]]; try lia.
        * apply LOOPS. auto.
  Qed.
  Lemma number_all l2 : forall l1 n n', l = l1 ++ l2 -> ninv l1 n ->
    number_pass l starts n (Z.of_nat (length l1)) l2 = Ok n' -> ninv l n'.
  Proof.
    induction l2 as [|s l2 IH]; intros l1 n n' E I H; cbn in H.
    - injection H as <-. rewrite app_nil_r in E. subst l1. exact I.
    - destruct (number_seq l starts n (Z.of_nat (length l1)) s) as [n1|e] eqn:N1; [|discriminate H]. cbn [bind] in H.
      apply (IH (l1 ++ [s]) n1 n'); [rewrite E, <- app_assoc; reflexivity|eapply number_step; eauto|].
      rewrite app_length. cbn. rewrite <- H. f_equal. lia.
  Qed.
  Lemma number_pass_inv n : number_pass l starts {| n_cur := 1; n_steps := []; n_blank := []; n_nums := [] |} 0 l = Ok n -> ninv l n.
  Proof.
    intro H. apply (number_all l [] {| n_cur := 1; n_steps := []; n_blank := []; n_nums := [] |} n eq_refl); [|exact H].
    constructor; cbn; [reflexivity|tauto| | |].
    - intros x v. split; [discriminate|]. intros (i & s & T & _). destruct i; discriminate T.
    - intro v. split; [intros []|]. intros (i & s & T & _). destruct i; discriminate T.
    - intros i s T. destruct i; discriminate T.
  Qed.
End Numbering.

(** ** The steps *)
Lemma step_text n : (0 <= n)%Z -> integer (stringify_step_num n) n.
Proof. intro P. apply integer_iff. apply Proofs_Text.parse_zfill. exact P. Qed.

Section Emission.
  Variable show : Q -> string.
  Variable l : list info.
  Variable w : wstate.
  Variable n : nstate.
  Variable blocks : list (list bstep).
  Hypothesis NUM : numbered 0 l.
  Hypothesis PLAIN : forall s, In s l -> i_inactive s = Z.eqb (i_repeat s) 0.
  Hypothesis RNG : ranges_pass w0 (rev l) = Ok w.
  Hypothesis STOK : starts_ok w = true.
  Hypothesis NMB : number_pass l (w_starts w) {| n_cur := 1; n_steps := []; n_blank := []; n_nums := [] |} 0 l = Ok n.
  Hypothesis CHK : check_gotos (w_in w) (n_blank n) (-1) l = Ok tt.
  Hypothesis EMIT : mapM (emit_seq show (w_starts w) (n_nums n) (n_steps n) (n_blank n) (n_cur n)) l = Ok blocks.
  Notation starts := (w_starts w).

  Let NI : ninv l starts l n. Proof. exact (number_pass_inv l starts NUM n NMB). Qed.
  Let RI : inv 0 l w. Proof. exact (ranges_inv l 0 w NUM RNG). Qed.

  #[local] Set Default Proof Using "All".
  Lemma ns_at i s : nth_error l i = Some s -> i_ns s = Z.of_nat i.
  Proof. intro H. rewrite (NUM i s H). lia. Qed.
  Lemma blank_in i s : nth_error l i = Some s -> zmem (i_ns s) (n_blank n) = blankb s.
  Proof.
    intro H. apply Bool.eq_iff_eq_true. rewrite zmem_iff, (u_blank _ _ _ _ NI). unfold blanks. rewrite in_map_iff. split.
    - intros (t & E & I). apply filter_In in I. destruct I as [I B]. apply In_nth_error in I. destruct I as [j J].
      rewrite (ns_at _ _ J), (ns_at _ _ H) in E. assert (j = i) by lia. subst j. congruence.
    - intro B. exists s. split; [reflexivity|]. apply filter_In. split; [|exact B]. eapply nth_error_In; eauto.
  Qed.
  Lemma isadv_blank s : zmem (i_ns s - 1) (n_blank n) = zmem (i_ns s - 1) (blanks l).
  Proof. apply zmem_ext. apply (u_blank _ _ _ _ NI). Qed.
  Lemma active_blank s : In s l -> active s = i_loop s && negb (blankb s).
  Proof. intro I. unfold active, blankb. rewrite (PLAIN s I). destruct (i_loop s); reflexivity. Qed.
  (** no Do step is put before a loop *)
  Lemma starts_plain i s : nth_error l i = Some s -> zmem (i_ns s) starts = true -> blankb s = false ->
    i_loop s = false /\ exists e t, nth_error l e = Some t /\ i_loop t = true /\ blankb t = false /\ isadv l t = false /\ i_to t = Z.of_nat i.
  Proof.
    intros H S B. rewrite zmem_iff, (v_starts _ _ _ RI) in S. destruct S as (e & t & T & A & TO).
    rewrite (active_blank t) in A by (eapply nth_error_In; eauto). apply andb_prop in A. destruct A as [LT BT]. apply negb_true_iff in BT.
    rewrite (ns_at _ _ H) in TO.
    destruct (isadv l t) eqn:AD.
    - unfold isadv in AD. apply andb_prop in AD. destruct AD as [AD M]. apply andb_prop in AD. destruct AD as [_ E]. apply Z.eqb_eq in E.
      rewrite <- E, TO, <- (ns_at _ _ H) in M. rewrite <- (zmem_ext _ _ _ (u_blank _ _ _ _ NI)) in M. rewrite (blank_in _ _ H) in M. congruence.
    - split; [|exists e, t; auto]. destruct (u_loops _ _ _ _ NI e t T BT AD LT) as (u & P & LU).
      unfold py_nth in P. rewrite TO in P. destruct (Z.leb_spec 0 (Z.of_nat i)) as [_|X]; [|lia]. rewrite Nat2Z.id, H in P. congruence.
  Qed.
  Lemma adv_not_start i s : nth_error l i = Some s -> blankb s = false -> i_loop s = true -> zmem (i_ns s) starts = false.
  Proof.
    intros H B L. destruct (zmem (i_ns s) starts) eqn:S; auto. destruct (starts_plain _ _ H S B) as [X _]. congruence.
  Qed.

  Lemma block_at i s : nth_error l i = Some s ->
    exists b, nth_error blocks i = Some b /\ emit_seq show starts (n_nums n) (n_steps n) (n_blank n) (n_cur n) s = Ok b.
  Proof.
    intro H. pose proof EMIT as E. apply mapM_ok in E. clear -E H. revert i H. induction E as [|x y xs ys E F IH]; intros [|i] H; try discriminate H.
    - injection H as <-. exists y. auto.
    - exact (IH i H).
  Qed.
  Lemma block_len i s b : nth_error l i = Some s -> nth_error blocks i = Some b -> Z.of_nat (length b) = size l starts s.
  Proof.
    intros H Hb. destruct (block_at i s H) as (b' & Hb' & E). rewrite Hb in Hb'. injection Hb' as <-.
    unfold emit_seq in E. rewrite (blank_in _ _ H), isadv_blank in E. fold (isadv l s) in E. unfold size.
    destruct (blankb s) eqn:B; [injection E as <-; reflexivity|].
    destruct (isadv l s) eqn:A.
    - injection E as <-. rewrite (adv_not_start i s H B); [reflexivity|]. unfold isadv in A. destruct (i_loop s); auto; discriminate.
    - destruct (i_loop s) eqn:L.
      + destruct (create_loop_step (n_nums n) (i_dict s)) as [lp|]; [|discriminate E]. cbn [bind] in E. injection E as <-.
        rewrite app_length. destruct (zmem (i_ns s) starts); reflexivity.
      + destruct (create_step show (n_nums n) (n_steps n) (n_cur n) (i_dict s)) as [st|]; [|discriminate E]. cbn [bind] in E. injection E as <-.
        rewrite app_length. destruct (zmem (i_ns s) starts); reflexivity.
  Qed.
  Lemma blocks_length : length blocks = length l.
  Proof. pose proof EMIT as E. apply mapM_ok in E. symmetry. eapply F2_length; eauto. Qed.
  Lemma firstn_S_nth {A} (m : list A) : forall i x, nth_error m i = Some x -> firstn (S i) m = firstn i m ++ [x].
  Proof.
    induction m as [|y m IH]; intros [|i] x H; try discriminate H; cbn in H.
    - injection H as <-. reflexivity.
    - cbn [firstn app]. f_equal. apply IH. exact H.
  Qed.
  Lemma prefix_len i : (i <= length l)%nat -> Z.of_nat (length (concat (firstn i blocks))) = total l starts (firstn i l).
  Proof.
    induction i as [|i IH]; intro L; [reflexivity|].
    destruct (nth_error l i) as [s|] eqn:H; [|apply nth_error_None in H; lia].
    destruct (block_at i s H) as (b & Hb & _). rewrite (firstn_S_nth _ _ _ H), (firstn_S_nth _ _ _ Hb), concat_app, app_length, total_app.
    cbn [concat total]. rewrite app_nil_r, <- (block_len i s b H Hb). specialize (IH ltac:(lia)). lia.
  Qed.
  Lemma first_total i : (i <= length l)%nat -> first_of blocks i = (1 + total l starts (firstn i l))%Z.
  Proof. intro L. unfold first_of. rewrite prefix_len by exact L. lia. Qed.
  Lemma end_num : n_cur n = (Z.of_nat (length (concat blocks)) + 1)%Z.
  Proof.
    rewrite (u_cur _ _ _ _ NI). pose proof (prefix_len (length l) ltac:(lia)) as P. rewrite <- blocks_length in P at 1.
    rewrite !firstn_all in P. lia.
  Qed.
  (** the step number of a sequence *)
  Definition landing (s : info) (i : nat) : Z := (first_of blocks i + (if zmem (i_ns s) starts then 1 else 0))%Z.
  Lemma nums_at i v : d_get Z.eqb (n_nums n) (Z.of_nat i) = Some v <->
    exists s, nth_error l i = Some s /\ blankb s = false /\ v = landing s i.
  Proof.
    rewrite (u_nums _ _ _ _ NI). split.
    - intros (j & s & H & B & X & ->). assert (j = i) by lia. subst j. exists s. split; [exact H|]. split; [exact B|].
      unfold landing. rewrite first_total by (apply nth_lt in H; lia). unfold own. destruct (isadv l s) eqn:A; [|lia].
      rewrite (adv_not_start i s H B); [lia|]. unfold isadv in A. destruct (i_loop s); auto; discriminate.
    - intros (s & H & B & ->). exists i, s. split; [exact H|]. split; [exact B|]. split; [reflexivity|].
      unfold landing. rewrite first_total by (apply nth_lt in H; lia). unfold own. destruct (isadv l s) eqn:A; [|lia].
      rewrite (adv_not_start i s H B); [lia|]. unfold isadv in A. destruct (i_loop s); auto; discriminate.
  Qed.
  Lemma nums_z x v : d_get Z.eqb (n_nums n) x = Some v -> exists i, x = Z.of_nat i.
  Proof. rewrite (u_nums _ _ _ _ NI). intros (i & s & _ & _ & X & _). exists i. exact X. Qed.
  Lemma loop_steps v : In v (n_steps n) <-> exists i s, nth_error l i = Some s /\ blankb s = false /\ zmem (i_ns s) starts = true /\ v = landing s i.
  Proof.
    rewrite (u_steps _ _ _ _ NI). split.
    - intros (i & s & H & B & A & Z & ->). exists i, s. repeat split; auto. unfold landing. rewrite Z, first_total by (apply nth_lt in H; lia). lia.
    - intros (i & s & H & B & Z & ->). exists i, s. repeat split; auto.
      + destruct (isadv l s) eqn:A; auto. rewrite (adv_not_start i s H B) in Z; [congruence|]. unfold isadv in A. destruct (i_loop s); auto; discriminate.
      + unfold landing. rewrite Z, first_total by (apply nth_lt in H; lia). lia.
  Qed.
  Lemma landing_pos s i : (1 <= landing s i)%Z.
  Proof. unfold landing, first_of. destruct (zmem (i_ns s) starts); lia. Qed.
  Lemma first_mono i j : (i <= j)%nat -> (first_of blocks i <= first_of blocks j)%Z.
  Proof.
    intro L. unfold first_of. replace (firstn i blocks) with (firstn i (firstn j blocks)) by (rewrite firstn_firstn; f_equal; lia).
    rewrite <- (firstn_skipn i (firstn j blocks)) at 2. rewrite concat_app, app_length. lia.
  Qed.
  Lemma landing_bound s i : nth_error l i = Some s -> blankb s = false -> (landing s i <= Z.of_nat (length (concat blocks)))%Z.
  Proof.
    intros H B. destruct (block_at i s H) as (b & Hb & _). pose proof (block_len i s b H Hb) as LB.
    assert (F : (first_of blocks (S i) <= first_of blocks (length blocks))%Z) by (apply first_mono; rewrite blocks_length; apply nth_lt in H; lia).
    unfold first_of in F. rewrite firstn_all, (firstn_S_nth _ _ _ Hb), concat_app, app_length in F. cbn [concat] in F. rewrite app_nil_r in F.
    unfold landing, first_of. unfold size in LB. rewrite B in LB.
    destruct (isadv l s) eqn:A.
    - rewrite (adv_not_start i s H B); [lia|]. unfold isadv in A. destruct (i_loop s); auto; discriminate.
    - destruct (zmem (i_ns s) starts), (i_loop s); lia.
  Qed.
End Emission.
