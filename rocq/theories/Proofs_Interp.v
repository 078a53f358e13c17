From Coq Require Import Permutation Sorted.
From Verif Require Import Py Num Model_Interp Spec_Interp.

Lemma has_key_iff k l : has_key k l = true <-> exists x, In x l /\ k == x.
Proof.
  unfold has_key. rewrite existsb_exists. split; intros (x & H & E); exists x; split; auto; apply Qeq_bool_iff; auto.
Qed.
Lemma has_key_false k l : has_key k l = false <-> forall x, In x l -> ~ k == x.
Proof.
  destruct (has_key k l) eqn:E.
  - apply has_key_iff in E as (x & H & K). split; [discriminate|]. intros N. exfalso. eapply N; eauto.
  - split; auto. intros _ x H K. assert (has_key k l = true) by (apply has_key_iff; eauto). congruence.
Qed.

Lemma insert_perm r l : Permutation (insert r l) (r :: l).
Proof.
  induction l as [|s l IH]; simpl; auto. destruct (Qle_bool _ _); auto.
  rewrite IH. apply perm_swap.
Qed.
Lemma sort_perm l : Permutation (sort_rows l) l.
Proof. induction l as [|r l IH]; simpl; auto. rewrite insert_perm. auto. Qed.

Definition le_x (a b : mrow) := m_x a <= m_x b.
Definition lt_x (a b : mrow) := m_x a < m_x b.
Lemma insert_sorted r l : StronglySorted le_x l -> StronglySorted le_x (insert r l).
Proof.
  induction 1 as [|s l Hl IH Hs]; simpl.
  - repeat constructor.
  - destruct (Qle_bool (m_x r) (m_x s)) eqn:E.
    + apply Qle_bool_iff in E. constructor; [constructor; auto|]. constructor; auto.
      eapply Forall_impl; [|exact Hs]. intros a Ha. unfold le_x in *. eapply Qle_trans; eauto.
    + assert (m_x s < m_x r) by (apply Qnot_le_lt; intro K; apply Qle_bool_iff in K; congruence).
      constructor; auto. apply Forall_forall. intros a Ha.
      apply (Permutation_in _ (insert_perm r l)) in Ha as [<-|Ha].
      * unfold le_x. apply Qlt_le_weak; auto.
      * rewrite Forall_forall in Hs. auto.
Qed.
Lemma sort_sorted l : StronglySorted le_x (sort_rows l).
Proof. induction l; simpl; [constructor|apply insert_sorted; auto]. Qed.

Lemma FOP_perm {A} (R : A -> A -> Prop) l l' : (forall a b, R a b -> R b a) ->
  Permutation l l' -> ForallOrdPairs R l -> ForallOrdPairs R l'.
Proof.
  intros S P. induction P; intro H; auto.
  - inversion H; subst. constructor; auto. eapply Permutation_Forall; eauto.
  - inversion H as [|? ? H1 H2]; subst. inversion H1; subst. inversion H2; subst.
    constructor; [constructor; auto|constructor; auto].
Qed.
Lemma FOP_map {A B} (f : A -> B) (R : B -> B -> Prop) l :
  ForallOrdPairs (fun a b => R (f a) (f b)) l <-> ForallOrdPairs R (map f l).
Proof.
  induction l; simpl; split; intro H; try constructor; inversion H; subst.
  - rewrite Forall_map. auto.
  - apply IHl; auto.
  - rewrite Forall_map in *. auto.
  - apply IHl; auto.
Qed.
Lemma FOP_app {A} (R : A -> A -> Prop) l1 l2 : ForallOrdPairs R (l1 ++ l2) <->
  ForallOrdPairs R l1 /\ ForallOrdPairs R l2 /\ forall a b, In a l1 -> In b l2 -> R a b.
Proof.
  induction l1 as [|x l1 IH]; simpl.
  - split; [intro H; repeat split; auto; try constructor; intros ? ? []|tauto].
  - split.
    + intro H. inversion H; subst. apply IH in H3 as (K1 & K2 & K3). apply Forall_app in H2 as [F1 F2].
      repeat split; auto; [constructor; auto|]. intros a b [<-|Ha] Hb; auto. rewrite Forall_forall in F2; auto.
    + intros (K1 & K2 & K3). inversion K1; subst. constructor.
      * apply Forall_app. split; auto. apply Forall_forall. intros; apply K3; auto.
      * apply IH. repeat split; auto.
Qed.
Lemma FOP_filter {A} (R : A -> A -> Prop) f l : ForallOrdPairs R l -> ForallOrdPairs R (filter f l).
Proof.
  induction 1 as [|x l Hx Hl IH]; simpl; [constructor|]. destruct (f x); auto. constructor; auto.
  apply Forall_forall. intros y Hy. apply filter_In in Hy as [Hy _]. rewrite Forall_forall in Hx. auto.
Qed.
Definition NoDupQ (l : list Q) := ForallOrdPairs (fun a b => ~ a == b) l.

Lemma dedup_aux_spec l : forall seen, NoDupQ (dedup_aux seen l) /\
  (forall x, In x (dedup_aux seen l) -> In x l /\ has_key x seen = false) /\
  (forall x, In x l -> has_key x seen = false -> has_key x (dedup_aux seen l) = true).
Proof.
  induction l as [|y l IH]; intro seen; simpl.
  - split; [constructor|]. split; tauto.
  - destruct (has_key y seen) eqn:E.
    + destruct (IH seen) as (A & B & C). split; [auto|split].
      * intros x Hx. destruct (B x Hx). auto.
      * intros x [<-|Hx] K; auto. congruence.
    + destruct (IH (y :: seen)) as (A & B & C). split; [|split].
      * constructor; auto. apply Forall_forall. intros x Hx. apply B in Hx as [_ Hx]. simpl in Hx.
        apply orb_false_iff in Hx as [Hx _]. intro K. symmetry in K. apply Qeq_bool_iff in K. congruence.
      * intros x [<-|H]; auto. apply B in H as [H1 H2]. simpl in H2. apply orb_false_iff in H2. tauto.
      * intros x [<-|Hx] K; simpl; apply orb_true_iff.
        -- left. apply Qeq_bool_iff. reflexivity.
        -- destruct (Qeq_bool x y) eqn:Q; auto. right. apply C; auto. simpl. rewrite Q. auto.
Qed.
Lemma dedup_nodup l : NoDupQ (dedup l). Proof. apply (dedup_aux_spec l []). Qed.
Lemma dedup_in x l : In x (dedup l) -> In x l. Proof. intro H. apply (proj1 (proj2 (dedup_aux_spec l [])) x H). Qed.
Lemma dedup_has x l : In x l -> has_key x (dedup l) = true.
Proof. intro H. apply (dedup_aux_spec l []); auto. Qed.

Section Merge.
  Variables (samples : list sample) (grid : list Q).
  Hypothesis DX : distinct_axis samples.
  Let rows := merged samples grid.
  Let rowsA := map (fun s => {| m_x := fst s; m_y := snd s; m_grid := has_key (fst s) grid |}) samples.
  Let rowsB := map (fun g => {| m_x := g; m_y := None; m_grid := true |})
         (filter (fun g => negb (has_key g (map fst samples))) (dedup grid)).
  Lemma rows_perm : Permutation rows (rowsA ++ rowsB).
  Proof. apply sort_perm. Qed.
  Lemma rows_distinct : ForallOrdPairs (fun a b => ~ m_x a == m_x b) rows.
  Proof.
    eapply FOP_perm; [| apply Permutation_sym, rows_perm |].
    { intros a b H K. apply H. symmetry. auto. }
    apply FOP_app. repeat split.
    - unfold rowsA. apply (proj1 (FOP_map _ (fun a b => ~ m_x a == m_x b) _)). exact DX.
    - unfold rowsB. apply (proj1 (FOP_map _ (fun a b => ~ m_x a == m_x b) _)). apply FOP_filter. apply dedup_nodup.
    - intros a b Ha Hb. apply in_map_iff in Ha as (s & <- & Hs). apply in_map_iff in Hb as (g & <- & Hg).
      apply filter_In in Hg as [_ Hg]. simpl. apply negb_true_iff in Hg. intro K.
      rewrite has_key_false in Hg. apply (Hg (fst s)); [apply in_map; auto|symmetry; auto].
  Qed.
  Lemma rows_strict : StronglySorted lt_x rows.
  Proof.
    pose proof (sort_sorted (rowsA ++ rowsB)) as S. pose proof rows_distinct as D. unfold rows, merged in *.
    fold rowsA rowsB in D |- *. revert S D. generalize (sort_rows (rowsA ++ rowsB)).
    induction 1 as [|a l Hl IH Ha]; intro D; inversion D; subst; constructor; auto.
    rewrite Forall_forall in *. intros b Hb. specialize (Ha b Hb). specialize (H1 b Hb).
    unfold lt_x, le_x in *. apply Qle_lteq in Ha as [|K]; auto. contradiction.
  Qed.
  Lemma rows_known x y : (exists r, In r rows /\ m_x r = x /\ m_y r = Some y) <-> known samples x y.
  Proof.
    unfold known. split.
    - intros (r & H & <- & E). apply (Permutation_in _ rows_perm) in H. apply in_app_or in H as [H|H].
      + apply in_map_iff in H as ([a b] & <- & H). simpl in *. subst b. auto.
      + apply in_map_iff in H as (g & <- & _). discriminate.
    - intro H. exists {| m_x := x; m_y := Some y; m_grid := has_key x grid |}. split; auto.
      apply (Permutation_in _ (Permutation_sym rows_perm)). apply in_or_app. left.
      apply in_map_iff. exists (x, Some y). auto.
  Qed.
  Lemma rows_grid x : (exists r, In r rows /\ m_x r == x /\ m_grid r = true) <-> has_key x grid = true.
  Proof.
    split.
    - intros (r & H & E & G). apply (Permutation_in _ rows_perm) in H. apply has_key_iff. apply in_app_or in H as [H|H].
      + apply in_map_iff in H as (s & <- & H). simpl in *. apply has_key_iff in G as (g & Hg & K).
        exists g. split; auto. rewrite <- E. auto.
      + apply in_map_iff in H as (g & <- & H). apply filter_In in H as [H _]. apply dedup_in in H. simpl in E.
        exists g. split; auto. symmetry; auto.
    - intro H. apply has_key_iff in H as (g & Hg & E). apply dedup_has in Hg.
      apply has_key_iff in Hg as (g' & Hg & E').
      destruct (has_key g' (map fst samples)) eqn:K.
      + pose proof K as K0. apply has_key_iff in K0 as (xs & Hx & Ex). apply in_map_iff in Hx as (s & <- & Hs).
        exists {| m_x := fst s; m_y := snd s; m_grid := has_key (fst s) grid |}. repeat split.
        * apply (Permutation_in _ (Permutation_sym rows_perm)). apply in_or_app. left.
          apply in_map_iff. exists s. auto.
        * simpl. rewrite E, E'. symmetry. auto.
        * simpl. apply has_key_iff. exists g'. split; [apply dedup_in; auto|symmetry; auto].
      + exists {| m_x := g'; m_y := None; m_grid := true |}. repeat split.
        * apply (Permutation_in _ (Permutation_sym rows_perm)). apply in_or_app. right.
          apply in_map_iff. exists g'. split; auto. apply filter_In. rewrite K. auto.
        * simpl. rewrite E, E'. reflexivity.
  Qed.
End Merge.

Lemma valid_in l x y : In (x, y) (valid l) <-> exists r, In r l /\ m_x r = x /\ m_y r = Some y.
Proof.
  induction l as [|r l IH]; simpl.
  - split; [tauto|intros (? & [] & _)].
  - destruct (m_y r) as [y'|] eqn:E.
    + simpl. rewrite IH. split.
      * intros [K|(r' & H & K)]; [injection K as <- <-; exists r; auto|exists r'; auto].
      * intros (r' & [<-|H] & E1 & E2); [left; congruence|right; eauto].
    + rewrite IH. split; intros (r' & H & E1 & E2).
      * exists r'. auto.
      * destruct H as [<-|H]; [congruence|eauto].
Qed.
Lemma valid_app a b : valid (a ++ b) = valid a ++ valid b.
Proof. induction a as [|r a IH]; simpl; auto. destruct (m_y r); rewrite IH; auto. Qed.
Definition lt_fst (a b : Q * Q) := fst a < fst b.
Lemma valid_sorted l : StronglySorted lt_x l -> StronglySorted lt_fst (valid l).
Proof.
  induction 1 as [|r l Hl IH Hr]; simpl; [constructor|]. destruct (m_y r) eqn:E; auto. constructor; auto.
  apply Forall_forall. intros [x y] H. apply valid_in in H as (r' & H & <- & _). rewrite Forall_forall in Hr. apply Hr; auto.
Qed.

Lemma last_le_spec x l : StronglySorted lt_fst l ->
  match last_le x l with
  | Some (x0, y0) => In (x0, y0) l /\ x0 <= x /\ forall p, In p l -> fst p <= x -> fst p <= x0
  | None => forall p, In p l -> x < fst p
  end.
Proof.
  induction 1 as [|p l Hl IH Hp]; simpl; [tauto|].
  destruct (last_le x l) as [[x0 y0]|] eqn:E.
  - destruct IH as (H1 & H2 & H3). repeat split; auto. intros q [<-|Hq] K; auto.
    rewrite Forall_forall in Hp. specialize (Hp _ H1). unfold lt_fst in Hp. simpl in Hp. apply Qlt_le_weak; auto.
  - destruct (Qle_bool (fst p) x) eqn:B.
    + apply Qle_bool_iff in B. destruct p as [x0 y0]. repeat split; auto.
      intros q [<-|Hq] K; [apply Qle_refl|]. specialize (IH _ Hq). exfalso. simpl in *. lra.
    + intros q [<-|Hq]; auto. apply Qnot_le_lt. intro K. apply Qle_bool_iff in K. congruence.
Qed.
Lemma first_gt_spec x l : StronglySorted lt_fst l ->
  match first_gt x l with
  | Some (x1, y1) => In (x1, y1) l /\ x < x1 /\ forall p, In p l -> x < fst p -> x1 <= fst p
  | None => forall p, In p l -> fst p <= x
  end.
Proof.
  induction 1 as [|p l Hl IH Hp]; simpl; [tauto|].
  destruct (Qlt_bool x (fst p)) eqn:B.
  - apply Qlt_bool_iff in B. destruct p as [x1 y1]. repeat split; auto.
    intros q [<-|Hq] K; [apply Qle_refl|]. rewrite Forall_forall in Hp. specialize (Hp _ Hq).
    unfold lt_fst in Hp. simpl in *. apply Qlt_le_weak; auto.
  - apply Qlt_bool_false in B. destruct (first_gt x l) as [[x1 y1]|].
    + destruct IH as (H1 & H2 & H3). repeat split; auto. intros q [<-|Hq] K; auto. exfalso. lra.
    + intros q [<-|Hq]; auto.
Qed.

Lemma fill_in v : forall l seen r', In r' (fill v seen l) ->
  exists pre r post, l = pre ++ r :: post /\ m_x r' = m_x r /\ m_grid r' = m_grid r /\
    match m_y r with
    | Some y => m_y r' = Some y
    | None => m_y r' = (if seen || negb (match valid pre with [] => true | _ => false end)
                        then interp_at v (m_x r) else None)
    end.
Proof.
  induction l as [|r l IH]; intros seen r' H; simpl in H; [destruct H|].
  destruct (m_y r) as [y|] eqn:E; destruct H as [<-|H].
  - exists [], r, l. rewrite E. auto.
  - apply IH in H as (pre & r0 & post & -> & H1 & H2 & H3).
    exists (r :: pre), r0, post. repeat split; auto. destruct (m_y r0); auto.
    simpl. rewrite E. rewrite H3. simpl. rewrite orb_true_r. reflexivity.
  - exists [], r, l. rewrite E. repeat split; auto. simpl. rewrite orb_false_r. reflexivity.
  - apply IH in H as (pre & r0 & post & -> & H1 & H2 & H3).
    exists (r :: pre), r0, post. repeat split; auto. destruct (m_y r0); auto.
    simpl. rewrite E. auto.
Qed.
Lemma fill_shape v : forall l seen, map (fun r => (m_x r, m_grid r)) (fill v seen l) = map (fun r => (m_x r, m_grid r)) l.
Proof.
  induction l as [|r l IH]; intro seen; simpl; auto. destruct (m_y r); simpl; rewrite IH; auto.
Qed.

Lemma SS_app {A} (R : A -> A -> Prop) a b : StronglySorted R (a ++ b) ->
  StronglySorted R a /\ StronglySorted R b /\ forall x y, In x a -> In y b -> R x y.
Proof.
  induction a as [|c a IH]; simpl; intro H.
  - repeat split; auto; [constructor|tauto].
  - inversion H; subst. apply IH in H2 as (A1 & B1 & C1). apply Forall_app in H3 as [F1 F2].
    repeat split; auto; [constructor; auto|]. intros x y [<-|Hx] Hy; auto. rewrite Forall_forall in F2; auto.
Qed.

Lemma filled_interpolant samples grid r' :
  distinct_axis samples ->
  In r' (fill (valid (merged samples grid)) false (merged samples grid)) ->
  interpolant samples (m_x r') (m_y r').
Proof.
  intros DX H. pose proof (rows_strict samples grid DX) as SS.
  pose proof (valid_sorted _ SS) as SV.
  assert (KN : forall x y, In (x, y) (valid (merged samples grid)) <-> known samples x y).
  { intros x y. rewrite valid_in. apply rows_known. }
  apply fill_in in H as (pre & r & post & E & Ex & _ & Hy). rewrite Ex. simpl in Hy.
  set (v := valid (merged samples grid)) in *.
  assert (AT : forall w, interp_at v (m_x r) = w ->
            (m_y r = None -> interpolant samples (m_x r) w)).
  { intros w <- N. unfold interp_at.
    pose proof (last_le_spec (m_x r) v SV) as LE. pose proof (first_gt_spec (m_x r) v SV) as GT.
    destruct (last_le (m_x r) v) as [[x0 y0]|].
    - destruct LE as (L1 & L2 & L3). destruct (first_gt (m_x r) v) as [[x1 y1]|].
      + destruct GT as (G1 & G2 & G3). eapply I_between with (x0 := x0) (y0 := y0) (x1 := x1) (y1 := y1).
        * repeat split; auto; [apply KN; auto|]. intros xs y K. apply (L3 (xs, y)). apply KN; auto.
        * repeat split; auto; [apply KN; auto|]. intros xs y K. apply (G3 (xs, y)). apply KN; auto.
        * field. lra.
      + apply I_after with (x0 := x0) (y0 := y0).
        * repeat split; auto; [apply KN; auto|]. intros xs y K. apply (L3 (xs, y)). apply KN; auto.
        * intros xs y K. apply (GT (xs, y)). apply KN; auto.
        * reflexivity.
    - apply I_before. intros xs y K. apply (LE (xs, y)). apply KN; auto. }
  destruct (m_y r) as [y|] eqn:N.
  - (* a sample row: it is its own left neighbour *)
    rewrite Hy.
    assert (Kr : known samples (m_x r) y).
    { apply (rows_known samples grid). exists r. split; auto. rewrite E. apply in_or_app. right; left; auto. }
    assert (LN : left_neighbour samples (m_x r) (m_x r) y).
    { repeat split; auto. apply Qle_refl. }
    pose proof (first_gt_spec (m_x r) v SV) as GT.
    destruct (first_gt (m_x r) v) as [[x1 y1]|].
    + destruct GT as (G1 & G2 & G3). eapply I_between with (x0 := m_x r) (y0 := y) (x1 := x1) (y1 := y1); auto.
      * repeat split; auto; [apply KN; auto|]. intros xs y' K. apply (G3 (xs, y')). apply KN; auto.
      * field. lra.
    + apply I_after with (x0 := m_x r) (y0 := y); auto.
      * intros xs y' K. apply (GT (xs, y')). apply KN; auto.
      * reflexivity.
  - destruct (valid pre) as [|p vp] eqn:VP; simpl in Hy.
    + rewrite Hy. apply I_before. intros xs y K. apply KN in K. unfold v in K. rewrite E, valid_app, VP in K.
      simpl in K. rewrite N in K. apply valid_in in K as (r2 & H2 & <- & _).
      rewrite E in SS. apply SS_app in SS as (_ & SS & _). inversion SS; subst.
      rewrite Forall_forall in H3. apply H3; auto.
    + rewrite Hy. apply AT; auto.
Qed.

Lemma drop_dup_id l : StronglySorted lt_x l -> forall seen,
  (forall r s, In r l -> In s seen -> s < m_x r) ->
  drop_dup seen l = map (fun r => (m_x r, m_y r)) l.
Proof.
  induction 1 as [|r l Hl IH Hr]; intros seen H; simpl; auto.
  replace (has_key (m_x r) seen) with false.
  - f_equal. apply IH. intros r' s Hr' [<-|Hs].
    + rewrite Forall_forall in Hr. apply Hr; auto.
    + apply H; auto. right; auto.
  - symmetry. apply has_key_false. intros s Hs K. specialize (H r s (or_introl eq_refl) Hs). lra.
Qed.
Lemma SS_filter {A} (R : A -> A -> Prop) f l : StronglySorted R l -> StronglySorted R (filter f l).
Proof.
  induction 1 as [|x l Hl IH Hx]; simpl; [constructor|]. destruct (f x); auto. constructor; auto.
  apply Forall_forall. intros y Hy. apply filter_In in Hy as [Hy _]. rewrite Forall_forall in Hx; auto.
Qed.
Lemma SS_map {A B} (g : A -> B) (R : B -> B -> Prop) l :
  StronglySorted (fun a b => R (g a) (g b)) l <-> StronglySorted R (map g l).
Proof.
  induction l; simpl; split; intro H; constructor; inversion H; subst.
  - apply IHl; auto.
  - rewrite Forall_map; auto.
  - apply IHl; auto.
  - rewrite Forall_map in *; auto.
Qed.
Lemma fill_strict v l seen : StronglySorted lt_x l -> StronglySorted lt_x (fill v seen l).
Proof.
  intro H. apply SS_map with (g := m_x) (R := Qlt). apply SS_map with (g := m_x) (R := Qlt) in H.
  replace (map m_x (fill v seen l)) with (map m_x l); auto.
  pose proof (f_equal (map fst) (fill_shape v l seen)) as K. rewrite !map_map in K. simpl in K. auto.
Qed.

Definition interp_rows samples a b n : list sample :=
  let rows := merged samples (linspace a b n) in
  drop_dup [] (filter m_grid (fill (valid rows) false rows)).

Lemma out_eq samples a b n : distinct_axis samples ->
  interp_rows samples a b n =
  map (fun r => (m_x r, m_y r)) (filter m_grid (fill (valid (merged samples (linspace a b n))) false (merged samples (linspace a b n)))).
Proof.
  intro DX. unfold interp_rows. apply drop_dup_id; [|intros ? ? ? []].
  apply SS_filter, fill_strict, rows_strict; auto.
Qed.

Lemma filter_map_gen {A B} (f : A -> B) (p : B -> bool) l : filter p (map f l) = map f (filter (fun x => p (f x)) l).
Proof. induction l; simpl; auto. destruct (p (f a)); simpl; congruence. Qed.

Lemma out_axis samples a b n : distinct_axis samples ->
  map fst (interp_rows samples a b n) = map m_x (filter m_grid (merged samples (linspace a b n))).
Proof.
  intro DX. rewrite out_eq, map_map by auto. cbn [fst].
  set (g := fill _ _ _).
  assert (K : map (fun r => (m_x r, m_grid r)) g = map (fun r => (m_x r, m_grid r)) (merged samples (linspace a b n)))
    by apply fill_shape.
  assert (F : forall l, map m_x (filter m_grid l) = map fst (filter snd (map (fun r => (m_x r, m_grid r)) l))).
  { intro l. rewrite filter_map_gen, map_map. reflexivity. }
  transitivity (map m_x (filter m_grid g)); [apply map_ext; auto|]. rewrite F, K, <- F. reflexivity.
Qed.

Lemma sorted_same l1 : forall l2, StronglySorted Qlt l1 -> StronglySorted Qlt l2 ->
  (forall x, has_key x l1 = true <-> has_key x l2 = true) -> Forall2 Qeq l1 l2.
Proof.
  induction l1 as [|x l1 IH]; intros [|y l2] S1 S2 H.
  - constructor.
  - exfalso. assert (K : has_key y [] = true); [|discriminate]. apply H. apply has_key_iff. exists y. split; [left; auto|reflexivity].
  - exfalso. assert (K : has_key x [] = true); [|discriminate]. apply H. apply has_key_iff. exists x. split; [left; auto|reflexivity].
  - inversion S1; subst. inversion S2; subst. rewrite Forall_forall in *.
    assert (E : x == y).
    { assert (K1 : has_key x (y :: l2) = true) by (apply H, has_key_iff; exists x; split; [left; auto|reflexivity]).
      assert (K2 : has_key y (x :: l1) = true) by (apply H, has_key_iff; exists y; split; [left; auto|reflexivity]).
      apply has_key_iff in K1 as (u & [<-|Hu] & Eu), K2 as (w & [<-|Hw] & Ew); auto; [symmetry; auto|].
      apply H5 in Hu. apply H3 in Hw. lra. }
    constructor; auto. apply IH; auto. intro z.
    split; intro K; apply has_key_iff in K as (u & Hu & Eu).
    + assert (K2 : has_key z (y :: l2) = true).
      { apply H. apply has_key_iff. exists u. split; [right|]; auto. }
      simpl in K2. apply orb_true_iff in K2 as [K2|K2]; auto. apply Qeq_bool_iff in K2.
      apply H3 in Hu. lra.
    + assert (K2 : has_key z (x :: l1) = true).
      { apply H. apply has_key_iff. exists u. split; [right|]; auto. }
      simpl in K2. apply orb_true_iff in K2 as [K2|K2]; auto. apply Qeq_bool_iff in K2.
      apply H5 in Hu. lra.
Qed.

Lemma seq_sorted (f : nat -> Q) : forall n s, (forall i j, (i < j)%nat -> f i < f j) -> StronglySorted Qlt (map f (seq s n)).
Proof.
  induction n as [|n IH]; intros s H; simpl; constructor; auto.
  rewrite Forall_map. apply Forall_forall. intros i Hi. apply in_seq in Hi. apply H. lia.
Qed.
Lemma seq_rev_sorted (f : nat -> Q) : forall n s, (forall i j, (i < j)%nat -> f j < f i) -> StronglySorted Qlt (rev (map f (seq s n))).
Proof.
  induction n as [|n IH]; intros s H.
  - constructor.
  - rewrite seq_S, map_app, rev_app_distr. simpl. constructor; auto.
    apply Forall_forall. intros x Hx. apply in_rev in Hx. apply in_map_iff in Hx as (i & <- & Hi). apply in_seq in Hi. apply H. lia.
Qed.
Lemma linspace_asc a b n : a < b -> StronglySorted Qlt (linspace a b n).
Proof.
  intro L. destruct n as [|[|m]]; simpl linspace; [constructor|repeat constructor|].
  change (StronglySorted Qlt (map (fun i => a + inject_Z (Z.of_nat i) * ((b - a) / inject_Z (Z.of_nat (S m)))) (seq 0 (S (S m))))).
  apply seq_sorted. intros i j Hij.
  assert (P : 0 < (b - a) / inject_Z (Z.of_nat (S m))).
  { apply Qlt_shift_div_l; [unfold Qlt; simpl; lia|lra]. }
  assert (inject_Z (Z.of_nat i) < inject_Z (Z.of_nat j)) by (rewrite <- Zlt_Qlt; lia). nra.
Qed.
Lemma linspace_desc a b n : b < a -> StronglySorted Qlt (rev (linspace a b n)).
Proof.
  intro L. destruct n as [|[|m]]; [constructor|repeat constructor|].
  change (StronglySorted Qlt (rev (map (fun i => a + inject_Z (Z.of_nat i) * ((b - a) / inject_Z (Z.of_nat (S m)))) (seq 0 (S (S m)))))).
  apply seq_rev_sorted. intros i j Hij.
  assert (P : (b - a) / inject_Z (Z.of_nat (S m)) < 0).
  { apply Qlt_shift_div_r; [unfold Qlt; simpl; lia|lra]. }
  assert (inject_Z (Z.of_nat i) < inject_Z (Z.of_nat j)) by (rewrite <- Zlt_Qlt; lia). nra.
Qed.

Lemma out_keys samples a b n x : distinct_axis samples ->
  has_key x (map fst (interp_rows samples a b n)) = true <-> has_key x (linspace a b n) = true.
Proof.
  intro DX. rewrite out_axis by auto. rewrite <- (rows_grid samples (linspace a b n)) .
  rewrite has_key_iff. split.
  - intros (y & H & E). apply in_map_iff in H as (r & <- & H). apply filter_In in H as [H G]. exists r. repeat split; auto. symmetry; auto.
  - intros (r & H & E & G). exists (m_x r). split; [apply in_map_iff; exists r; split; auto; apply filter_In; auto|symmetry; auto].
Qed.
Lemma out_sorted samples a b n : distinct_axis samples -> StronglySorted Qlt (map fst (interp_rows samples a b n)).
Proof.
  intro DX. rewrite out_axis by auto. apply SS_map with (g := m_x) (R := Qlt). apply SS_filter. apply rows_strict; auto.
Qed.
Lemma out_grid samples a b n : distinct_axis samples ->
  (a < b -> Forall2 Qeq (map fst (interp_rows samples a b n)) (linspace a b n)) /\
  (b < a -> Forall2 Qeq (map fst (interp_rows samples a b n)) (rev (linspace a b n))).
Proof.
  intro DX. split; intro L; apply sorted_same; auto using out_sorted, linspace_asc, linspace_desc.
  - intro x. apply out_keys; auto.
  - intro x. rewrite out_keys by auto. rewrite !has_key_iff.
    split; intros (y & H & E); exists y; split; auto; [apply in_rev; rewrite rev_involutive; auto|apply in_rev; auto].
Qed.
Lemma out_interpolant samples a b n x v : distinct_axis samples ->
  In (x, v) (interp_rows samples a b n) -> interpolant samples x v.
Proof.
  intros DX H. rewrite out_eq in H by auto. apply in_map_iff in H as (r & E & H). injection E as <- <-.
  apply filter_In in H as [H _]. eapply filled_interpolant; eauto.
Qed.

Lemma distinct_unique samples x y x' y' : distinct_axis samples ->
  known samples x y -> known samples x' y' -> x == x' -> y = y'.
Proof.
  unfold known, distinct_axis. induction 1 as [|s l Hs Hl IH]; simpl; [tauto|].
  rewrite Forall_forall in Hs. intros [->|H1] [E|H2] K; auto.
  - congruence.
  - exfalso. apply (Hs _ H2). auto.
  - subst s. exfalso. apply (Hs _ H1). simpl. symmetry. auto.
Qed.
Lemma interpolant_at_sample samples x v xs y : distinct_axis samples ->
  interpolant samples x v -> known samples xs y -> xs == x -> exists w, v = Some w /\ w == y.
Proof.
  intros DX H K E.
  assert (LNY : forall x0 y0, left_neighbour samples x x0 y0 -> x0 == x /\ y0 = y).
  { intros x0 y0 (L1 & L2 & L3). assert (x0 == x).
    { specialize (L3 _ _ K). assert (xs <= x) by lra. specialize (L3 H0). lra. }
    split; auto. eapply distinct_unique; eauto. rewrite H0. symmetry; auto. }
  destruct H as [H|x0 y0 x1 y1 v L R HV|x0 y0 v L _ HV].
  - exfalso. specialize (H _ _ K). lra.
  - destruct (LNY _ _ L) as [E0 ->]. exists v. split; auto. rewrite HV, E0. destruct R as (_ & R & _).
    field. lra.
  - destruct (LNY _ _ L) as [E0 ->]. eauto.
Qed.
Lemma interpolant_bounded samples x v : interpolant samples x (Some v) ->
  exists x0 y0, left_neighbour samples x x0 y0 /\
    ((exists x1 y1, right_neighbour samples x x1 y1 /\
        ((y0 <= v <= y1) \/ (y1 <= v <= y0))) \/ v == y0).
Proof.
  intro H. inversion H as [|x0 y0 x1 y1 v' L R HV|x0 y0 v' L _ HV]; subst; exists x0, y0; split; auto.
  left. exists x1, y1. split; auto. destruct L as (_ & L & _), R as (_ & R & _).
  assert (D : 0 < x1 - x0) by lra.
  set (t := (x - x0) / (x1 - x0)). assert (T0 : 0 <= t) by (apply Qle_shift_div_l; lra).
  assert (T1 : t <= 1) by (apply Qle_shift_div_r; lra).
  assert (EV : v == y0 + (y1 - y0) * t). { rewrite HV. unfold t. field. lra. }
  rewrite !EV. destruct (Qlt_le_dec y1 y0); [right|left]; split; nra.
Qed.

(** ** Statements about [interpolate_df] itself *)
Lemma idf_rows samples a b n out : interpolate_df samples (Some (a, b)) n = Ok out -> out = interp_rows samples a b n.
Proof. cbn. intro H. injection H as <-. reflexivity. Qed.

Lemma linspace_length a b n : length (linspace a b n) = n.
Proof. destruct n as [|[|m]]; simpl; auto. rewrite map_length, seq_length. auto. Qed.
Lemma linspace_nth a b n i : (2 <= n)%nat -> (i < n)%nat ->
  nth_error (linspace a b n) i = Some (a + inject_Z (Z.of_nat i) * ((b - a) / inject_Z (Z.of_nat (n - 1)))).
Proof.
  intros H L. destruct n as [|[|m]]; try lia.
  replace (S (S m) - 1)%nat with (S m) by lia.
  change (linspace a b (S (S m))) with (map (fun i => a + inject_Z (Z.of_nat i) * ((b - a) / inject_Z (Z.of_nat (S m)))) (seq 0 (S (S m)))).
  rewrite nth_error_map, (nth_error_nth' _ 0%nat), seq_nth by (rewrite ?seq_length; lia). reflexivity.
Qed.
Lemma F2_nth {A B} (P : A -> B -> Prop) l m : Forall2 P l m -> forall i y, nth_error m i = Some y ->
  exists x, nth_error l i = Some x /\ P x y.
Proof. induction 1; intros [|i] z; simpl; intro E; try discriminate; [injection E as <-; eauto|auto]. Qed.
Lemma F2_len {A B} (P : A -> B -> Prop) l m : Forall2 P l m -> length l = length m.
Proof. induction 1; simpl; auto. Qed.

Lemma idf_grid samples a b n out : distinct_axis samples -> a < b -> (2 <= n)%nat ->
  interpolate_df samples (Some (a, b)) n = Ok out ->
  length out = n /\
  forall i, (i < n)%nat -> exists x v, nth_error out i = Some (x, v) /\
    x == a + inject_Z (Z.of_nat i) * (b - a) / inject_Z (Z.of_nat (n - 1)).
Proof.
  intros D L N H. apply idf_rows in H. subst out.
  pose proof (proj1 (out_grid samples a b n D) L) as F. split.
  - apply F2_len in F. rewrite map_length, linspace_length in F. auto.
  - intros i Hi. destruct (F2_nth _ _ _ F i _ (linspace_nth a b n i N Hi)) as (x & E & EQ).
    rewrite nth_error_map in E. match type of E with option_map _ ?t = _ => destruct t as [[x1 v]|] eqn:EN end; [|discriminate E].
    simpl in E. injection E as ->. exists x, v. split; [exact EN|]. rewrite EQ. field.
    intro K. unfold inject_Z, Qeq in K. simpl in K. lia.
Qed.
Lemma idf_values samples a b n out x v : distinct_axis samples ->
  interpolate_df samples (Some (a, b)) n = Ok out -> In (x, v) out -> interpolant samples x v.
Proof. intros D H I. apply idf_rows in H. subst out. eapply out_interpolant; eauto. Qed.
Lemma idf_exact samples a b n out x v xs y : distinct_axis samples ->
  interpolate_df samples (Some (a, b)) n = Ok out -> In (x, v) out -> known samples xs y -> xs == x ->
  exists w, v = Some w /\ w == y.
Proof. intros. eapply interpolant_at_sample; eauto. eapply idf_values; eauto. Qed.
Lemma idf_bounded samples a b n out x v lo hi : distinct_axis samples ->
  interpolate_df samples (Some (a, b)) n = Ok out -> In (x, Some v) out ->
  (forall xs y, known samples xs y -> lo <= y <= hi) -> lo <= v <= hi.
Proof.
  intros D H I B. eapply idf_values in I; eauto. apply interpolant_bounded in I as (x0 & y0 & (K0 & _) & [(x1 & y1 & (K1 & _) & C)|E]).
  - apply B in K0, K1. destruct C; lra.
  - apply B in K0. lra.
Qed.
Lemma idf_total samples a b n : exists out, interpolate_df samples (Some (a, b)) n = Ok out.
Proof. cbn. eauto. Qed.
