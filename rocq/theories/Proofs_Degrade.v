From Coq Require Import Sorting.Sorted Psatz Lqa.
From Verif Require Import Py Num Model_Raw Model_Structure Model_Summary Model_Features Model_Degrade Spec_Degrade.
From Verif Require Proofs_Frames Proofs_Cmd.

(** ** Throughput *)
Definition known_in {A} (q : A -> num) (l : list A) : bool := existsb (fun r => match q r with Some _ => true | None => false end) l.
Lemma col_max_cumsum {A} (q : A -> num) l : forall t, Forall (fun r => not_negative (q r)) l ->
  match col_max (cumsum_from t (map q l)) with
  | Some v => v == t + passed q l /\ known_in q l = true
  | None => passed q l == 0 /\ known_in q l = false
  end.
Proof.
  unfold passed, known_in. induction l as [|r l IH]; intros t H; cbn; [split; reflexivity|].
  inversion H as [|? ? H1 H2]; subst. destruct (q r) as [x|] eqn:E; cbn.
  - specialize (IH (t + x) H2). cbn in H1. destruct (col_max _) as [m|] eqn:M.
    + destruct IH as [IH _]. split; [|reflexivity].
      assert (P : 0 <= qsum (dropna (map q l))).
      { clear - H2. induction l as [|r l IH]; cbn; [apply Qle_refl|]. inversion H2; subst. destruct (q r); cbn in *; [|auto].
        specialize (IH H3). lra. }
      destruct (Qle_bool (t + x) m) eqn:B; [lra|]. exfalso.
      assert (N : ~ t + x <= m) by (intro K; apply Qle_bool_iff in K; congruence). apply N. lra.
    + destruct IH as [IH _]. split; [lra|reflexivity].
  - apply IH, H2.
Qed.

Lemma filter_cumsum {A} (k : A -> Z) (q : A -> num) c l : forall t, StronglySorted Z.lt (map k l) ->
  map snd (filter (fun p => Z.ltb (fst p) c) (combine (map k l) (cumsum_from t (map q l)))) =
  cumsum_from t (map q (filter (fun r => Z.ltb (k r) c) l)).
Proof.
  induction l as [|r l IH]; intros t S; [reflexivity|]. cbn [map] in S. inversion S as [|? ? S1 S2]; subst.
  cbn [map filter]. destruct (Z.ltb (k r) c) eqn:B.
  - cbn [map]. destruct (q r) as [x|] eqn:E; cbn [cumsum_from combine filter fst]; rewrite B; cbn [map snd]; f_equal; apply IH, S1.
  - assert (NONE : filter (fun r => Z.ltb (k r) c) l = []).
    { apply Z.ltb_ge in B. clear - S2 B. induction l as [|a l IH]; [reflexivity|]. cbn [map] in S2. inversion S2; subst.
      cbn [filter]. destruct (Z.ltb_spec (k a) c); [lia|]. apply IH, H2. }
    assert (REST : forall t, map snd (filter (fun p => Z.ltb (fst p) c) (combine (map k l) (cumsum_from t (map q l)))) = []).
    { intro t'. rewrite IH by exact S1. rewrite NONE. reflexivity. }
    destruct (q r) as [x|] eqn:E; cbn [cumsum_from combine filter fst]; rewrite B, REST, NONE; reflexivity.
Qed.

Lemma total_before_spec {A} (k : A -> Z) (q : A -> num) c l :
  ascending (map k l) -> Forall (fun r => not_negative (q r)) l ->
  match total_before c (map k l) (cumsum (map q l)) with
  | Some v => v == passed q (filter (fun r => Z.ltb (k r) c) l)
  | None => passed q (filter (fun r => Z.ltb (k r) c) l) == 0
  end.
Proof.
  intros S H. unfold total_before, cumsum. rewrite (filter_cumsum k q c l 0 S).
  pose proof (col_max_cumsum q (filter (fun r => Z.ltb (k r) c) l) 0) as M.
  assert (F : Forall (fun r => not_negative (q r)) (filter (fun r => Z.ltb (k r) c) l)).
  { apply Forall_forall. intros r I. apply filter_In in I as [I _]. rewrite Forall_forall in H. apply H, I. }
  specialize (M F). destruct col_max; destruct M as [M _]; [|exact M]. rewrite M. ring.
Qed.

Lemma first_gap_spec l b : first_gap l = Some b ->
  exists pre a post, l = pre ++ a :: b :: post /\ (b > a + 1)%Z /\ no_gap (pre ++ [a]).
Proof.
  induction l as [|a l IH]; [discriminate|]. destruct l as [|a' l]; [discriminate|].
  cbn [first_gap]. destruct (a' - a >? 1)%Z eqn:G.
  - intro E. injection E as ->. exists [], a, l. split; [reflexivity|]. split; [apply Z.gtb_lt in G; lia|exact Logic.I].
  - intro E. destruct (IH E) as (pre & x & post & L & X & N). exists (a :: pre), x, post. rewrite L. split; [reflexivity|]. split; [exact X|].
    rewrite Z.gtb_ltb in G. apply Z.ltb_ge in G.
    destruct pre as [|y pre]; cbn in L |- *; injection L as -> _; (split; [lia|]); [exact Logic.I|exact N].
Qed.
Lemma no_gap_first_gap l : no_gap l -> first_gap l = None.
Proof.
  induction l as [|a l IH]; [reflexivity|]. destruct l as [|b l]; [reflexivity|]. intros [G N]. cbn [first_gap].
  destruct (b - a >? 1)%Z eqn:E; [apply Z.gtb_lt in E; lia|]. apply IH, N.
Qed.

Lemma ascending_app l1 l2 : ascending (l1 ++ l2) -> ascending l1 /\ ascending l2 /\ (forall x y, In x l1 -> In y l2 -> (x < y)%Z).
Proof.
  induction l1 as [|a l1 IH]; cbn; intro S; [split; [constructor|split; [exact S|intros ? ? []]]|].
  inversion S as [|? ? S1 S2]; subst. destruct (IH S1) as (A & B & C). rewrite Forall_forall in S2. split; [|split; [exact B|]].
  - constructor; [exact A|]. apply Forall_forall. intros x X. apply S2, in_or_app. left. exact X.
  - intros x y [<-|X] Y; [apply S2, in_or_app; right; exact Y|apply C; assumption].
Qed.
Lemma last_error_snoc {A} (l : list A) x : last_error (l ++ [x]) = Some x.
Proof. induction l as [|a l IH]; [reflexivity|]. cbn [app last_error]. destruct (l ++ [x]) eqn:E; [destruct l; discriminate|]. exact IH. Qed.
Lemma filter_before_gap pre a b post : ascending (pre ++ a :: b :: post) ->
  filter (fun c => Z.ltb c b) (pre ++ a :: b :: post) = pre ++ [a].
Proof.
  intro S. replace (pre ++ a :: b :: post) with ((pre ++ [a]) ++ (b :: post)) in * by (rewrite <- app_assoc; reflexivity).
  destruct (ascending_app _ _ S) as (_ & B & C). rewrite filter_app.
  assert (K1 : filter (fun c => Z.ltb c b) (pre ++ [a]) = pre ++ [a]).
  { apply Proofs_Frames.filter_all. intros x X. apply Z.ltb_lt. apply C; [exact X|left; reflexivity]. }
  assert (K2 : filter (fun c => Z.ltb c b) (b :: post) = []).
  { cbn. rewrite Z.ltb_irrefl. inversion B as [|? ? _ F]; subst. clear - F. induction post as [|x l IH]; [reflexivity|].
    inversion F; subst. cbn. destruct (Z.ltb_spec x b); [lia|]. apply IH, H2. }
  rewrite K1, K2, app_nil_r. reflexivity.
Qed.
(** the running total at one row *)
Lemma d_get_cumsum {A} (k : A -> Z) (q : A -> num) l1 r l2 : forall t, ~ In (k r) (map k l1) ->
  exists v, d_get Z.eqb (combine (map k (l1 ++ r :: l2)) (cumsum_from t (map q (l1 ++ r :: l2)))) (k r) = Some v /\
  match v with Some x => x == t + passed q (l1 ++ [r]) | None => q r = None end.
Proof.
  induction l1 as [|x l1 IH]; intros t N; cbn [app map].
  - destruct (q r) as [y|] eqn:E; cbn [cumsum_from combine d_get]; rewrite Z.eqb_refl; eexists; (split; [reflexivity|]); cbn; [|reflexivity].
    unfold passed. cbn. rewrite E. cbn. ring.
  - assert (X : Z.eqb (k x) (k r) = false) by (apply Z.eqb_neq; intro; apply N; left; assumption).
    assert (X' : Z.eqb (k r) (k x) = false) by (apply Z.eqb_neq; intro; apply N; left; symmetry; assumption).
    assert (N' : ~ In (k r) (map k l1)) by (intro; apply N; right; assumption).
    destruct (q x) as [y|] eqn:E; cbn [cumsum_from combine d_get]; rewrite ?X, ?X'.
    + destruct (IH (t + y) N') as (v & V & W). exists v. split; [exact V|]. destruct v; [|exact W]. rewrite W. unfold passed. cbn. rewrite E. cbn. ring.
    + destruct (IH t N') as (v & V & W). exists v. split; [exact V|]. destruct v; [|exact W]. rewrite W. unfold passed. cbn. rewrite E. cbn. ring.
Qed.

(** ** The curve *)
Definition known (l : list (Q * Q)) : list (Q * num) := map (fun p => (fst p, Some (snd p))) l.
Lemma curve_head L p l x y : no_steeper L (p :: l) -> on_curve (p :: l) x y -> fst p <= x /\ Qabs (y - snd p) <= L * (x - fst p).
Proof.
  revert p. induction l as [|q l IH]; intros p S C.
  - inversion C as [? ? ? ? X Y| |? ? ? ? C']; subst; [|inversion C']. split; [lra|].
    setoid_replace (y - snd p) with 0 by lra. setoid_replace (L * (x - fst p)) with 0 by (rewrite X; ring). cbn. apply Qle_refl.
  - destruct S as (S1 & S2 & S3). inversion C as [? ? ? ? X Y|? ? ? ? ? X1 X2 E|? ? ? ? C']; subst.
    + split; [lra|]. setoid_replace (y - snd p) with 0 by lra. setoid_replace (L * (x - fst p)) with 0 by (rewrite X; ring). cbn. apply Qle_refl.
    + split; [exact X1|]. apply Qabs_Qle_condition in S2. apply Qabs_Qle_condition.
      set (w := fst q - fst p) in *. set (d := x - fst p) in *. set (u := snd q - snd p) in *. set (v := y - snd p) in *.
      assert (W : 0 < w) by (subst w; lra). assert (D : 0 <= d) by (subst d; lra).
      split.
      * apply (Qmult_le_r _ _ w W). rewrite E. assert (- (L * w) * d <= u * d) by (apply Qmult_le_compat_r; [lra|exact D]). lra.
      * apply (Qmult_le_r _ _ w W). rewrite E. assert (u * d <= L * w * d) by (apply Qmult_le_compat_r; [lra|exact D]). lra.
    + destruct (IH q S3 C') as [A B]. split; [lra|]. apply Qabs_Qle_condition in S2, B. apply Qabs_Qle_condition. lra.
Qed.
Lemma curve_lipschitz L l x1 y1 x2 y2 : no_steeper L l -> on_curve l x1 y1 -> on_curve l x2 y2 -> x1 <= x2 -> Qabs (y2 - y1) <= L * (x2 - x1).
Proof.
  induction l as [|p l IH]; intros S C1 C2 X; [inversion C1|].
  assert (HD : forall x y, x == fst p -> y == snd p -> x1 == x -> y1 == y -> Qabs (y2 - y1) <= L * (x2 - x1)).
  { intros x y A B A1 B1. destruct (curve_head _ _ _ _ _ S C2) as [_ K]. apply Qabs_Qle_condition in K. apply Qabs_Qle_condition.
    setoid_replace (L * (x2 - x1)) with (L * (x2 - fst p)) by (rewrite A1, A; reflexivity). rewrite B1, B. exact K. }
  inversion C1 as [? ? ? ? A B|? q r ? ? A1 A2 E|? ? ? ? C1']; subst.
  - exact (HD _ _ (Qeq_refl _) (Qeq_refl _) A B).
  - destruct S as (S1 & S2 & S3). inversion C2 as [? ? ? ? A' B'|? ? ? ? ? A1' A2' E'|? ? ? ? C2']; subst.
    + assert (X1 : x1 == fst p) by lra. apply (HD (fst p) (snd p)); try reflexivity; [exact X1|].
      assert (Z : (y1 - snd p) * (fst q - fst p) == 0) by (rewrite E, X1; ring).
      apply Qmult_integral in Z as [Z|Z]; lra.
    + apply Qabs_Qle_condition in S2. apply Qabs_Qle_condition.
      assert (ED : (y2 - y1) * (fst q - fst p) == (snd q - snd p) * (x2 - x1)) by lra.
      assert (W : 0 < fst q - fst p) by lra. assert (D : 0 <= x2 - x1) by lra.
      split; apply (Qmult_le_r _ _ _ W); rewrite ED.
      * assert (- (L * (fst q - fst p)) * (x2 - x1) <= (snd q - snd p) * (x2 - x1)) by (apply Qmult_le_compat_r; [lra|exact D]). lra.
      * assert ((snd q - snd p) * (x2 - x1) <= L * (fst q - fst p) * (x2 - x1)) by (apply Qmult_le_compat_r; [lra|exact D]). lra.
    + destruct (curve_head _ _ _ _ _ S3 C2') as [K1 K2].
      (* from (x1, y1) to q on the segment, then along the rest *)
      assert (SEG : Qabs (snd q - y1) <= L * (fst q - x1)).
      { apply Qabs_Qle_condition in S2. apply Qabs_Qle_condition.
        assert (ED : (snd q - y1) * (fst q - fst p) == (snd q - snd p) * (fst q - x1)) by lra.
        assert (W : 0 < fst q - fst p) by lra. assert (D : 0 <= fst q - x1) by lra.
        split; apply (Qmult_le_r _ _ _ W); rewrite ED.
        - assert (- (L * (fst q - fst p)) * (fst q - x1) <= (snd q - snd p) * (fst q - x1)) by (apply Qmult_le_compat_r; [lra|exact D]). lra.
        - assert ((snd q - snd p) * (fst q - x1) <= L * (fst q - fst p) * (fst q - x1)) by (apply Qmult_le_compat_r; [lra|exact D]). lra. }
      apply Qabs_Qle_condition in K2, SEG. apply Qabs_Qle_condition. lra.
  - destruct l as [|q l]; [inversion C1'|]. destruct S as (S1 & S2 & S3). destruct (curve_head _ _ _ _ _ S3 C1') as [K1 K2].
    inversion C2 as [? ? ? ? A' B'|? ? ? ? ? A1' A2' E'|? ? ? ? C2']; subst.
    + exfalso. lra.
    + (* x2 is on the first segment and x1 beyond: both are q *)
      assert (X1 : x1 == fst q) by lra. assert (X2 : x2 == fst q) by lra.
      assert (Y1 : y1 == snd q).
      { apply Qabs_Qle_condition in K2. assert (M : L * (x1 - fst q) == 0) by (rewrite X1; ring). lra. }
      assert (Y2 : y2 == snd q).
      { assert (Z : (y2 - snd q) * (fst q - fst p) == 0) by (rewrite X2 in E'; lra). apply Qmult_integral in Z as [Z|Z]; lra. }
      setoid_replace (y2 - y1) with 0 by lra. setoid_replace (L * (x2 - x1)) with 0 by (rewrite X1, X2; ring). cbn. apply Qle_refl.
    + apply IH; assumption.
Qed.

Lemma curve_crossing t l : forall p, t <= snd p -> (exists q, In q (p :: l) /\ snd q <= t) -> no_steeper 0 (map (fun p => (fst p, 0)) (p :: l)) ->
  exists x, on_curve (p :: l) x t.
Proof.
  induction l as [|q l IH]; intros p P (z & [<-|Z] & T) S.
  - exists (fst p). apply at_point; [reflexivity|lra].
  - destruct Z.
  - exists (fst p). apply at_point; [reflexivity|lra].
  - cbn [map no_steeper fst snd] in S. destruct S as (S1 & _ & S3).
    destruct (Qlt_le_dec (snd q) t) as [B|B].
    + assert (N : ~ snd q - snd p == 0) by lra.
      set (f := (t - snd p) / (snd q - snd p)).
      assert (F : f * (snd q - snd p) == t - snd p) by (subst f; field; exact N).
      exists (fst p + f * (fst q - fst p)).
      assert (F0 : 0 <= f).
      { destruct (Qlt_le_dec f 0) as [K|K]; [|exact K]. exfalso.
        assert (0 < f * (snd q - snd p)) by (setoid_replace (f * (snd q - snd p)) with ((-f) * (snd p - snd q)) by ring; apply Qmult_lt_0_compat; lra). lra. }
      assert (F1 : f <= 1).
      { destruct (Qlt_le_dec 1 f) as [K|K]; [|exact K]. exfalso.
        assert (0 < (f - 1) * (snd p - snd q)) by (apply Qmult_lt_0_compat; lra). lra. }
      assert (W : 0 < fst q - fst p) by lra.
      assert (G0 : 0 <= f * (fst q - fst p)) by (apply Qmult_le_0_compat; lra).
      assert (G1 : f * (fst q - fst p) <= 1 * (fst q - fst p)) by (apply Qmult_le_compat_r; lra).
      apply on_segment; [lra|lra|]. rewrite <- F. ring.
    + destruct (IH q B (ex_intro _ z (conj Z T)) S3) as [x C]. exists x. apply later, C.
Qed.
Lemma strictly_zero L l : no_steeper L l -> no_steeper 0 (map (fun p => (fst p, 0)) l).
Proof.
  induction l as [|p l IH]; [auto|]. destruct l as [|q l]; [auto|]. intros (A & B & C). cbn [map no_steeper fst snd]. split; [exact A|]. split; [|apply IH, C].
  setoid_replace (0 - 0) with 0 by ring. setoid_replace (0 * (fst q - fst p)) with 0 by ring. cbn. apply Qle_refl.
Qed.

Lemma curve_range L l x y : no_steeper L l -> on_curve l x y ->
  exists p q, hd_error l = Some p /\ last_error l = Some q /\ fst p <= x <= fst q.
Proof.
  induction l as [|p l IH]; intros S C; [inversion C|]. exists p. destruct l as [|q l].
  - exists p. split; [reflexivity|]. split; [reflexivity|]. inversion C as [? ? ? ? A B| |? ? ? ? C']; subst; [lra|inversion C'].
  - destruct S as (S1 & S2 & S3).
    assert (HI : exists z, last_error (q :: l) = Some z /\ fst q <= fst z).
    { clear - S3. revert q S3. induction l as [|r l IH]; intros q S3; [exists q; split; [reflexivity|apply Qle_refl]|].
      destruct S3 as (A & _ & B). destruct (IH r B) as (z & Z1 & Z2). exists z. split; [exact Z1|lra]. }
    destruct HI as (z & Z1 & Z2). exists z. split; [reflexivity|]. split; [exact Z1|].
    inversion C as [? ? ? ? A B|? ? ? ? ? A1 A2 E|? ? ? ? C']; subst; [lra|lra|].
    destruct (IH S3 C') as (p' & q' & P & Q' & R). cbn in P. injection P as <-. rewrite Z1 in Q'. injection Q' as <-. lra.
Qed.

Lemma np_interp_curve l x : forall L p q, no_steeper L l -> hd_error l = Some p -> last_error l = Some q -> fst p <= x -> x <= fst q ->
  exists y, np_interp (known l) x = Some y /\ on_curve l x y.
Proof.
  induction l as [|a l IH]; intros L p q S P LQ X1 X2; [discriminate|]. injection P as <-.
  destruct l as [|b l].
  - injection LQ as <-. exists (snd a). split; [reflexivity|]. apply at_point; [lra|reflexivity].
  - destruct S as (S1 & S2 & S3). cbn [known map np_interp fst snd]. fold (known l). change ((fst b, Some (snd b)) :: known l) with (known (b :: l)).
    destruct (Qle_bool (fst b) x) eqn:B.
    + apply Qle_bool_iff in B. destruct (IH L b q S3 eq_refl LQ B X2) as (y & Y & C). exists y. split; [exact Y|apply later, C].
    + assert (B' : x <= fst b) by (apply Qnot_lt_le; intro K; apply Qlt_le_weak, Qle_bool_iff in K; congruence).
      destruct (Qeq_bool (fst a) x) eqn:E.
      * apply Qeq_bool_iff in E. exists (snd a). split; [reflexivity|]. apply at_point; [symmetry; exact E|reflexivity].
      * unfold line. cbn [fst snd]. destruct (Qeq_bool (fst a) (fst b)) eqn:E2; [apply Qeq_bool_iff in E2; lra|].
        eexists. split; [reflexivity|]. apply on_segment; [exact X1|exact B'|]. field. lra.
Qed.

Lemma sort_x_sorted l : no_steeper 0 (map (fun p => (fst p, 0)) l) -> sort_x (known l) = known l.
Proof.
  induction l as [|p l IH]; [reflexivity|]. intro S. cbn [known map sort_x fold_right]. fold (known l). fold (sort_x (known l)).
  destruct l as [|q l]; [reflexivity|]. cbn [map no_steeper fst] in S. destruct S as (S1 & _ & S3). rewrite (IH S3). cbn [known map insert_x fst snd].
  destruct (Qle_bool (fst p) (fst q)) eqn:B; [reflexivity|]. exfalso. assert (K : ~ fst p <= fst q) by (intro K; apply Qle_bool_iff in K; congruence). apply K. lra.
Qed.

(** ** The closest point *)
Lemma argmin_from_spec l : forall best, (forall x v, In (x, v) l -> exists w, v = Some w) ->
  exists v, (In (argmin_from best l, Some v) l \/ (argmin_from best l, v) = best) /\ v <= snd best /\ (forall x w, In (x, Some w) l -> v <= w).
Proof.
  induction l as [|[x v] l IH]; intros best H.
  - exists (snd best). split; [right; destruct best; reflexivity|]. split; [apply Qle_refl|intros ? ? []].
  - destruct (H x v (or_introl eq_refl)) as [w ->]. cbn [argmin_from].
    assert (H' : forall x v, In (x, v) l -> exists w, v = Some w) by (intros; eapply H; right; eassumption).
    destruct (IH (if Qlt_bool w (snd best) then (x, w) else best) H') as (m & M1 & M2 & M3).
    destruct (Qlt_bool w (snd best)) eqn:B.
    + apply Qlt_bool_iff in B. exists m. cbn [snd] in M2. split; [|split; [lra|]].
      * destruct M1 as [M1|M1]; [left; right; exact M1|]. left. left. injection M1 as -> ->. reflexivity.
      * intros x' w' [E|I]; [injection E as <- <-; exact M2|eauto].
    + apply Qlt_bool_false in B. exists m. split; [|split; [exact M2|]].
      * destruct M1 as [M1|M1]; [left; right; exact M1|right; exact M1].
      * intros x' w' [E|I]; [injection E as <- <-; lra|eauto].
Qed.
Lemma closest_spec f t xs : xs <> [] -> (forall x, In x xs -> exists y, f x = Some y) ->
  exists x y, closest f t xs = Some x /\ In x xs /\ f x = Some y /\ (forall x' y', In x' xs -> f x' = Some y' -> Qabs (y - t) <= Qabs (y' - t)).
Proof.
  intros N H. destruct xs as [|x0 xs]; [congruence|]. destruct (H x0 (or_introl eq_refl)) as [y0 Y0].
  unfold closest. cbn [map argmin]. rewrite Y0. set (l := map _ xs). set (best := (x0, Qabs (y0 - t))).
  assert (K : forall x v, In (x, v) l -> exists w, v = Some w).
  { subst l. intros x v I. apply in_map_iff in I as (z & E & I). injection E as <- <-. destruct (H z (or_intror I)) as [y ->]. eauto. }
  destruct (argmin_from_spec l best K) as (m & M1 & M2 & M3). exists (argmin_from best l).
  assert (ALL : forall x' y', In x' (x0 :: xs) -> f x' = Some y' -> m <= Qabs (y' - t)).
  { intros x' y' [<-|I] E; [rewrite Y0 in E; injection E as <-; exact M2|].
    apply (M3 x'). subst l. apply in_map_iff. exists x'. rewrite E. auto. }
  destruct M1 as [M1|M1].
  - subst l. apply in_map_iff in M1 as (z & E & I). destruct (H z (or_intror I)) as [y Y]. rewrite Y in E.
    pose proof (f_equal fst E) as E1. cbn [fst] in E1. assert (E2 : Qabs (y - t) = m) by congruence. clear E. exists y.
    rewrite <- E1. split; [reflexivity|]. split; [right; exact I|]. split; [exact Y|]. intros. rewrite E2. eauto.
  - pose proof (f_equal fst M1) as M1a. pose proof (f_equal snd M1) as M1'. subst best. cbn [fst snd] in M1a, M1'. exists y0. rewrite M1a. split; [reflexivity|]. split; [left; reflexivity|]. split; [exact Y0|].
    intros. rewrite <- M1'. eauto.
Qed.

(** ** The grid *)
Lemma grid_range a b g : a <= b -> In g (grid a b) -> a <= g <= b.
Proof.
  intros AB I. apply in_map_iff in I as (i & <- & I). apply in_seq in I.
  set (f := inject_Z (Z.of_nat i) / 999). 
  assert (F : 0 <= f /\ f <= 1).
  { subst f. unfold Qdiv. change (/ 999) with (1 # 999). unfold Qle, Qmult, inject_Z. cbn. lia. }
  destruct F as [F0 F1]. assert (0 <= (b - a) * f) by (apply Qmult_le_0_compat; lra).
  assert ((b - a) * f <= (b - a) * 1) by (rewrite (Qmult_comm _ f), (Qmult_comm _ 1); apply Qmult_le_compat_r; lra). lra.
Qed.
Lemma grid_near a b x : a <= x -> x <= b -> exists g, In g (grid a b) /\ Qabs (x - g) <= (b - a) / 1998.
Proof.
  intros A B. destruct (Qlt_le_dec a b) as [AB|AB].
  - set (s := (x - a) / (b - a) * 999 + (1 # 2)).
    assert (W : 0 < b - a) by lra.
    assert (R : 0 <= (x - a) / (b - a) <= 1).
    { split; [apply Qle_shift_div_l; lra|apply Qle_shift_div_r; lra]. }
    set (r := (x - a) / (b - a)) in *.
    assert (XR : x - a == r * (b - a)) by (subst r; field; lra).
    pose proof (Qfloor_le s) as F1. pose proof (Qlt_floor s) as F2. rewrite inject_Z_plus in F2. change (inject_Z 1) with 1 in F2.
    assert (N0 : (0 <= Qfloor s)%Z).
    { change 0%Z with (Qfloor 0). apply Qfloor_resp_le. subst s. lra. }
    assert (N1 : (Qfloor s < 1000)%Z).
    { apply Z.lt_nge. intro K. assert (inject_Z 1000 <= inject_Z (Qfloor s)) by (rewrite <- Zle_Qle; exact K). change (inject_Z 1000) with 1000 in H. subst s. lra. }
    exists (a + (b - a) * (inject_Z (Z.of_nat (Z.to_nat (Qfloor s))) / 999)). split.
    + apply in_map_iff. eexists. split; [reflexivity|]. apply in_seq. lia.
    + rewrite Z2Nat.id by exact N0. set (n := inject_Z (Qfloor s)) in *.
      setoid_replace (x - (a + (b - a) * (n / 999))) with ((r * 999 - n) * ((b - a) / 999)) by (setoid_replace (x - (a + (b - a) * (n / 999))) with ((x - a) - (b - a) * (n / 999)) by ring; rewrite XR; field).
      setoid_replace ((b - a) / 1998) with ((1 # 2) * ((b - a) / 999)) by field.
      assert (P : 0 <= (b - a) / 999) by (apply Qle_shift_div_l; lra).
      apply Qabs_Qle_condition. split.
      * setoid_replace (- ((1 # 2) * ((b - a) / 999))) with ((- (1 # 2)) * ((b - a) / 999)) by ring. apply Qmult_le_compat_r; [subst s; lra|exact P].
      * apply Qmult_le_compat_r; [subst s; lra|exact P].
  - exists (a + (b - a) * (inject_Z (Z.of_nat 0) / 999)). split; [apply in_map_iff; exists 0%nat; split; [reflexivity|apply in_seq; lia]|].
    assert (E : b == a) by lra.
    setoid_replace (x - (a + (b - a) * (inject_Z (Z.of_nat 0) / 999))) with 0 by (rewrite E; setoid_replace (a - a) with 0 by ring; lra).
    setoid_replace ((b - a) / 1998) with 0 by (rewrite E; field). cbn. apply Qle_refl.
Qed.

Lemma in_curve l p : In p l -> on_curve l (fst p) (snd p).
Proof. induction l as [|q l IH]; intros []; [subst; apply at_point; reflexivity|apply later, IH, H]. Qed.

Lemma hd_cons {A} (l : list A) p : hd_error l = Some p -> exists l', l = p :: l'.
Proof. destruct l; [discriminate|]. intro E. injection E as <-. eauto. Qed.
Lemma last_in {A} (l : list A) q : last_error l = Some q -> In q l.
Proof. induction l as [|z l IH]; [discriminate|]. destruct l as [|z' l']; intro E; [injection E as <-; left; reflexivity|right; apply IH, E]. Qed.
Lemma points_known (a : nxrow -> Q) rows ys : map x_frac rows = map Some ys -> map (fun r => (a r, x_frac r)) rows = known (combine (map a rows) ys).
Proof.
  unfold known. revert ys. induction rows as [|r l IH]; intros [|y zs] Y'; try discriminate; [reflexivity|].
  cbn [map] in Y'. injection Y' as Y1 Y2. cbn [map combine fst snd]. rewrite Y1. f_equal. apply IH, Y2.
Qed.
Lemma combine_fst {A B} (l : list A) (l' : list B) : length l' = length l -> map fst (combine l l') = l.
Proof. revert l'. induction l as [|x l IH]; intros [|y l'] E; try discriminate; [reflexivity|]. cbn. f_equal. apply IH. cbn in E. lia. Qed.
Lemma in_points {A} (f : A -> Q) l (ys : list Q) y : length ys = length l -> In y ys -> exists z, In z (combine (map f l) ys) /\ snd z = y.
Proof.
  revert ys. induction l as [|x l IH]; intros [|y' ys] E I; try discriminate; [destruct I|]. destruct I as [->|I].
  - exists (f x, y). split; [left; reflexivity|reflexivity].
  - destruct (IH ys) as (z & Z & W); [cbn in E; lia|exact I|]. exists z. split; [right; exact Z|exact W].
Qed.
Lemma single_point L l p q : no_steeper L l -> L < 0 -> hd_error l = Some p -> last_error l = Some q -> p = q.
Proof.
  destruct l as [|z l]; [discriminate|]. destruct l as [|z' l']; intros S LP HP LQ.
  - cbn in HP, LQ. congruence.
  - destruct S as (A & B & _). exfalso. pose proof (Qabs_nonneg (snd z' - snd z)).
    assert (0 < (- L) * (fst z' - fst z)) by (apply Qmult_lt_0_compat; lra). lra.
Qed.

Section Axis.
  Variables (h : target_hyper) (rows : list nxrow) (a : nxrow -> Q) (ys : list Q) (L : Q).
  Hypothesis Y : map x_frac rows = map Some ys.
  Let pts := combine (map a rows) ys.
  Hypothesis S : no_steeper L pts.
  Hypothesis NE : rows <> [].

  Lemma axis_points : map (fun r => (a r, x_frac r)) rows = known pts.
  Proof. apply points_known, Y. Qed.
  Lemma axis_length : length ys = length rows.
  Proof. rewrite <- (map_length x_frac rows), Y, map_length. reflexivity. Qed.
  Lemma axis_fst : map fst pts = map a rows.
  Proof. apply combine_fst. rewrite map_length. apply axis_length. Qed.
  Lemma axis_bounds : exists lo hi p q, col_min (map Some (map a rows)) = Some lo /\ col_max (map Some (map a rows)) = Some hi /\
    hd_error pts = Some p /\ last_error pts = Some q /\ fst p == lo /\ fst q == hi /\ lo <= hi.
  Proof.
    pose proof (col_min_spec (map Some (map a rows))) as MI. pose proof (col_max_spec (map Some (map a rows))) as MA.
    assert (X : exists x0, In x0 (map a rows)) by (destruct rows; [congruence|cbn; eauto]). destruct X as [x0 X0].
    destruct (col_min _) as [lo|]; [|exfalso; apply (MI x0), in_map, X0]. destruct (col_max _) as [hi|]; [|exfalso; apply (MA x0), in_map, X0].
    destruct MI as [I1 I2]. destruct MA as [A1 A2]. apply in_map_iff in I1 as (z1 & E1 & I1). injection E1 as ->. apply in_map_iff in A1 as (z2 & E2 & A1). injection E2 as ->.
    rewrite <- axis_fst in I1, A1. apply in_map_iff in I1 as (p1 & P1 & I1). apply in_map_iff in A1 as (p2 & P2 & A1).
    destruct (curve_range L pts _ _ S (in_curve _ _ I1)) as (p & q & HP & LQ & R1).
    destruct (curve_range L pts _ _ S (in_curve _ _ A1)) as (p' & q' & HP' & LQ' & R2). rewrite HP in HP'. injection HP' as <-. rewrite LQ in LQ'. injection LQ' as <-.
    exists lo, hi, p, q. split; [reflexivity|]. split; [reflexivity|]. split; [exact HP|]. split; [exact LQ|].
    assert (PI : In p pts) by (destruct (hd_cons _ _ HP) as [l' ->]; left; reflexivity).
    assert (QI : In q pts) by (apply last_in, LQ).
    assert (LP : lo <= fst p) by (apply I2, in_map; rewrite <- axis_fst; apply in_map, PI).
    assert (HQ : fst q <= hi) by (apply A2, in_map; rewrite <- axis_fst; apply in_map, QI).
    rewrite P1 in R1. rewrite P2 in R2. repeat split; lra.
  Qed.

  Lemma on_axis_reached :
    h_threshold h <= hd 0 ys -> (exists y, In y ys /\ y <= h_threshold h) ->
    exists lo hi x y, col_min (map Some (map a rows)) = Some lo /\ col_max (map Some (map a rows)) = Some hi /\
      on_axis h false rows a = Ok (Some x) /\ on_curve pts x y /\ Qabs (y - h_threshold h) <= L * ((hi - lo) / 1998).
  Proof.
    intros T1 (y1 & Y1 & T2). destruct axis_bounds as (lo & hi & p & q & LO & HI & HP & LQ & EP & EQ & LE).
    unfold on_axis. rewrite LO, HI, axis_points, sort_x_sorted by (apply (strictly_zero L), S). cbn [negb].
    assert (CR : exists x, on_curve pts x (h_threshold h)).
    { destruct (hd_cons _ _ HP) as [l HD].
      assert (IN : exists z, In z pts /\ snd z <= h_threshold h).
      { destruct (in_points a rows ys y1 axis_length Y1) as (z & Z & W). exists z. rewrite W. auto. }
      rewrite HD in IN |- *. apply curve_crossing; [|exact IN|rewrite <- HD; apply (strictly_zero L), S].
      assert (SP : snd p = hd 0 ys).
      { clear - HD. revert HD. unfold pts. destruct rows as [|r rs]; [discriminate|]. destruct ys as [|y zs]; [discriminate|]. cbn. intro HD. injection HD as <- _. reflexivity. }
      rewrite SP. exact T1. }
    destruct CR as [xs CR]. destruct (curve_range L pts _ _ S CR) as (p' & q' & HP' & LQ' & R). rewrite HP in HP'. injection HP' as <-. rewrite LQ in LQ'. injection LQ' as <-.
    assert (DEF : forall x, In x (grid lo hi) -> exists y, np_interp (known pts) x = Some y).
    { intros x X. apply (grid_range lo hi x LE) in X. destruct (np_interp_curve pts x L p q S HP LQ) as (y & E & _); [lra|lra|eauto]. }
    destruct (closest_spec (np_interp (known pts)) (h_threshold h) (grid lo hi)) as (x & y & E & I & F & MIN); [unfold grid; discriminate|exact DEF|].
    exists lo, hi, x, y. split; [reflexivity|]. split; [reflexivity|]. split; [rewrite E; reflexivity|].
    pose proof (grid_range lo hi x LE I) as RX. destruct (np_interp_curve pts x L p q S HP LQ) as (y' & F' & C); [lra|lra|]. rewrite F in F'. injection F' as <-.
    split; [exact C|].
    destruct (grid_near lo hi xs) as (g & G & NEAR); [lra|lra|]. pose proof (grid_range lo hi g LE G) as RG.
    destruct (np_interp_curve pts g L p q S HP LQ) as (yg & FG & CG); [lra|lra|].
    eapply Qle_trans; [apply (MIN g yg G FG)|].
    assert (LP : 0 <= L \/ L < 0) by (destruct (Qlt_le_dec L 0); [right|left]; assumption).
    assert (LIP : Qabs (yg - h_threshold h) <= L * Qabs (xs - g)).
    { destruct (Qlt_le_dec g xs) as [K|K].
      - pose proof (curve_lipschitz L pts _ _ _ _ S CG CR (Qlt_le_weak _ _ K)) as M. rewrite (Qabs_pos (xs - g)) by lra. rewrite (Qabs_Qminus yg). exact M.
      - pose proof (curve_lipschitz L pts _ _ _ _ S CR CG K) as M. rewrite (Qabs_Qminus xs g), (Qabs_pos (g - xs)) by lra. exact M. }
    destruct LP as [LP|LP].
    - eapply Qle_trans; [exact LIP|]. rewrite !(Qmult_comm L). apply Qmult_le_compat_r; assumption.
    - (* a negative bound allows a single point only *)
      assert (ONE : lo == hi) by (rewrite <- EP, <- EQ, (single_point L pts p q S LP HP LQ); reflexivity).
      assert (Z1 : (hi - lo) / 1998 == 0) by (rewrite ONE; field).
      assert (Z2 : Qabs (xs - g) == 0) by (pose proof (Qabs_nonneg (xs - g)); lra).
      rewrite Z1. rewrite Z2 in LIP. lra.
  Qed.
End Axis.

Lemma append_cancel s a b : (s ++ a)%string = (s ++ b)%string -> a = b.
Proof. induction s as [|c s IH]; cbn; intro E; [exact E|injection E as E; exact (IH E)]. Qed.
Lemma fold_sset {A} (name : string -> string) (INJ : forall a b, name a = name b -> a = b) named : forall (d : list (string * A)) a x,
  NoDup (map fst named) -> In (a, x) named -> sget (fold_left (fun d p => sset d (name (fst p)) (snd p)) named d) (name a) = Some x.
Proof.
  assert (KEEP : forall named (d : list (string * A)) a, ~ In a (map fst named) -> sget (fold_left (fun d p => sset d (name (fst p)) (snd p)) named d) (name a) = sget d (name a)).
  { induction named0 as [|[b y] l IH]; intros d a N; [reflexivity|]. cbn [fold_left fst snd]. rewrite IH by (intro K; apply N; right; exact K).
    apply Proofs_Cmd.sget_other. intro E. apply INJ in E. apply N. left. auto. }
  induction named as [|[b y] l IH]; intros d a x ND I; [destruct I|]. cbn [map fst] in ND. inversion ND as [|? ? N1 N2]; subst.
  cbn [fold_left fst snd]. destruct I as [E|I].
  - injection E as -> ->. rewrite KEEP by exact N1. apply Proofs_Cmd.sget_this.
  - apply IH; assumption.
Qed.

(** ** Extrapolation *)
Lemma closest_curve L pts f t lo hi xs : no_steeper L pts -> 0 <= L -> lo <= hi -> (forall x, lo <= x <= hi -> exists y, f x = Some y /\ on_curve pts x y) ->
  on_curve pts xs t -> lo <= xs <= hi ->
  exists x y, closest f t (grid lo hi) = Some x /\ f x = Some y /\ on_curve pts x y /\ Qabs (y - t) <= L * ((hi - lo) / 1998).
Proof.
  intros S LP LE F CR RX.
  destruct (closest_spec f t (grid lo hi)) as (x & y & E & I & FX & MIN).
  - unfold grid. discriminate.
  - intros x X. destruct (F x (grid_range _ _ _ LE X)) as (y & A & _). eauto.
  - exists x, y. split; [exact E|]. split; [exact FX|]. destruct (F x (grid_range _ _ _ LE I)) as (y' & F' & C). rewrite FX in F'. injection F' as <-. split; [exact C|].
    destruct (grid_near lo hi xs) as (g & G & NEAR); [lra|lra|]. destruct (F g (grid_range _ _ _ LE G)) as (yg & FG & CG).
    eapply Qle_trans; [apply (MIN g yg G FG)|].
    assert (LIP : Qabs (yg - t) <= L * Qabs (xs - g)).
    { destruct (Qlt_le_dec g xs) as [K|K].
      - pose proof (curve_lipschitz L pts _ _ _ _ S CG CR (Qlt_le_weak _ _ K)) as M. rewrite (Qabs_pos (xs - g)) by lra. rewrite (Qabs_Qminus yg). exact M.
      - pose proof (curve_lipschitz L pts _ _ _ _ S CR CG K) as M. rewrite (Qabs_Qminus xs g), (Qabs_pos (g - xs)) by lra. exact M. }
    eapply Qle_trans; [exact LIP|]. rewrite !(Qmult_comm L). apply Qmult_le_compat_r; assumption.
Qed.

(** [z] prolongs the line through the last two points. *)
Definition prolongs (l : list (Q * Q)) (z : Q * Q) : Prop :=
  exists l' p q, l = l' ++ [p; q] /\ fst q < fst z /\ (snd z - snd q) * (fst q - fst p) == (snd q - snd p) * (fst z - fst q).
Lemma extrapolate_curve L l z x p0 : no_steeper L l -> prolongs l z -> hd_error l = Some p0 -> fst p0 <= x <= fst z ->
  exists y, extrapolate (known l) x = Some y /\ on_curve (l ++ [z]) x y.
Proof.
  intros S (l' & p & q & -> & QZ & E) HP R. revert p0 HP R S. induction l' as [|a l' IH]; intros p0 HP R S.
  - cbn [app] in *. injection HP as <-. destruct S as (S1 & _). cbn [known map extrapolate fst snd]. unfold line. cbn [fst snd].
    destruct (Qeq_bool (fst p) (fst q)) eqn:B; [apply Qeq_bool_iff in B; lra|]. eexists. split; [reflexivity|].
    assert (N : ~ fst q - fst p == 0) by lra.
    destruct (Qlt_le_dec (fst q) x) as [K|K].
    + apply later. apply on_segment; [lra|lra|].
      assert (Z1 : (snd q - snd p) / (fst q - fst p) * (fst z - fst q) == snd z - snd q).
      { transitivity ((snd q - snd p) * (fst z - fst q) / (fst q - fst p)); [field; exact N|]. rewrite <- E. field. exact N. }
      rewrite <- Z1. field. exact N.
    + apply on_segment; [lra|lra|]. field. exact N.
  - cbn [app] in *. injection HP as <-.
    destruct (l' ++ [p; q]) as [|b l2] eqn:D; [destruct l'; discriminate|]. destruct l2 as [|c l3]; [destruct l' as [|? [|? ?]]; discriminate|].
    destruct S as (S1 & S2 & S3). cbn [known map]. change (map (fun p1 : Q * Q => (fst p1, Some (snd p1))) l3) with (known l3).
    cbn [extrapolate fst snd]. destruct (Qle_bool x (fst b)) eqn:B.
    + apply Qle_bool_iff in B. unfold line. cbn [fst snd]. destruct (Qeq_bool (fst a) (fst b)) eqn:B2; [apply Qeq_bool_iff in B2; lra|].
      eexists. split; [reflexivity|]. apply on_segment; [lra|lra|]. field. lra.
    + assert (B' : fst b <= x) by (apply Qnot_lt_le; intro K; apply Qlt_le_weak, Qle_bool_iff in K; congruence).
      destruct (IH b eq_refl) as (y & Y & C); [lra|exact S3|]. exists y. split; [exact Y|]. apply later. exact C.
Qed.
Lemma prolong_steep L l z : no_steeper L l -> prolongs l z -> no_steeper L (l ++ [z]).
Proof.
  intros S (l' & p & q & -> & QZ & E). rewrite <- app_assoc. cbn [app]. induction l' as [|a l' IH].
  - cbn [app no_steeper] in *. destruct S as (S1 & S2 & _). split; [exact S1|]. split; [exact S2|]. split; [exact QZ|]. split; [|exact Logic.I].
    apply Qabs_Qle_condition in S2. apply Qabs_Qle_condition. assert (W : 0 < fst q - fst p) by lra. assert (D : 0 <= fst z - fst q) by lra.
    split; apply (Qmult_le_r _ _ _ W); rewrite E.
    + assert (- (L * (fst q - fst p)) * (fst z - fst q) <= (snd q - snd p) * (fst z - fst q)) by (apply Qmult_le_compat_r; [lra|exact D]). lra.
    + assert ((snd q - snd p) * (fst z - fst q) <= L * (fst q - fst p) * (fst z - fst q)) by (apply Qmult_le_compat_r; [lra|exact D]). lra.
  - cbn [app] in *. destruct l' as [|b l']; cbn [app] in *; destruct S as (S1 & S2 & S3); (split; [exact S1|]; split; [exact S2|]); apply IH, S3.
Qed.
Lemma last_two_snoc {A} (l : list A) a b : last_two (l ++ [a; b]) = Some (a, b).
Proof. unfold last_two. rewrite rev_app_distr. reflexivity. Qed.

Lemma on_axis_beyond h rows (a : nxrow -> Q) ys L r1 r2 rows' y1 y2 :
  rows = rows' ++ [r1; r2] -> map x_frac rows = map Some ys -> x_frac r1 = Some y1 -> x_frac r2 = Some y2 ->
  no_steeper L (combine (map a rows) ys) -> h_threshold h < y2 -> y2 < y1 -> h_threshold h <= hd 0 ys ->
  exists z lo x y, prolongs (combine (map a rows) ys) z /\ snd z == h_threshold h - (1 # 10) /\ col_min (map Some (map a rows)) = Some lo /\
    on_axis h true rows a = Ok (Some x) /\ on_curve (combine (map a rows) ys ++ [z]) x y /\ Qabs (y - h_threshold h) <= L * ((fst z - lo) / 1998).
Proof.
  intros ER Y Y1 Y2 S T1 T2 T3. set (pts := combine (map a rows) ys) in *. set (t := h_threshold h) in *.
  assert (NE : rows <> []) by (rewrite ER; destruct rows'; discriminate).
  destruct (axis_bounds rows a ys L Y S NE) as (lo & hi & p & q & LO & HI & HP & LQ & EP & EQ & LE). fold pts in HP, LQ.
  (* the last two points *)
  assert (LAST : exists l', pts = l' ++ [(a r1, y1); (a r2, y2)]).
  { assert (K : exists zs, ys = zs ++ [y1; y2] /\ length zs = length rows').
    { rewrite ER, map_app in Y. cbn [map] in Y. rewrite Y1, Y2 in Y. clear - Y. revert ys Y. induction rows' as [|r l IH]; intros ys Y.
      - destruct ys as [|u [|v [|w ys]]]; try discriminate. cbn in Y. injection Y as <- <-. exists []. split; reflexivity.
      - destruct ys as [|u ys]; [destruct l; discriminate|]. cbn in Y. injection Y as Y0 Y. destruct (IH ys Y) as (zs & -> & E). exists (u :: zs). split; [reflexivity|cbn; lia]. }
    destruct K as (zs & -> & E). subst pts. rewrite ER, map_app. clear - E. revert zs E. induction rows' as [|r l IH]; intros [|u zs] E; try discriminate.
    - exists []. reflexivity.
    - destruct (IH zs) as [l' K]; [cbn in E; lia|]. cbn [map app combine] in K |- *. rewrite K. exists ((a r, u) :: l'). reflexivity. }
  destruct LAST as [l' PTS].
  assert (W : 0 < a r2 - a r1).
  { assert (K : forall l, no_steeper L (l ++ [(a r1, y1); (a r2, y2)]) -> a r1 < a r2).
    { induction l as [|u l IH]; cbn [app]; intro S'; [destruct S' as [K _]; exact K|]. apply IH. destruct l; cbn [app] in *; apply S'. }
    rewrite PTS in S. specialize (K _ S). lra. }
  assert (LP : 0 <= L).
  { assert (K : forall l, no_steeper L (l ++ [(a r1, y1); (a r2, y2)]) -> Qabs (y2 - y1) <= L * (a r2 - a r1)).
    { induction l as [|u l IH]; cbn [app]; intro S'; [destruct S' as [_ [K _]]; exact K|]. apply IH. destruct l; cbn [app] in *; apply S'. }
    rewrite PTS in S. specialize (K _ S). destruct (Qlt_le_dec L 0) as [N|N]; [|exact N]. exfalso. pose proof (Qabs_nonneg (y2 - y1)).
    assert (0 < (- L) * (a r2 - a r1)) by (apply Qmult_lt_0_compat; lra). lra. }
  set (hx := (t - (1 # 10) - y1) * (a r2 - a r1) / (y2 - y1) + a r1).
  set (z := (hx, t - (1 # 10))).
  assert (N : ~ y2 - y1 == 0) by lra.
  assert (EZ : (snd z - y2) * (a r2 - a r1) == (y2 - y1) * (hx - a r2)).
  { subst z hx. cbn [snd]. field. exact N. }
  assert (ZX : a r2 < hx).
  { destruct (Qlt_le_dec (a r2) hx) as [K|K]; [exact K|]. exfalso. subst z. cbn [snd] in EZ.
    assert (0 <= (y1 - y2) * (a r2 - hx)) by (apply Qmult_le_0_compat; lra).
    assert (0 < (y2 - (t - (1 # 10))) * (a r2 - a r1)) by (apply Qmult_lt_0_compat; lra). lra. }
  assert (PR : prolongs pts z) by (exists l', (a r1, y1), (a r2, y2); split; [exact PTS|]; split; [exact ZX|exact EZ]).
  assert (LASTQ : fst q = a r2).
  { rewrite PTS in LQ. replace (l' ++ [(a r1, y1); (a r2, y2)]) with ((l' ++ [(a r1, y1)]) ++ [(a r2, y2)]) in LQ by (rewrite <- app_assoc; reflexivity).
    rewrite last_error_snoc in LQ. injection LQ as <-. reflexivity. }
  pose proof (prolong_steep L pts z S PR) as S'.
  assert (CR : exists xs, on_curve (pts ++ [z]) xs t).
  { destruct (hd_cons _ _ HP) as [l HD]. rewrite HD in *. cbn [app]. apply curve_crossing.
    - assert (SP : snd p = hd 0 ys).
      { subst pts. clear - HD. revert HD. destruct rows as [|r rs]; [discriminate|]. destruct ys as [|y zs]; [discriminate|]. cbn. intro HD. injection HD as <- _. reflexivity. }
      rewrite SP. exact T3.
    - exists z. split; [right; apply in_or_app; right; left; reflexivity|]. subst z. cbn [snd]. lra.
    - apply (strictly_zero L). exact S'. }
  destruct CR as [xs CR].
  destruct (curve_range L (pts ++ [z]) xs t S' CR) as (p' & q' & HP' & LQ' & R).
  rewrite last_error_snoc in LQ'. injection LQ' as <-.
  assert (p' = p) by (destruct (hd_cons _ _ HP) as [l HD]; rewrite HD in HP'; injection HP' as <-; reflexivity). subst p'.
  destruct (closest_curve L (pts ++ [z]) (extrapolate (known pts)) t lo hx xs S' LP) as (x & y & E & F & C & B).
  - rewrite LASTQ in EQ. lra.
  - intros x X. apply (extrapolate_curve L pts z x p S PR HP). subst z. cbn [fst]. lra.
  - exact CR.
  - subst z. cbn [fst] in R. lra.
  - exists z, lo, x, y. split; [exact PR|]. split; [reflexivity|]. split; [exact LO|]. split.
    + unfold on_axis. rewrite LO, HI, (points_known a rows ys Y). fold pts. rewrite sort_x_sorted by (apply (strictly_zero L), S).
      rewrite ER at 1. rewrite last_two_snoc, Y1, Y2. destruct (Qeq_bool y1 y2) eqn:K; [apply Qeq_bool_iff in K; lra|]. fold t. fold hx. rewrite E. reflexivity.
    + split; [exact C|]. exact B.
Qed.
