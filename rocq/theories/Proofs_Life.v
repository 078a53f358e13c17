From Coq Require Import Permutation Sorted.
From Verif Require Import Py Num Model_Raw Model_Diagnostic Model_Structure Proofs_Interp Proofs_Structure
  Model_Summary Spec_Summary Proofs_Summary Spec_Life.

(** ** median *)
Lemma insert_q_perm x l : Permutation (insert_q x l) (x :: l).
Proof. induction l as [|y l IH]; simpl; auto. destruct (Qle_bool x y); auto. rewrite IH. apply perm_swap. Qed.
Lemma sort_q_perm l : Permutation (sort_q l) l.
Proof. induction l as [|x l IH]; simpl; auto. rewrite insert_q_perm. auto. Qed.
Lemma insert_q_sorted x l : StronglySorted Qle l -> StronglySorted Qle (insert_q x l).
Proof.
  induction 1 as [|y l Hl IH Hy]; simpl; [repeat constructor|].
  destruct (Qle_bool x y) eqn:E.
  - apply Qle_bool_iff in E. constructor; [constructor; auto|]. constructor; auto.
    eapply Forall_impl; [|exact Hy]. simpl; intros; lra.
  - assert (y <= x) by (destruct (Qlt_le_dec x y) as [L|L]; auto; apply Qlt_le_weak, Qle_bool_iff in L; congruence).
    constructor; auto. apply Forall_forall. intros z Hz.
    apply (Permutation_in _ (insert_q_perm x l)) in Hz as [<-|Hz]; auto. rewrite Forall_forall in Hy; auto.
Qed.
Lemma sort_q_sorted l : StronglySorted Qle (sort_q l).
Proof. induction l; simpl; [constructor|apply insert_q_sorted; auto]. Qed.
Lemma all_some_iff {A} (l : list (option A)) xs : all_some l = Some xs <-> l = map Some xs.
Proof.
  revert xs. induction l as [|[x|] l IH]; intros xs; simpl.
  - split; intro H; [injection H as <-; auto|destruct xs; [auto|discriminate]].
  - destruct (all_some l) as [ys|]; simpl.
    + split; intro H.
      * injection H as <-. simpl. f_equal. apply IH; auto.
      * destruct xs as [|y xs]; [discriminate|]. simpl in H. injection H as -> H. apply IH in H. congruence.
    + split; [discriminate|]. intro H. destruct xs as [|y xs]; [discriminate|]. simpl in H. injection H as -> H. apply IH in H. discriminate.
  - split; [discriminate|]. destruct xs; discriminate.
Qed.

Lemma max_capacity_ref summary m : max_capacity summary 40 = Some m -> reference summary m.
Proof.
  unfold max_capacity, reference. destruct (40 <? length summary)%nat eqn:L; intro H.
  - apply Nat.ltb_lt in L. right. split; auto. unfold median in H.
    destruct (all_some _) as [xs|] eqn:A; [|discriminate]. apply all_some_iff in A.
    assert (LX : length (sort_q xs) = 40%nat).
    { rewrite (Permutation_length (sort_q_perm xs)). rewrite <- (map_length Some xs), <- A, firstn_length, map_length. lia. }
    rewrite LX in H. change (40 / 2)%nat with 20%nat in H. change ((40 - 1) / 2)%nat with 19%nat in H.
    destruct (nth_error (sort_q xs) 20) as [b|] eqn:B; [|discriminate].
    destruct (nth_error (sort_q xs) 19) as [a|] eqn:C; [|discriminate]. injection H as <-.
    exists (sort_q xs), a, b. split; [rewrite A; apply Permutation_map, sort_q_perm|].
    split; [apply sort_q_sorted|]. repeat split; auto. field.
  - apply Nat.ltb_ge in L. injection H as <-. left. split; auto. reflexivity.
Qed.
Lemma ref_max_capacity summary m : reference summary m -> exists m', max_capacity summary 40 = Some m' /\ m' == m.
Proof.
  unfold max_capacity, reference. intros [[L E]|[L (xs & a & b & P & S & A & B & E)]].
  - replace (40 <? length summary)%nat with false by (symmetry; apply Nat.ltb_ge; auto). eexists; split; eauto. symmetry; auto.
  - replace (40 <? length summary)%nat with true by (symmetry; apply Nat.ltb_lt; auto).
    assert (EX : exists ys, firstn 40 (map snd summary) = map Some ys /\ Permutation xs ys).
    { apply Permutation_sym, Permutation_map_inv in P as (ys & E1 & P). exists ys. auto. }
    destruct EX as (ys & E1 & P'). unfold median. rewrite E1, (proj2 (all_some_iff _ ys) eq_refl).
    assert (LX : length (sort_q ys) = 40%nat).
    { rewrite (Permutation_length (sort_q_perm ys)). rewrite <- (map_length Some ys), <- E1, firstn_length, map_length. lia. }
    rewrite LX. change (40 / 2)%nat with 20%nat. change ((40 - 1) / 2)%nat with 19%nat.
    (* two sorted permutations agree up to Qeq *)
    assert (SAME : forall l1 l2, StronglySorted Qle l1 -> StronglySorted Qle l2 -> Permutation l1 l2 -> Forall2 Qeq l1 l2).
    { clear. induction l1 as [|x l1 IH]; intros l2 S1 S2 P; [apply Permutation_nil in P; subst; constructor|].
      destruct l2 as [|y l2]; [apply Permutation_sym, Permutation_nil in P; discriminate|].
      inversion S1 as [|? ? S1' H1]; subst. inversion S2 as [|? ? S2' H2]; subst. rewrite Forall_forall in H1, H2.
      assert (EQ : x == y).
      { assert (Hy : In y (x :: l1)) by (eapply Permutation_in; [apply Permutation_sym; eauto|left; auto]).
        assert (Hx : In x (y :: l2)) by (eapply Permutation_in; [eauto|left; auto]).
        destruct Hy as [->|Hy]; [reflexivity|]. destruct Hx as [->|Hx]; [reflexivity|].
        specialize (H1 _ Hy). specialize (H2 _ Hx). lra. }
      (* remove x from y :: l2 *)
      assert (Hx : In x (y :: l2)) by (eapply Permutation_in; [eauto|left; auto]).
      destruct Hx as [<-|Hx].
      - constructor; [reflexivity|]. apply IH; auto. eapply Permutation_cons_inv; eauto.
      - apply in_split in Hx as (u & w & ->).
        assert (P2 : Permutation l1 (y :: u ++ w)).
        { apply (Permutation_cons_inv (a := x)). rewrite P. rewrite perm_swap. constructor. symmetry. apply Permutation_middle. }
        assert (S3 : StronglySorted Qle (y :: u ++ w)).
        { clear - S2' H2. constructor.
          - induction u as [|z u IH]; simpl in *; [inversion S2'; auto|]. inversion S2'; subst. constructor; [apply IH; auto|].
            apply Forall_app in H3 as [A B]. inversion B; subst. apply Forall_app; auto.
          - apply Forall_forall. intros z Hz. apply H2. apply in_app_or in Hz as [?|?]; apply in_or_app; auto. right; right; auto. }
        pose proof (IH _ S1' S3 P2) as F. 
        constructor; auto.
        (* all elements of u and x itself equal y *)
        assert (ALL : forall z, In z u -> z == y).
        { intros z Hz. assert (y <= z) by (apply H2; apply in_or_app; auto).
          assert (z <= x).
          { clear - S2' Hz. induction u as [|a u IH]; simpl in *; [tauto|]. inversion S2'; subst. rewrite Forall_forall in H2.
            destruct Hz as [->|Hz]; auto. apply H2. apply in_or_app. right; left; auto. }
          lra. }
        assert (TR : Forall2 Qeq (y :: u ++ w) (u ++ x :: w)).
        { clear - ALL EQ. revert y EQ ALL. induction u as [|z u IH]; intros y EQ ALL; simpl.
          - constructor; [symmetry; auto|]. induction w; constructor; auto. reflexivity.
          - constructor; [symmetry; apply ALL; left; auto|]. apply IH.
            + rewrite EQ. symmetry. apply ALL. left; auto.
            + intros t Ht. rewrite (ALL t) by (right; auto). symmetry. apply ALL. left; auto. }
        clear - F TR. revert TR. generalize (u ++ x :: w). revert F. generalize (y :: u ++ w). 
        intros m F. induction F; intros k TR; inversion TR; subst; constructor; auto. rewrite H. auto. }
    pose proof (SAME (sort_q ys) xs (sort_q_sorted ys) S (Permutation_trans (sort_q_perm ys) (Permutation_sym P'))) as F.
    destruct (F2_nth _ _ _ F _ _ A) as (a' & A' & EA). destruct (F2_nth _ _ _ F _ _ B) as (b' & B' & EB).
    rewrite A', B'. eexists. split; [reflexivity|]. rewrite E, EA, EB. field.
Qed.

(** ** get_cycle_life *)
Definition belowb (level : Q) (c : num) : bool := match c with Some q => Qlt_bool q level | None => false end.
Lemma belowb_iff level c : belowb level c = true <-> below level c.
Proof. unfold belowb, below. destruct c; [apply Qlt_bool_iff|split; [discriminate|tauto]]. Qed.
Lemma find_first level (summary : list (Z * num)) label c : find (fun r => belowb level (snd r)) summary = Some (label, c) ->
  first_below summary level label.
Proof.
  unfold first_below. induction summary as [|[l d] s IH]; simpl; [discriminate|].
  destruct (belowb level d) eqn:E.
  - intro H. injection H as -> ->. apply belowb_iff in E. exists [], c, s. auto.
  - intro H. destruct (IH H) as (pre & c' & post & -> & B & F). exists ((l, d) :: pre), c', post.
    repeat split; auto. constructor; auto. simpl. intro K. apply belowb_iff in K. congruence.
Qed.
Lemma find_none' level (summary : list (Z * num)) : find (fun r => belowb level (snd r)) summary = None ->
  forall r, In r summary -> ~ below level (snd r).
Proof. intros H r Hr K. apply belowb_iff in K. eapply find_none in H; eauto. simpl in H. congruence. Qed.

Lemma below_eq l1 l2 c : l1 == l2 -> below l1 c -> below l2 c.
Proof. unfold below. destruct c; auto. intros E H. lra. Qed.
Lemma first_below_eq s l1 l2 label : l1 == l2 -> first_below s l1 label -> first_below s l2 label.
Proof.
  intros E (pre & c & post & -> & B & F). exists pre, c, post. split; auto. split; [eapply below_eq; eauto|].
  eapply Forall_impl; [|exact F]. simpl. intros r H K. apply H. eapply below_eq; [|exact K]. symmetry; auto.
Qed.
Lemma first_below_unique s level a b : first_below s level a -> first_below s level b -> a = b.
Proof.
  intros (pre & c & post & E & B & F) (pre' & c' & post' & E' & B' & F'). subst s. revert pre' E' F'.
  induction pre as [|p pre IH]; intros [|p' pre'] E F'; simpl in E.
  - injection E; auto.
  - injection E as <- _. inversion F'; subst. simpl in H1. tauto.
  - injection E as -> _. inversion F; subst. simpl in H1. tauto.
  - injection E as -> E. inversion F; subst. inversion F'; subst. apply (IH H2 pre' E H4).
Qed.

Section Life.
  Variables (summary : list (Z * num)) (threshold m : Q).
  Hypothesis Hm : 0 < m.
  Hypothesis REF : reference summary m.

  Lemma life_above lab q : last_error summary = Some (lab, Some q) -> threshold * m < q ->
    get_cycle_life summary 40 threshold = Ok (Z.of_nat (length summary) + 1)%Z.
  Proof.
    intros L H. destruct (ref_max_capacity _ _ REF) as (m' & E & EM). unfold get_cycle_life. rewrite E, L. cbn [ratio_le].
    destruct (Qeq_bool m' 0) eqn:Z; [apply Qeq_bool_iff in Z; lra|].
    destruct (Qle_bool (q / m') threshold) eqn:R; auto. apply Qle_bool_iff in R. exfalso.
    assert (q <= threshold * m'). { apply (Qmult_le_r _ _ m') in R; [|lra]. rewrite Qmult_comm, Qmult_div_r in R by lra. auto. }
    rewrite EM in H0. lra.
  Qed.
  Lemma life_not_above lab q : last_error summary = Some (lab, Some q) -> q <= threshold * m ->
    get_cycle_life summary 40 threshold =
      match find (fun r => belowb (threshold * (match max_capacity summary 40 with Some x => x | None => 0 end)) (snd r)) summary with
      | Some (label, _) => Ok label | None => Err IndexError end.
  Proof.
    intros L H. destruct (ref_max_capacity _ _ REF) as (m' & E & EM). unfold get_cycle_life. rewrite E, L. cbn [ratio_le].
    destruct (Qeq_bool m' 0) eqn:Z; [apply Qeq_bool_iff in Z; lra|].
    replace (Qle_bool (q / m') threshold) with true; auto.
    symmetry. apply Qle_bool_iff. apply Qle_shift_div_r; [lra|]. rewrite EM. auto.
  Qed.
  Lemma life_below lab q : last_error summary = Some (lab, Some q) -> q < threshold * m ->
    exists label, get_cycle_life summary 40 threshold = Ok label /\ first_below summary (threshold * m) label.
  Proof.
    intros L H. rewrite (life_not_above lab q L (Qlt_le_weak _ _ H)).
    destruct (ref_max_capacity _ _ REF) as (m' & E & EM). rewrite E.
    destruct (find _ summary) as [[label c]|] eqn:F.
    - exists label. split; auto. apply find_first in F. eapply first_below_eq; [|exact F]. rewrite EM. reflexivity.
    - exfalso. apply (find_none' _ _ F (lab, Some q)); [apply last_error_in; auto|]. simpl. rewrite EM. auto.
  Qed.
  Lemma life_equal lab q : last_error summary = Some (lab, Some q) -> q == threshold * m ->
    (forall label, first_below summary (threshold * m) label -> get_cycle_life summary 40 threshold = Ok label) /\
    ((forall r, In r summary -> ~ below (threshold * m) (snd r)) -> get_cycle_life summary 40 threshold = Err IndexError).
  Proof.
    intros L H. assert (H' : q <= threshold * m) by lra. rewrite (life_not_above lab q L H').
    destruct (ref_max_capacity _ _ REF) as (m' & E & EM). rewrite E.
    destruct (find _ summary) as [[label c]|] eqn:F.
    - split.
      + intros label' FB. f_equal. apply find_first in F. eapply first_below_unique; [exact F|].
        eapply first_below_eq; [|exact FB]. rewrite EM. reflexivity.
      + intro N. exfalso. apply find_some in F as [F1 F2]. apply belowb_iff in F2. simpl in F2.
        apply (N _ F1). simpl. eapply below_eq; [|exact F2]. rewrite EM. reflexivity.
    - split; auto. intros label (pre & c & post & -> & B & _). exfalso.
      apply (find_none' _ _ F (label, c)); [apply in_or_app; right; left; auto|]. simpl. eapply below_eq; [|exact B]. rewrite EM. reflexivity.
  Qed.
  (** every outcome *)
  Lemma life_inv label : get_cycle_life summary 40 threshold = Ok label ->
    (first_below summary (threshold * m) label /\ exists lab q, last_error summary = Some (lab, Some q) /\ q <= threshold * m) \/
    (label = (Z.of_nat (length summary) + 1)%Z /\ forall lab q, last_error summary = Some (lab, Some q) -> threshold * m < q).
  Proof.
    intro H. destruct (last_error summary) as [[lab [q|]]|] eqn:L.
    - destruct (Qlt_le_dec (threshold * m) q) as [G|G].
      + right. rewrite (life_above _ _ L G) in H. injection H as <-. split; auto. intros ? ? K. injection K as <- <-. auto.
      + left. split; [|eauto]. rewrite (life_not_above _ _ L G) in H.
        destruct (ref_max_capacity _ _ REF) as (m' & E & EM). rewrite E in H.
        destruct (find _ summary) as [[label' c]|] eqn:F; [|discriminate]. injection H as ->.
        apply find_first in F. eapply first_below_eq; [|exact F]. rewrite EM. reflexivity.
    - right. unfold get_cycle_life in H. rewrite L in H. cbn [ratio_le] in H. injection H as <-. split; auto.
      intros ? ? K. discriminate.
    - exfalso. unfold get_cycle_life in H. rewrite L in H. discriminate.
  Qed.
End Life.

Lemma life_empty cutoff threshold : get_cycle_life [] cutoff threshold = Err IndexError.
Proof. reflexivity. Qed.

(** ** two thresholds *)
Lemma first_below_mono s l1 l2 a b : l1 <= l2 -> StronglySorted Z.le (map fst s) ->
  first_below s l1 a -> first_below s l2 b -> (b <= a)%Z.
Proof.
  intros L S (pre & c & post & E & B & F) (pre' & c' & post' & E' & B' & F').
  (* the row of [a] is below l2, so the first row below l2 is not after it *)
  assert (BA : below l2 c). { unfold below in *. destruct c; [lra|auto]. }
  subst s. revert pre' E' F' S. induction pre as [|p pre IH]; intros [|p' pre'] E F' S; simpl in E.
  - injection E as <- _. lia.
  - injection E as <- _. inversion F'; subst. simpl in H1. tauto.
  - injection E as -> E. simpl in S. inversion S; subst. rewrite map_app in H2. apply Forall_app in H2 as [_ H2].
    simpl in H2. inversion H2; subst. auto.
  - injection E as -> E. inversion F; subst. inversion F'; subst. simpl in S. inversion S; subst.
    apply (IH H2 pre' E); auto.
Qed.

Lemma life_mono summary m low high a b : 0 < m -> reference summary m ->
  StronglySorted Z.le (map fst summary) -> low <= high ->
  (exists lab q, last_error summary = Some (lab, Some q) /\ q <= low * m) ->
  get_cycle_life summary 40 low = Ok a -> get_cycle_life summary 40 high = Ok b -> (b <= a)%Z.
Proof.
  intros Hm REF S L (lab & q & LE & LQ) Ha Hb.
  assert (LM : low * m <= high * m) by nra.
  destruct (life_inv _ _ _ Hm REF _ Ha) as [[FA _]|[_ G]]; [|specialize (G _ _ LE); lra].
  destruct (life_inv _ _ _ Hm REF _ Hb) as [[FB _]|[_ G]]; [|specialize (G _ _ LE); lra].
  eapply first_below_mono; [| |exact FA|exact FB]; auto.
Qed.

Lemma life_mono_all summary m low high a b : 0 < m -> reference summary m ->
  StronglySorted Z.le (map fst summary) -> (forall r, In r summary -> (fst r <= Z.of_nat (length summary) + 1)%Z) ->
  (forall lab c, last_error summary = Some (lab, c) -> c <> None) ->
  low <= high ->
  get_cycle_life summary 40 low = Ok a -> get_cycle_life summary 40 high = Ok b -> (b <= a)%Z.
Proof.
  intros Hm REF S B NN L Ha Hb. assert (LM : low * m <= high * m) by nra.
  destruct (life_inv _ _ _ Hm REF _ Ha) as [[FA (lab & q & LE & LQ)]|[-> GA]].
  - apply (life_mono summary m low high); auto; exists lab, q; auto.
  - destruct (life_inv _ _ _ Hm REF _ Hb) as [[FB _]|[-> _]]; [|lia].
    destruct FB as (pre & c & post & -> & _ & _). apply (B (b, c)). apply in_or_app. right. left. auto.
Qed.

(** ** the thresholds of capacities_to_cycles *)
Lemma floor_bounds q : inject_Z (Qfloor q) <= q /\ q < inject_Z (Qfloor q) + 1.
Proof.
  split; [apply Qfloor_le|]. pose proof (Qlt_floor q) as H. rewrite inject_Z_plus in H. auto.
Qed.
Lemma rhe_mono x y : x <= y -> (round_half_even x <= round_half_even y)%Z.
Proof.
  intro L. pose proof (Qfloor_resp_le _ _ L) as F.
  assert (UP : forall q, (Qfloor q <= round_half_even q <= Qfloor q + 1)%Z).
  { intro q. unfold round_half_even; cbv zeta. destruct (Qlt_bool _ _); [lia|]. destruct (Qlt_bool _ _); [lia|]. destruct (Z.even _); lia. }
  destruct (Z.eq_dec (Qfloor x) (Qfloor y)) as [E|E].
  - unfold round_half_even. cbv zeta. rewrite <- E.
    destruct (Qlt_bool (x - inject_Z (Qfloor x)) (1 # 2)) eqn:A.
    + clear A. destruct (Qlt_bool (y - inject_Z (Qfloor x)) (1 # 2)); [lia|]. destruct (Qlt_bool (1 # 2) (y - inject_Z (Qfloor x))); [lia|]. destruct (Z.even _); lia.
    + apply Qlt_bool_false in A.
      destruct (Qlt_bool (y - inject_Z (Qfloor x)) (1 # 2)) eqn:B; [apply Qlt_bool_iff in B; lra|].
      destruct (Qlt_bool (1 # 2) (x - inject_Z (Qfloor x))) eqn:C.
      * apply Qlt_bool_iff in C. destruct (Qlt_bool (1 # 2) (y - inject_Z (Qfloor x))) eqn:D; [lia|]. apply Qlt_bool_false in D. lra.
      * destruct (Qlt_bool (1 # 2) (y - inject_Z (Qfloor x))); destruct (Z.even (Qfloor x)); lia.
  - pose proof (UP x). pose proof (UP y). lia.
Qed.
Lemma around2_mono x y : x <= y -> around2 x <= around2 y.
Proof.
  intro L. unfold around2. assert (H : x * 100 <= y * 100) by lra. apply rhe_mono in H. rewrite Zle_Qle in H.
  apply Qle_shift_div_l; [lra|]. assert (E : inject_Z (round_half_even (x * 100)) / 100 * 100 == inject_Z (round_half_even (x * 100))) by (field).
  rewrite E. auto.
Qed.
Lemma thresholds_sorted tmax tmin interval : 0 < interval ->
  StronglySorted (fun a b => b <= a) (thresholds tmax tmin interval).
Proof.
  intro P. unfold thresholds, arange. generalize (Z.to_nat (Qceiling ((tmin - tmax) / - interval))). intro n.
  generalize 0%nat. induction n as [|n IH]; intro s; simpl; constructor; auto.
  apply Forall_forall. intros x Hx. apply in_map_iff in Hx as (y & <- & Hy). apply in_map_iff in Hy as (k & <- & Hk).
  apply in_seq in Hk. apply around2_mono.
  assert (inject_Z (Z.of_nat s) <= inject_Z (Z.of_nat k)) by (rewrite <- Zle_Qle; lia). nra.
Qed.

Lemma columns_ordered summary m tmax tmin interval cols : 0 < m -> reference summary m ->
  StronglySorted Z.le (map fst summary) -> (forall r, In r summary -> (fst r <= Z.of_nat (length summary) + 1)%Z) ->
  (forall lab c, last_error summary = Some (lab, c) -> c <> None) -> 0 < interval ->
  capacities_to_cycles summary tmax tmin interval = Ok cols -> StronglySorted Z.le cols.
Proof.
  intros Hm REF S B NN P H. unfold capacities_to_cycles in H. apply mapM_ok in H.
  pose proof (thresholds_sorted tmax tmin interval P) as T. revert T. induction H as [|t c ts cs Hc F IH]; intro T; constructor.
  - inversion T; subst; auto.
  - inversion T as [|? ? T1 T2]; subst. rewrite Forall_forall in T2. apply Forall_forall. intros d Hd.
    assert (exists t', In t' ts /\ get_cycle_life summary 40 t' = Ok d) as (t' & Ht & E).
    { clear - F Hd. induction F; simpl in *; [tauto|]. destruct Hd as [<-|Hd]; [eauto|]. destruct (IHF Hd) as (t' & ? & ?). eauto. }
    eapply (life_mono_all summary m t' t); eauto.
Qed.

(** ** cycles_to_capacities *)
Lemma c2c_values caps cmin cmax interval out : (0 < interval)%nat ->
  cycles_to_capacities caps cmin cmax interval = Ok out ->
  forall c q, In (c, q) out ->
    (cmin <= c < cmax)%nat /\ Nat.divide interval (c - cmin) /\
    (nth_error caps c = Some q \/ ((length caps <= c)%nat /\ q = Some 0)).
Proof.
  intros P H c q Hc. unfold cycles_to_capacities in H. destruct (_ =? _)%nat; [|discriminate]. injection H as <-.
  apply in_map_iff in Hc as (c' & E & Hc). injection E as -> <-. apply in_map_iff in Hc as (i & <- & Hi). apply in_seq in Hi.
  split; [|split].
  - split; [lia|]. destruct Hi as [_ Hi]. simpl in Hi.
    assert (H : (i + 1 <= (cmax - cmin + interval - 1) / interval)%nat) by lia.
    assert (HM : (interval * ((cmax - cmin + interval - 1) / interval) <= cmax - cmin + interval - 1)%nat) by (apply Nat.mul_div_le; lia).
    nia.
  - exists i. lia.
  - destruct (nth_error caps _) eqn:E; auto. right. split; auto. apply nth_error_None; auto.
Qed.

(** ** constant-voltage segment *)
Lemma not_cv_pair dt_tol dv_tol di_tol charge i p r : 0 < dt_tol -> complete_row p -> complete_row r ->
  nth_error charge i = Some p -> nth_error charge (S i) = Some r ->
  not_cv dt_tol dv_tol di_tol p r = false <-> cv_pair charge dt_tol dv_tol di_tol i.
Proof.
  intros P (t0 & v0 & c0 & T0 & V0 & C0) (t1 & v1 & c1 & T1 & V1 & C1) Hp Hr.
  unfold not_cv, cv_pair. rewrite T0, T1, V0, V1, C0, C1. cbn [nsub nlt abs_rate ngt].
  rewrite !orb_false_iff. rewrite !Qlt_bool_false.
  assert (RATE : forall x, dt_tol <= t1 - t0 -> Qabs (x / (t1 - t0)) == Qabs x / (t1 - t0)).
  { intros x H. unfold Qdiv. rewrite Qabs_Qmult. f_equiv. apply Qabs_pos. apply Qinv_le_0_compat. lra. }
  split.
  - intros [[A B] C]. exists p, r, t0, t1, v0, v1, c0, c1. repeat split; auto.
    + rewrite RATE in B by auto. apply (Qmult_le_r _ _ (t1 - t0)) in B; [|lra]. rewrite (Qmult_comm (_ / _)), Qmult_div_r in B by lra. auto.
    + rewrite RATE in C by auto. apply (Qmult_le_r _ _ (t1 - t0)) in C; [|lra]. rewrite (Qmult_comm (_ / _)), Qmult_div_r in C by lra. auto.
  - intros (p' & r' & t0' & t1' & v0' & v1' & c0' & c1' & Hp' & Hr' & T0' & T1' & V0' & V1' & C0' & C1' & A & B & C).
    rewrite Hp in Hp'. injection Hp' as <-. rewrite Hr in Hr'. injection Hr' as <-.
    rewrite T0 in T0'; injection T0' as <-. rewrite T1 in T1'; injection T1' as <-.
    rewrite V0 in V0'; injection V0' as <-. rewrite V1 in V1'; injection V1' as <-.
    rewrite C0 in C0'; injection C0' as <-. rewrite C1 in C1'; injection C1' as <-.
    split; [split|]; auto; rewrite RATE by auto.
    + apply Qle_shift_div_r; lra.
    + apply Qle_shift_div_l; lra.
Qed.

Lemma cv_pair_tl charge x dt dv di i : cv_pair (x :: charge) dt dv di (S i) <-> cv_pair charge dt dv di i.
Proof. unfold cv_pair. simpl. tauto. Qed.

(** [cv_index] is the first pair satisfying the criteria, or the last row. *)
Lemma cv_index_spec dt dv di charge : 0 < dt -> Forall complete_row charge -> charge <> [] ->
  let i := cv_index dt dv di charge in
  (i < length charge)%nat /\ (forall j, (j < i)%nat -> ~ cv_pair charge dt dv di j) /\
  (cv_pair charge dt dv di i \/ S i = length charge).
Proof.
  intro P. induction charge as [|p l IH]; intros F NE; [congruence|]. inversion F; subst.
  destruct l as [|r l].
  - simpl. repeat split; auto. intros; lia.
  - inversion H2; subst. change (cv_index dt dv di (p :: r :: l)) with (if not_cv dt dv di p r then S (cv_index dt dv di (r :: l)) else O).
    pose proof (not_cv_pair dt dv di (p :: r :: l) 0 p r P H1 H3 eq_refl eq_refl) as E.
    destruct (not_cv dt dv di p r) eqn:N.
    + destruct (IH H2) as (A & B & C); [discriminate|]. cbv zeta in *. split; [apply (proj1 (Nat.succ_lt_mono _ _)); exact A|]. split.
      * intros [|j] Hj K.
        -- apply E in K. discriminate.
        -- exact (B j (proj2 (Nat.succ_lt_mono _ _) Hj) (proj1 (cv_pair_tl _ _ _ _ _ _) K)).
      * destruct C as [C|C]; [left; apply (proj2 (cv_pair_tl _ _ _ _ _ _)); exact C|right; exact (f_equal S C)].
    + split; [simpl; lia|]. split; [intros; lia|]. left. apply E; auto.
Qed.

Lemma filter_ge_skipn charge k r0 : Forall complete_row charge -> in_time_order charge ->
  nth_error charge k = Some r0 ->
  filter (fun r => nge (test_time r) (test_time r0)) charge = skipn k charge.
Proof.
  revert k. induction charge as [|p l IH]; intros [|k] F S N; simpl in N; try discriminate.
  - injection N as ->. simpl. inversion F; subst. destruct H1 as (t & v & c & T & _). inversion S; subst.
    rewrite T. simpl. rewrite (proj2 (Qle_bool_iff t t) (Qle_refl t)). f_equal.
    rewrite Forall_forall in H3, H2. rewrite <- T. clear IH S H1 F. induction l as [|q l IH]; simpl; auto.
    destruct (H2 q (or_introl eq_refl)) as (u & ? & ? & U & _).
    assert (LT : t < u) by (apply (H3 q (or_introl eq_refl)); auto). rewrite T, U. simpl.
    rewrite (proj2 (Qle_bool_iff t u)) by lra. f_equal. rewrite <- T. apply IH.
    + intros y9 Hy9. apply H2. right; auto.
    + intros y9 Hy9. apply H3. right; auto.
  - inversion F; subst. inversion S; subst. cbn [filter skipn]. rewrite Forall_forall in H4.
    assert (In r0 l) by (eapply nth_error_In; eauto).
    rewrite Forall_forall in H2. destruct (H2 _ H) as (u & ? & ? & U & _). destruct H1 as (t & ? & ? & T & _).
    assert (LT : t < u) by (apply (H4 _ H); auto). rewrite T, U. simpl.
    replace (Qle_bool u t) with false.
    + rewrite <- U. apply IH; auto. apply Forall_forall; auto.
    + symmetry. apply not_true_is_false. intro K. apply Qle_bool_iff in K. lra.
Qed.

Lemma cv_segment_spec dt dv di charge : 0 < dt -> Forall complete_row charge -> in_time_order charge -> charge <> [] ->
  exists k, cv_segment dt dv di charge = Ok (skipn k charge) /\ (k < length charge)%nat /\
    (forall i, cv_pair charge dt dv di i -> (forall j, (j < i)%nat -> ~ cv_pair charge dt dv di j) ->
       k = match i with O => (length charge - 1)%nat | S i' => i' end) /\
    ((forall i, ~ cv_pair charge dt dv di i) -> k = (length charge - 2)%nat).
Proof.
  intros P F T NE. destruct (cv_index_spec dt dv di charge P F NE) as (A & B & C). cbv zeta in *.
  set (i := cv_index dt dv di charge) in *.
  set (k := match i with O => (length charge - 1)%nat | S i' => i' end).
  assert (LK : (k < length charge)%nat) by (unfold k; destruct i; lia).
  assert (N : exists r0, py_nth charge (Z.of_nat i - 1) = Some r0 /\ nth_error charge k = Some r0).
  { destruct (nth_error charge k) as [r0|] eqn:E; [|apply nth_error_None in E; lia]. exists r0. split; auto.
    unfold py_nth. unfold k in E. destruct i as [|i'].
    - simpl. replace (0 <=? Z.of_nat (length charge) + -1)%Z with true by (symmetry; apply Z.leb_le; lia).
      replace (Z.to_nat (Z.of_nat (length charge) + -1)) with (length charge - 1)%nat by lia. auto.
    - replace (0 <=? Z.of_nat (S i') - 1)%Z with true by (symmetry; apply Z.leb_le; lia).
      replace (Z.to_nat (Z.of_nat (S i') - 1)) with i' by lia. auto. }
  destruct N as (r0 & N1 & N2). exists k. split.
  - unfold cv_segment. fold i. rewrite N1. rewrite (filter_ge_skipn _ k) by auto. destruct charge; [congruence|auto].
  - split; auto. split.
    + intros j CJ MJ. assert (j = i); [|subst; reflexivity].
      destruct (lt_eq_lt_dec i j) as [[L|L]|L]; auto.
      * exfalso. destruct C as [C|C]; [apply (MJ i L C)|].
        destruct CJ as (? & r & ? & ? & ? & ? & ? & ? & _ & K & _). assert (S j < length charge)%nat by (apply nth_error_Some; congruence). lia.
      * exfalso. apply (B j L CJ).
    + intro ALL. destruct C as [C|C]; [destruct (ALL _ C)|]. unfold k. destruct i; lia.
Qed.
