(** Proofs about the half-cell fit. *)
From Coq Require Import Sorting.Sorted Sorting.Permutation Psatz Lqa.
From Verif Require Import Py Num Model_Text Model_Diagnostic Model_Interp Model_Degrade Model_Lookup Model_Hppc Model_Intracell Spec_Intracell
  Proofs_Interp.
From Verif Require Proofs_Hppc.

(** ** Sorting *)
Definition below_x (a b : Q * num) : Prop := fst a <= fst b.
Lemma insert_perm p l : Permutation (insert_x p l) (p :: l).
Proof.
  induction l as [|q l IH]; cbn [insert_x]; [reflexivity|]. destruct (Qle_bool (fst p) (fst q)); [reflexivity|].
  rewrite IH. apply perm_swap.
Qed.
Lemma sort_perm l : Permutation (sort_x l) l.
Proof. induction l as [|p l IH]; [reflexivity|]. cbn [sort_x fold_right]. fold (sort_x l). rewrite insert_perm, IH. reflexivity. Qed.
Lemma sort_in l p : In p (sort_x l) <-> In p l.
Proof. split; apply Permutation_in; [|symmetry]; apply sort_perm. Qed.
Lemma insert_sorted p l : StronglySorted below_x l -> StronglySorted below_x (insert_x p l).
Proof.
  induction l as [|q l IH]; intro S; cbn [insert_x]; [repeat constructor|]. destruct (Qle_bool (fst p) (fst q)) eqn:E.
  - constructor; [exact S|]. apply Qle_bool_iff in E. apply StronglySorted_inv in S as [S F]. constructor; [exact E|].
    eapply Forall_impl; [|exact F]. unfold below_x. intros; lra.
  - apply StronglySorted_inv in S as [S F]. constructor; [apply IH, S|].
    assert (fst q <= fst p). { destruct (Qlt_le_dec (fst p) (fst q)) as [L|L]; [|exact L]. rewrite (proj2 (Qle_bool_iff _ _)) in E by lra. discriminate. }
    apply Forall_forall. intros r R. apply (Permutation_in _ (insert_perm p l)) in R. destruct R as [<-|R]; [exact H|].
    rewrite Forall_forall in F. apply F, R.
Qed.
Lemma sort_sorted l : StronglySorted below_x (sort_x l).
Proof. induction l as [|p l IH]; [constructor|]. cbn [sort_x fold_right]. apply insert_sorted, IH. Qed.

(** ** Interpolation reads the curve *)
Lemma line_straight p q x : fst p < x -> x < fst q -> straight p q x (line p q x).
Proof.
  intros A B. unfold straight, line. destruct (snd p) as [a|]; [|reflexivity]. destruct (snd q) as [b|]; [|reflexivity].
  destruct (Qeq_bool (fst p) (fst q)) eqn:E; [apply Qeq_bool_iff in E; lra|]. eexists. split; [reflexivity|]. field. lra.
Qed.
Lemma last_default {A} (l : list A) d d' : l <> [] -> last l d = last l d'.
Proof. induction l as [|a l IH]; [congruence|]. intros _. cbn [last]. destruct l; [reflexivity|]. apply IH. discriminate. Qed.
Lemma np_reads s : forall x p, StronglySorted below_x s -> hd_error s = Some p -> fst p <= x -> x <= fst (last s p) ->
  inside (fun r => In r s) x (np_interp s x).
Proof.
  induction s as [|p0 s IH]; intros x p S H A B; [discriminate|]. injection H as ->.
  destruct s as [|q t].
  - cbn in *. left. exists p. split; [left; reflexivity|]. split; [lra|reflexivity].
  - cbn [np_interp]. apply StronglySorted_inv in S as [S F].
    destruct (Qle_bool (fst q) x) eqn:E.
    + apply Qle_bool_iff in E.
      assert (HB : x <= fst (last (q :: t) q)).
      { rewrite (last_default (q :: t) q p) by discriminate. exact B. }
      destruct (IH x q S eq_refl E HB) as [(r & R & R1 & R2)|(r & r' & R & R' & L1 & L2 & G & ST)].
      * left. exists r. split; [right; exact R|]. tauto.
      * right. exists r, r'. split; [right; exact R|]. split; [right; exact R'|]. split; [exact L1|]. split; [exact L2|]. split; [|exact ST].
        intros w [<-|W]; [|apply G, W]. left. rewrite Forall_forall in F. apply (F r R).
    + assert (X : x < fst q). { destruct (Qlt_le_dec x (fst q)) as [L|L]; [exact L|]. rewrite (proj2 (Qle_bool_iff _ _)) in E by lra. discriminate. }
      destruct (Qeq_bool (fst p) x) eqn:EQ.
      * apply Qeq_bool_iff in EQ. left. exists p. split; [left; reflexivity|]. split; [exact EQ|reflexivity].
      * assert (NE : ~ fst p == x) by (intro K; apply Qeq_bool_iff in K; congruence).
        right. exists p, q. split; [left; reflexivity|]. split; [right; left; reflexivity|]. split; [lra|]. split; [exact X|]. split.
        -- intros w [<-|[<-|W]]; [left; lra|right; lra|]. right. apply StronglySorted_inv in S as [_ F2]. rewrite Forall_forall in F2. apply (F2 w W).
        -- apply line_straight; lra.
Qed.
Lemma last_in {A} (l : list A) d : l <> [] -> In (last l d) l.
Proof. induction l as [|a l IH]; [congruence|]. intros _. cbn [last]. destruct l; [left; reflexivity|]. right. apply IH. discriminate. Qed.
Lemma sorted_last s p r : StronglySorted below_x s -> In r s -> fst r <= fst (last s p).
Proof.
  induction s as [|q s IH]; intros S; [intros []|]. apply StronglySorted_inv in S as [S F]. cbn [last]. intros [<-|R].
  - destruct s as [|q' s]; [lra|]. rewrite Forall_forall in F. apply F. apply (last_in (q' :: s) p). discriminate.
  - destruct s as [|q' s]; [destruct R|]. apply IH; assumption.
Qed.
Lemma inside_iff S T x v : (forall p, S p <-> T p) -> inside S x v -> inside T x v.
Proof.
  intros E [(p & A & B)|(p & q & A & B & C & D & G & H)].
  - left. exists p. rewrite <- E. tauto.
  - right. exists p, q. rewrite <- !E. repeat split; auto. intros r R. apply G, E, R.
Qed.
Lemma reads_iff S T x v : (forall p, S p <-> T p) -> reads S x v -> reads T x v.
Proof.
  intros E [I|[O N]]; [left; apply (inside_iff S T x v E I)|right]. split; [|exact N].
  destruct O as [O|O]; [left|right]; intros p P; apply O, E, P.
Qed.
(** what interp1d gives, with the values used beyond the points *)
Lemma interp1d_reads nothing below above l f : interp1d nothing below above l = Ok f -> l <> [] /\ forall x,
  ((exists p q, In p l /\ In q l /\ fst p <= x <= fst q) /\ inside (fun p => In p l) x (f x)) \/
  ((forall p, In p l -> x < fst p) /\ f x = below) \/
  ((forall p, In p l -> fst p < x) /\ f x = above).
Proof.
  unfold interp1d. destruct (sort_x l) as [|p s] eqn:E; [discriminate|]. intro H.
  assert (F : f = fun x => if Qlt_bool x (fst p) then below else if Qlt_bool (fst (last (p :: s) p)) x then above else np_interp (p :: s) x) by congruence.
  subst f. clear H.
  assert (SO : StronglySorted below_x (p :: s)) by (rewrite <- E; apply sort_sorted).
  assert (IN : forall r, In r (p :: s) <-> In r l) by (intro r; rewrite <- E; apply sort_in).
  split. { intros ->. discriminate. }
  intro x. destruct (Qlt_bool x (fst p)) eqn:A.
  - right. left. split; [|reflexivity]. apply Qlt_bool_iff in A. intros r R. apply IN in R. apply StronglySorted_inv in SO as [_ F].
    destruct R as [<-|R]; [exact A|]. rewrite Forall_forall in F. specialize (F r R). unfold below_x in F. lra.
  - apply Qlt_bool_false in A. destruct (Qlt_bool (fst (last (p :: s) p)) x) eqn:B.
    + right. right. split; [|reflexivity]. apply Qlt_bool_iff in B. intros r R. apply IN in R. pose proof (sorted_last _ p r SO R). lra.
    + apply Qlt_bool_false in B. left. split.
      * exists p, (last (p :: s) p). split; [apply IN; left; reflexivity|]. split; [apply IN, last_in; discriminate|]. split; assumption.
      * apply (inside_iff _ _ x _ IN). apply (np_reads (p :: s) x p SO eq_refl A B).
Qed.
Lemma interp_reads nothing l f x : interp1d nothing None None l = Ok f -> reads (fun p => In p l) x (f x).
Proof.
  intro H. destruct (interp1d_reads _ _ _ _ _ H) as (_ & G). destruct (G x) as [[_ I]|[[A B]|[A B]]]; [left; exact I|right..].
  - split; [right; exact A|exact B].
  - split; [left; exact A|exact B].
Qed.
Lemma interp1d_total nothing below above l : l <> [] -> exists f, interp1d nothing below above l = Ok f.
Proof.
  intro N. unfold interp1d. destruct (sort_x l) as [|p s] eqn:E; [|eauto].
  exfalso. apply N. apply Permutation_nil. symmetry. rewrite <- E. symmetry. apply sort_perm.
Qed.
Lemma interp1d_nothing nothing below above : interp1d nothing below above [] = Err nothing. Proof. reflexivity. Qed.

(** ** The reading of a curve is unique *)
Lemma straight_same p q x v w : straight p q x v -> straight p q x w -> same v w.
Proof.
  unfold straight, same. destruct (snd p), (snd q); intros A B; try (subst; exact Logic.I).
  destruct A as (y & -> & A), B as (z & -> & B). lra.
Qed.
Lemma straight_known (p q : Q * num) x v : snd p <> None -> snd q <> None -> straight p q x v -> v <> None.
Proof. unfold straight. destruct (snd p), (snd q); intros A B; try (exfalso; apply A; reflexivity); try (exfalso; apply B; reflexivity). intros (y & -> & _). discriminate. Qed.
Lemma same_eq v w : v = w -> same v w. Proof. intros <-. unfold same. destruct v; [reflexivity|exact Logic.I]. Qed.
Lemma reads_at S x v p : single_valued S -> S p -> fst p == x -> reads S x v -> v = snd p.
Proof.
  intros SV P E [[(r & R & R1 & ->)|(r & r' & R & R' & L1 & L2 & G & _)]|[[O|O] _]].
  - apply SV; [exact R|exact P|lra].
  - destruct (G p P); lra.
  - specialize (O p P). lra.
  - specialize (O p P). lra.
Qed.
Lemma reads_unique S x v w : single_valued S -> reads S x v -> reads S x w -> same v w.
Proof.
  intros SV A B. destruct A as [[(p & P & E & ->)|(p & q & P & P' & L1 & L2 & G & ST)]|[O ->]].
  - apply same_eq. symmetry. apply (reads_at S x w p SV P E B).
  - destruct B as [[(r & R & E & ->)|(r & r' & R & R' & M1 & M2 & G' & ST')]|[[O|O] ->]].
    + destruct (G r R); lra.
    + assert (E1 : fst p == fst r) by (destruct (G r R), (G' p P); lra).
      assert (E2 : fst q == fst r') by (destruct (G r' R'), (G' q P'); lra).
      pose proof (SV p r P R E1) as V1. pose proof (SV q r' P' R' E2) as V2.
      unfold straight in ST, ST'. rewrite <- V1, <- V2 in ST'. unfold same. destruct (snd p), (snd q); try (subst; exact Logic.I).
      destruct ST as (y & -> & A), ST' as (z & -> & B). rewrite A, B.
      assert (X : (x - fst p) / (fst q - fst p) == (x - fst r) / (fst r' - fst r)) by (rewrite E1, E2; reflexivity). rewrite X. reflexivity.
    + specialize (O q P'). lra.
    + specialize (O p P). lra.
  - destruct B as [[(r & R & E & ->)|(r & r' & R & R' & M1 & M2 & _)]|[_ ->]]; [| |exact Logic.I].
    + destruct O as [O|O]; specialize (O r R); lra.
    + destruct O as [O|O]; [specialize (O r' R')|specialize (O r R)]; lra.
Qed.

(** ** Stretching and moving a curve *)
Lemma rescale_in k d t p : In p (rescale k d t) <-> exists s, In s t /\ p = (fst s / 100 * k + d, Some (snd s)).
Proof. unfold rescale. rewrite in_map_iff. split; intros (s & A & B); exists s; auto. Qed.
Lemma as_curve_in t p : In p (as_curve t) <-> exists s, In s t /\ p = (fst s, Some (snd s)).
Proof. unfold as_curve. rewrite in_map_iff. split; intros (s & A & B); exists s; auto. Qed.
Lemma stretch k d a x : 0 < k -> (a / 100 * k + d < x <-> a < 100 * (x - d) / k) /\ (x < a / 100 * k + d <-> 100 * (x - d) / k < a) /\
  (a / 100 * k + d == x <-> a == 100 * (x - d) / k).
Proof.
  intro K. set (u := 100 * (x - d) / k). assert (X : x == u / 100 * k + d) by (subst u; field; lra). clearbody u.
  assert (M : forall b c, b < c <-> b / 100 * k + d < c / 100 * k + d).
  { intros b c. unfold Qdiv. change (/ 100) with (1#100). split; intro; [nra|]. apply Qnot_le_lt. intro. nra. }
  split; [rewrite X; split; apply M|]. split; [rewrite X; split; apply M|]. rewrite X. split; intro H.
  - destruct (Q_dec a u) as [[L|L]|L]; [apply M in L; lra|apply M in L; lra|exact L].
  - rewrite H. reflexivity.
Qed.
Lemma reads_rescale k d t x v : 0 < k -> reads (fun p => In p (rescale k d t)) x v -> reads (fun p => In p (as_curve t)) (100 * (x - d) / k) v.
Proof.
  intros K R.
  assert (FWD : forall s, In s t -> In (fst s, Some (snd s)) (as_curve t)) by (intros s S; apply as_curve_in; eauto).
  assert (BWD : forall s, In s t -> In (fst s / 100 * k + d, Some (snd s)) (rescale k d t)) by (intros s S; apply rescale_in; eauto).
  destruct R as [[(p & P & E & ->)|(p & q & P & P' & L1 & L2 & G & ST)]|[O ->]].
  - apply rescale_in in P as (s & S & ->). cbn [fst snd] in *. left. left. exists (fst s, Some (snd s)). split; [auto|]. cbn [fst snd].
    split; [apply (stretch k d (fst s) x K), E|reflexivity].
  - apply rescale_in in P as (s & S & ->). apply rescale_in in P' as (s' & S' & ->). cbn [fst snd] in *. left. right.
    exists (fst s, Some (snd s)), (fst s', Some (snd s')). split; [auto|]. split; [auto|]. cbn [fst snd].
    apply (stretch k d (fst s) x K) in L1. apply (stretch k d (fst s') x K) in L2. split; [exact L1|]. split; [exact L2|]. split.
    + intros r R. apply as_curve_in in R as (w & W & ->). cbn [fst snd]. specialize (G _ (BWD w W)). cbn [fst] in G.
      unfold Qdiv in G. change (/ 100) with (1#100) in G. destruct G as [G|G]; [left|right]; apply Qnot_lt_le; intro; nra.
    + unfold straight in *. cbn [fst snd] in *. destruct ST as (y & -> & Y). exists y. split; [reflexivity|]. rewrite Y. field. repeat split; try lra.
      intro Z. assert (fst s < fst s') by lra. unfold Qdiv in Z. change (/ 100) with (1#100) in Z. nra.
  - right. split; [|reflexivity]. destruct O as [O|O]; [left|right]; intros p P; apply as_curve_in in P as (s & S & ->); cbn [fst]; specialize (O _ (BWD s S)); cbn [fst] in O.
    + apply (stretch k d (fst s) x K), O.
    + apply (stretch k d (fst s) x K), O.
Qed.

(** ** Spans, grids *)
Lemma bind_ok {A B} (r : result A) (f : A -> result B) y : bind r f = Ok y -> exists x, r = Ok x /\ f x = Ok y.
Proof. destruct r; [|discriminate]. cbn. eauto. Qed.
Ltac inv H x E := apply bind_ok in H; destruct H as (x & E & H).
Lemma linspace_evenly a b n : (2 <= n)%nat -> evenly a b n (linspace a b n).
Proof.
  intro N. split; [apply linspace_length|]. intros i x H.
  assert (L : (i < n)%nat) by (rewrite <- (linspace_length a b n); apply nth_error_Some; congruence).
  rewrite linspace_nth in H by assumption. injection H as <-. reflexivity.
Qed.
Lemma abscissas_in l x : In (Some x) (abscissas l) <-> exists v, In (x, v) l.
Proof.
  unfold abscissas. rewrite in_map_iff. split.
  - intros ((y & v) & E & H). injection E as <-. eauto.
  - intros (v & H). exists (x, v). auto.
Qed.
Lemma span_spec nothing l a b : span nothing l = Ok (a, b) ->
  least (fun x => exists v, In (x, v) l) a /\ greatest (fun x => exists v, In (x, v) l) b.
Proof.
  unfold span. pose proof (col_min_spec (abscissas l)) as MIN. pose proof (col_max_spec (abscissas l)) as MAX.
  destruct (col_min (abscissas l)) as [x|]; [|discriminate]. destruct (col_max (abscissas l)) as [y|]; [|discriminate].
  intro H. injection H as <- <-. destruct MIN as [A B], MAX as [C D]. apply abscissas_in in A, C.
  split; (split; [assumption|]); intros z Z; apply abscissas_in in Z; auto.
Qed.
Lemma span_total nothing l : l <> [] -> exists a b, span nothing l = Ok (a, b).
Proof.
  intro N. unfold span. pose proof (col_min_spec (abscissas l)) as MIN. pose proof (col_max_spec (abscissas l)) as MAX.
  destruct l as [|(x, v) l]; [congruence|].
  assert (I : In (Some x) (abscissas ((x, v) :: l))) by (left; reflexivity).
  destruct (col_min _) as [a|]; [|destruct (MIN x I)]. destruct (col_max _) as [b|]; [|destruct (MAX x I)]. eauto.
Qed.
Lemma points_2 : (2 <= points)%nat. Proof. unfold points. lia. Qed.
Lemma points_1 : inject_Z (Z.of_nat (points - 1)) == 1000. Proof. reflexivity. Qed.
Lemma sample_fst f g : map fst (sample_on f g) = g.
Proof. unfold sample_on. rewrite map_map. cbn. apply map_id. Qed.
Lemma sample_in f g x v : In (x, v) (sample_on f g) <-> In x g /\ v = f x.
Proof.
  unfold sample_on. rewrite in_map_iff. split.
  - intros (y & E & H). injection E as <- <-. auto.
  - intros [H ->]. exists x. auto.
Qed.
Lemma linspace_in a b n x : (2 <= n)%nat -> In x (linspace a b n) -> exists i, (i < n)%nat /\ x == a + inject_Z (Z.of_nat i) * ((b - a) / inject_Z (Z.of_nat (n - 1))).
Proof.
  intros N H. apply In_nth_error in H as (i & H). exists i. destruct (linspace_evenly a b n N) as [L E]. split; [|apply E, H].
  rewrite <- L. apply nth_error_Some. congruence.
Qed.
Lemma linspace_range a b n x : (2 <= n)%nat -> a <= b -> In x (linspace a b n) -> a <= x <= b.
Proof.
  intros N L H. destruct (linspace_in a b n x N H) as (i & I & ->).
  assert (P : 0 <= inject_Z (Z.of_nat i) <= inject_Z (Z.of_nat (n - 1))). { split; [change 0 with (inject_Z 0)|]; rewrite <- Zle_Qle; lia. }
  assert (M : 0 < inject_Z (Z.of_nat (n - 1))). { change 0 with (inject_Z 0). rewrite <- Zlt_Qlt. lia. }
  set (k := inject_Z (Z.of_nat i)) in *. set (m := inject_Z (Z.of_nat (n - 1))) in *. clearbody k m.
  set (d := (b - a) / m). assert (D : d * m == b - a) by (subst d; field; lra). assert (0 <= d). { subst d. apply Qle_shift_div_l; lra. }
  clearbody d. split; nra.
Qed.
Lemma linspace_first a b n : (2 <= n)%nat -> exists x, In x (linspace a b n) /\ x == a.
Proof.
  intro N. exists (a + inject_Z (Z.of_nat 0) * ((b - a) / inject_Z (Z.of_nat (n - 1)))). split.
  - apply nth_error_In with 0%nat. apply linspace_nth; lia.
  - change (inject_Z (Z.of_nat 0)) with 0. lra.
Qed.
Lemma linspace_last a b n : (2 <= n)%nat -> exists x, In x (linspace a b n) /\ x == b.
Proof.
  intro N. exists (a + inject_Z (Z.of_nat (n - 1)) * ((b - a) / inject_Z (Z.of_nat (n - 1)))). split.
  - apply nth_error_In with (n - 1)%nat. apply linspace_nth; lia.
  - field. change 0 with (inject_Z 0). rewrite inject_Z_injective. lia.
Qed.
Lemma min_q_spec a b : (min_q a b = a \/ min_q a b = b) /\ min_q a b <= a /\ min_q a b <= b.
Proof. unfold min_q. destruct (Qle_bool a b) eqn:E; [apply Qle_bool_iff in E; repeat split; auto; lra|].
  assert (b < a) by (apply Qnot_le_lt; intro K; apply Qle_bool_iff in K; congruence). repeat split; auto; lra. Qed.
Lemma max_q_spec a b : (max_q a b = a \/ max_q a b = b) /\ a <= max_q a b /\ b <= max_q a b.
Proof. unfold max_q. destruct (Qle_bool a b) eqn:E; [apply Qle_bool_iff in E; repeat split; auto; lra|].
  assert (b < a) by (apply Qnot_le_lt; intro K; apply Qle_bool_iff in K; congruence). repeat split; auto; lra. Qed.

(** ** The measured charge *)
Lemma charge_points_in type data cycle p : In p (charge_points type 0 data cycle) <-> charged data type cycle p.
Proof.
  unfold charge_points, charged. rewrite in_flat_map. split.
  - intros (r & R & H). destruct (String.eqb (i_type r) type) eqn:T; [|destruct H]. destruct (Z.eqb (i_cycle r) cycle) eqn:C; [|destruct H].
    destruct (Z.eqb (i_step r) 0) eqn:S; [|destruct H]. cbn [andb] in H. change ((0 =? 0)%Z) with true in H. cbn iota in H.
    destruct (i_voltage r) as [v|] eqn:V; [|destruct H]. unfold below_upper in H. destruct (Qlt_bool v upper) eqn:U; [|destruct H].
    destruct (i_qc r) as [q|] eqn:K; [|destruct H]. unfold positive in H. destruct (Qlt_bool 0 q) eqn:P; [|destruct H].
    cbn [andb] in H. destruct H as [<-|[]]. cbn [fst snd]. exists r, v. apply String.eqb_eq in T. apply Z.eqb_eq in C, S. apply Qlt_bool_iff in U, P.
    unfold upper in U. repeat split; auto.
  - intros (r & v & R & T & C & S & K & P & V & U & W). exists r. split; [exact R|]. rewrite T, C, S, K, V, String.eqb_refl, !Z.eqb_refl.
    unfold below_upper, positive, upper. rewrite (proj2 (Qlt_bool_iff v (42#10))), (proj2 (Qlt_bool_iff 0 (fst p))) by assumption.
    cbn [andb Z.eqb]. left. destruct p. cbn [fst snd] in *. congruence.
Qed.
(** the records of the discharge are not used, whatever the step type *)
Lemma charge_points_charge type s data cycle : charge_points type s data cycle = charge_points type s (filter (fun r => Z.eqb (i_step r) 0) data) cycle.
Proof.
  unfold charge_points. induction data as [|r data IH]; [reflexivity|]. cbn [filter flat_map]. destruct (Z.eqb (i_step r) 0) eqn:E.
  - cbn [flat_map]. rewrite IH, E. reflexivity.
  - rewrite IH. destruct (String.eqb _ _), (Z.eqb (i_cycle r) cycle); reflexivity.
Qed.
Lemma profile_spec nothing type data cycle l : candidate_profile nothing type 0 data cycle = Ok l ->
  exists top, greatest (fun q => exists v, charged data type cycle (q, v)) top /\
    evenly 0 top points (map fst l) /\
    forall q v, In (q, v) l ->
      ((exists p, charged data type cycle p /\ fst p <= q) -> inside (charged data type cycle) q v) /\
      ((forall p, charged data type cycle p -> q < fst p) -> v = Some (27 # 10)).
Proof.
  unfold candidate_profile. intro H. inv H f F. inv H ab SP. destruct ab as [a b]. assert (E : l = sample_on f (linspace 0 b points)) by congruence. subst l. clear H.
  destruct (span_spec _ _ _ _ SP) as (_ & G). destruct (interp1d_reads _ _ _ _ _ F) as (NE & R).
  assert (IN : forall p, In p (charge_points type 0 data cycle) <-> charged data type cycle p) by (intro; apply charge_points_in).
  exists b. split.
  - destruct G as [(v & G1) G2]. split; [exists v; apply IN, G1|]. intros x (w & W). apply G2. exists w. apply IN, W.
  - split; [rewrite sample_fst; apply linspace_evenly, points_2|]. intros q v Q. apply sample_in in Q as [Q ->]. split.
    + intros (p & P & LE). destruct (R q) as [[_ I]|[[A B]|[A B]]].
      * apply (inside_iff _ _ q _ IN I).
      * apply IN in P. specialize (A p P). lra.
      * destruct G as [(v & G1) G2]. specialize (A _ G1). cbn [fst] in A.
        assert (0 <= b). { apply charge_points_in in G1 as (? & ? & _ & _ & _ & _ & _ & K & _). cbn [fst] in K. lra. }
        apply (linspace_range 0 b points q points_2 H) in Q. lra.
    + intro LT. destruct (R q) as [[(p & p' & P & _ & L & _) _]|[[A B]|[A B]]].
      * specialize (LT p (proj1 (IN p) P)). lra.
      * exact B.
      * destruct (charge_points type 0 data cycle) as [|p r] eqn:E; [congruence|]. assert (P : In p (p :: r)) by (left; reflexivity). specialize (A p P). specialize (LT p (proj1 (IN p) P)). lra.
Qed.
Lemma profile_total nothing type data cycle p : charged data type cycle p -> exists l, candidate_profile nothing type 0 data cycle = Ok l.
Proof.
  intro P. apply charge_points_in in P. unfold candidate_profile.
  assert (N : charge_points type 0 data cycle <> []) by (intro E; rewrite E in P; destruct P).
  destruct (interp1d_total nothing (Some lower) (Some upper) _ N) as (f & ->). destruct (span_total nothing _ N) as (a & b & ->). cbn [bind]. eauto.
Qed.

(** ** The electrodes *)
Lemma rescale_span k d t x : 0 < k -> (exists v, In (x, v) (rescale k d t)) <-> exists s, In s t /\ x = fst s / 100 * k + d.
Proof.
  intros _. split.
  - intros (v & H). apply rescale_in in H as (s & S & E). exists s. split; [exact S|]. congruence.
  - intros (s & S & ->). exists (Some (snd s)). apply rescale_in. eauto.
Qed.
Lemma fits_ok t : fits t = Ok tt <-> length t = points.
Proof. unfold fits. destruct (Nat.eqb_spec (length t) points); split; congruence. Qed.
Lemma impose_inv nothing h x pe ne : impose nothing h x = Ok (pe, ne) -> exists neg f g a1 b1 a2 b2,
  blend_electrodes nothing (t_ne h) (t_ne2_pos h) (t_ne2_neg h) (g_x2 x) = Ok neg /\
  length (t_pe h) = points /\ length neg = points /\
  span nothing (rescale (g_pe x) 0 (t_pe h)) = Ok (a1, b1) /\ span nothing (rescale (g_ne x) (g_lli x) neg) = Ok (a2, b2) /\
  interp1d nothing None None (rescale (g_pe x) 0 (t_pe h)) = Ok f /\ interp1d nothing None None (rescale (g_ne x) (g_lli x) neg) = Ok g /\
  pe = sample_on f (linspace (min_q a1 a2) (max_q b1 b2) points) /\ ne = sample_on g (linspace (min_q a1 a2) (max_q b1 b2) points).
Proof.
  unfold impose. intro H. inv H neg B. inv H p1 S1. destruct p1 as [a1 b1]. inv H p2 S2. destruct p2 as [a2 b2].
  inv H u1 F1. inv H u2 F2. inv H f F. inv H g G. destruct u1, u2. apply fits_ok in F1, F2. exists neg, f, g, a1, b1, a2, b2.
  split; [exact B|]. split; [exact F1|]. split; [exact F2|]. split; [exact S1|]. split; [exact S2|]. split; [exact F|]. split; [exact G|].
  split; congruence.
Qed.
(** Where it is defined. *)
Lemma impose_total nothing h x neg : blend_electrodes nothing (t_ne h) (t_ne2_pos h) (t_ne2_neg h) (g_x2 x) = Ok neg ->
  length (t_pe h) = points -> length neg = points -> exists pe ne, impose nothing h x = Ok (pe, ne).
Proof.
  intros B L1 L2. unfold impose. rewrite B. cbn [bind].
  assert (N : forall k d (t : table), length t = points -> rescale k d t <> []). { intros k d t L. unfold rescale. destruct t; discriminate. }
  destruct (span_total nothing _ (N (g_pe x) 0 _ L1)) as (a1 & b1 & ->). destruct (span_total nothing _ (N (g_ne x) (g_lli x) _ L2)) as (a2 & b2 & ->).
  cbn [bind]. rewrite (proj2 (fits_ok _) L1), (proj2 (fits_ok _) L2). cbn [bind].
  destruct (interp1d_total nothing None None _ (N (g_pe x) 0 _ L1)) as (f & ->). destruct (interp1d_total nothing None None _ (N (g_ne x) (g_lli x) _ L2)) as (g & ->).
  cbn [bind]. eauto.
Qed.
Lemma impose_length nothing h x neg : blend_electrodes nothing (t_ne h) (t_ne2_pos h) (t_ne2_neg h) (g_x2 x) = Ok neg ->
  t_pe h <> [] -> neg <> [] -> length (t_pe h) <> points \/ length neg <> points -> impose nothing h x = Err ValueError.
Proof.
  intros B N1 N2 L. unfold impose. rewrite B. cbn [bind].
  assert (N : forall k d (t : table), t <> [] -> rescale k d t <> []). { intros k d t L'. unfold rescale. destruct t; [congruence|discriminate]. }
  destruct (span_total nothing _ (N (g_pe x) 0 _ N1)) as (a1 & b1 & ->). destruct (span_total nothing _ (N (g_ne x) (g_lli x) _ N2)) as (a2 & b2 & ->).
  cbn [bind]. unfold fits. destruct (Nat.eqb_spec (length (t_pe h)) points) as [E|E]; cbn [bind]; [|reflexivity].
  destruct (Nat.eqb_spec (length neg) points) as [E'|E']; cbn [bind]; [|reflexivity]. exfalso. destruct L as [L|L]; contradiction.
Qed.

(** ** The zero of capacity *)
Lemma lowest_from_spec l : forall bx bv (S : Q * num -> Prop), S (bx, Some bv) -> (forall p, In p l -> S p) ->
  exists v, S (lowest_from (bx, bv) l, Some v) /\ v <= bv /\ forall x w, In (x, Some w) l -> v <= w.
Proof.
  induction l as [|(x, [w|]) l IH]; intros bx bv S B IN; cbn [lowest_from fst snd].
  - exists bv. split; [exact B|]. split; [lra|]. intros ? ? [].
  - destruct (Qlt_bool w bv) eqn:E.
    + apply Qlt_bool_iff in E. destruct (IH x w S) as (v & A & C & D); [apply IN; left; reflexivity|intros; apply IN; right; assumption|].
      exists v. split; [exact A|]. split; [lra|]. intros y u [K|K]; [injection K as <- <-; exact C|exact (D y u K)].
    + apply Qlt_bool_false in E. destruct (IH bx bv S B) as (v & A & C & D); [intros; apply IN; right; assumption|].
      exists v. split; [exact A|]. split; [lra|]. intros y u [K|K]; [injection K as <- <-; lra|exact (D y u K)].
  - destruct (IH bx bv S B) as (v & A & C & D); [intros; apply IN; right; assumption|].
    exists v. split; [exact A|]. split; [exact C|]. intros y u [K|K]; [discriminate|exact (D y u K)].
Qed.
Lemma lowest_spec l z : lowest l = Ok z -> exists v, In (z, Some v) l /\ forall x w, In (x, Some w) l -> v <= w.
Proof.
  induction l as [|(x, [w|]) l IH]; cbn [lowest]; [discriminate| |].
  - intro H. injection H as <-. destruct (lowest_from_spec l x w (fun p => In p ((x, Some w) :: l))) as (v & A & B & C); [left; reflexivity|intros; right; assumption|].
    exists v. split; [exact A|]. intros y u [K|K]; [injection K as <- <-; exact B|exact (C y u K)].
  - intro H. destruct (IH H) as (v & A & B). exists v. split; [right; exact A|]. intros y u [K|K]; [discriminate|exact (B y u K)].
Qed.
Lemma lowest_none l : (forall x v, ~ In (x, Some v) l) -> lowest l = Err ValueError.
Proof.
  induction l as [|(x, [w|]) l IH]; intro N; cbn [lowest]; [reflexivity| |].
  - destruct (N x w). left. reflexivity.
  - apply IH. intros y v K. apply (N y v). right. exact K.
Qed.
Lemma lowest_ok l x v : In (x, Some v) l -> exists z, lowest l = Ok z.
Proof. induction l as [|(y, [w|]) l IH]; [intros []| |]; cbn [lowest]; [eauto|]. intros [K|K]; [discriminate|auto]. Qed.
Lemma windowed_in l x v : In (x, Some v) (windowed l) <-> In (x, Some v) l /\ in_limits v.
Proof.
  unfold windowed. rewrite in_map_iff. unfold in_limits. split.
  - intros ((y & w) & E & H). cbn [fst snd] in E. unfold within in E. destruct w as [w|]; [|discriminate].
    destruct (Qlt_bool w lower) eqn:A; [discriminate|]. destruct (Qlt_bool upper w) eqn:B; [discriminate|]. injection E as <- <-.
    apply Qlt_bool_false in A, B. split; [exact H|]. split; [exact A|exact B].
  - intros (H & A & B). exists (x, Some v). split; [|exact H]. cbn [fst snd within].
    rewrite (proj2 (Qlt_bool_false v lower) A), (proj2 (Qlt_bool_false upper v) B). reflexivity.
Qed.
Lemma cell_in pe ne x v : In (x, Some v) (cell_curve pe ne) <-> exists i a b, electrodes_at pe ne i x a b /\ v = a - b.
Proof.
  unfold cell_curve, electrodes_at. rewrite in_map_iff. split.
  - intros (((q & vp) & (q' & vn)) & E & H). cbn [fst snd] in E. destruct vp as [a|]; [|discriminate]. destruct vn as [b|]; [|discriminate]. injection E as <- <-.
    apply In_nth_error in H as (i & H). exists i, a, b. split; [|reflexivity].
    assert (nth_error pe i = Some (q, Some a) /\ nth_error ne i = Some (q', Some b)) as [A B]; [|eauto].
    clear -H. revert ne i H. induction pe as [|p pe IH]; intros [|n ne] [|i] H; cbn in H; try discriminate; [injection H as -> ->; auto|]. exact (IH ne i H).
  - intros (i & a & b & (A & q' & B) & ->). exists ((x, Some a), (q', Some b)). split; [reflexivity|]. apply nth_error_In with i.
    revert ne i A B. induction pe as [|p pe IH]; intros [|n ne] [|i] A B; cbn in *; try discriminate; [injection A as ->; injection B as ->; reflexivity|]. exact (IH ne i A B).
Qed.
Lemma shift_moved z l : moved z l (shift z l).
Proof. unfold moved, shift. induction l; cbn [map]; constructor; [|assumption]. split; reflexivity. Qed.
Lemma shift_nth z l i : nth_error (shift z l) i = match nth_error l i with Some p => Some (fst p - z, snd p) | None => None end.
Proof. unfold shift. rewrite nth_error_map. destruct (nth_error l i); reflexivity. Qed.
Lemma shift_electrodes z pe ne i q a b : electrodes_at (shift z pe) (shift z ne) i q a b <-> exists q0, electrodes_at pe ne i q0 a b /\ q = q0 - z.
Proof.
  unfold electrodes_at. rewrite !shift_nth. split.
  - intros (A & q' & B). destruct (nth_error pe i) as [(x, v)|]; [|discriminate]. destruct (nth_error ne i) as [(y, w)|]; [|discriminate]. cbn [fst snd] in *.
    injection A as A ->. injection B as B ->. exists x. split; [split; [reflexivity|exists y; reflexivity]|congruence].
  - intros (q0 & (A & q' & B) & ->). rewrite A, B. cbn [fst snd]. split; [reflexivity|]. eauto.
Qed.
Lemma shift_cell z pe ne : Forall2 (fun p p' => fst p = fst p' /\ snd p = snd p') (shift z (cell_curve pe ne)) (cell_curve (shift z pe) (shift z ne)).
Proof.
  revert ne. induction pe as [|p pe IH]; intros [|n ne]; cbn [shift map cell_curve combine]; try constructor; [split; reflexivity|]. apply IH.
Qed.
Lemma zeroed_inv nothing h x pe ne cell : zeroed nothing h x = Ok (pe, ne, cell) -> exists pe0 ne0 z,
  impose nothing h x = Ok (pe0, ne0) /\ lowest (windowed (cell_curve pe0 ne0)) = Ok z /\
  pe = shift z pe0 /\ ne = shift z ne0 /\ cell = shift z (windowed (cell_curve pe0 ne0)).
Proof.
  unfold zeroed. intro H. inv H p IM. destruct p as [pe0 ne0]. inv H z LO. exists pe0, ne0, z. split; [exact IM|]. split; [exact LO|].
  assert (E : (shift z pe0, shift z ne0, shift z (windowed (cell_curve pe0 ne0))) = (pe, ne, cell)) by congruence.
  split; [symmetry; exact (f_equal (fun p => fst (fst p)) E)|]. split; [symmetry; exact (f_equal (fun p => snd (fst p)) E)|symmetry; exact (f_equal snd E)].
Qed.
Lemma zeroed_cell nothing h x pe ne cell : zeroed nothing h x = Ok (pe, ne, cell) -> forall q v, In (q, Some v) cell <-> cell_point pe ne (q, Some v).
Proof.
  intro Z. destruct (zeroed_inv _ _ _ _ _ _ Z) as (pe0 & ne0 & z & _ & _ & -> & -> & ->). intros q v. unfold cell_point. cbn [fst snd]. split.
  - unfold shift at 1. rewrite in_map_iff. intros ((y & w) & E & H). cbn [fst snd] in E. injection E as <- ->. apply windowed_in in H as [H L].
    apply cell_in in H as (i & a & b & EL & ->). exists i, a, b. split; [apply shift_electrodes; eauto|]. split; [exact L|reflexivity].
  - intros (i & a & b & EL & L & E). apply shift_electrodes in EL as (q0 & EL & ->). injection E as ->. unfold shift at 1. apply in_map_iff.
    exists (q0, Some (a - b)). split; [reflexivity|]. apply windowed_in. split; [apply cell_in; eauto|exact L].
Qed.
Lemma known_in l p : In p (known_part l) <-> In p l /\ snd p <> None.
Proof. unfold known_part, is_known. rewrite filter_In. destruct p as (x, [v|]); cbn [snd]; split; intros [A B]; split; auto; discriminate. Qed.

(** ** The matching *)
Lemma matching_inv nothing h real x pe ne r e : matching nothing h real x = Ok (pe, ne, r, e) -> exists cell a b f g,
  zeroed nothing h x = Ok (pe, ne, cell) /\ span nothing (known_part real) = Ok (a, b) /\
  interp1d nothing None None (known_part cell) = Ok f /\ interp1d nothing None None (known_part real) = Ok g /\
  e = sample_on f (linspace a b points) /\ r = sample_on g (linspace a b points).
Proof.
  unfold matching. intro H. inv H p ZE. destruct p as [[pe0 ne0] cell]. inv H ab SP. destruct ab as [a b]. inv H e0 RE. inv H r0 RR.
  unfold resample in RE, RR. inv RE f F. inv RR g G. assert (E : (pe0, ne0, r0, e0) = (pe, ne, r, e)) by congruence.
  exists cell, a, b, f, g. assert (pe0 = pe) by exact (f_equal (fun p => fst (fst (fst p))) E). assert (ne0 = ne) by exact (f_equal (fun p => snd (fst (fst p))) E).
  assert (r0 = r) by exact (f_equal (fun p => snd (fst p)) E). assert (e0 = e) by exact (f_equal snd E). subst.
  split; [exact ZE|]. split; [exact SP|]. split; [exact F|]. split; [exact G|]. split; congruence.
Qed.
Lemma known_value l q v : In (q, v) (known_part l) -> exists w, v = Some w /\ In (q, Some w) l.
Proof. intro H. apply known_in in H as [H N]. destruct v as [w|]; [eauto|]. destruct N. reflexivity. Qed.
Lemma inside_known (S : Q * num -> Prop) x v : (forall p, S p -> snd p <> None) -> inside S x v -> v <> None.
Proof.
  intros K [(p & P & _ & ->)|(p & q & P & P' & _ & _ & _ & ST)]; [apply K, P|]. apply (straight_known p q x v (K p P) (K q P') ST).
Qed.
Lemma known_points l p : In p (known_part l) -> snd p <> None.
Proof. intro H. apply known_in in H. tauto. Qed.
Lemma sampled_inside nothing l f a b x : interp1d nothing None None l = Ok f -> span nothing l = Ok (a, b) -> In x (linspace a b points) ->
  inside (fun p => In p l) x (f x).
Proof.
  intros F SP X. destruct (span_spec _ _ _ _ SP) as ([(va & A1) A2] & [(vb & B1) B2]).
  assert (AB : a <= b) by (apply A2; eauto). apply (linspace_range a b points x points_2 AB) in X.
  destruct (interp1d_reads _ _ _ _ _ F) as (_ & R). destruct (R x) as [[_ I]|[[O _]|[O _]]]; [exact I| |].
  - specialize (O _ A1). cbn [fst] in O. lra.
  - specialize (O _ B1). cbn [fst] in O. lra.
Qed.

(** ** The electrodes at a voltage of the cell *)
Lemma nearest_from_spec v l : forall i bi bd j, nearest_from v i (bi, bd) l = j ->
  (j = bi /\ forall k y, nth_error l k = Some (Some y) -> bd <= Qabs (y - v)) \/
  (exists k x, j = (i + k)%nat /\ nth_error l k = Some (Some x) /\ Qabs (x - v) < bd /\ forall k' y, nth_error l k' = Some (Some y) -> Qabs (x - v) <= Qabs (y - v)).
Proof.
  induction l as [|[x|] l IH]; intros i bi bd j H; cbn [nearest_from fst snd] in H.
  - left. split; [symmetry; exact H|]. intros [|k] y; discriminate.
  - destruct (Qlt_bool (Qabs (x - v)) bd) eqn:E.
    + apply Qlt_bool_iff in E. destruct (IH _ _ _ _ H) as [[-> A]|(k & y & -> & B & C & D)]; right.
      * exists 0%nat, x. split; [lia|]. split; [reflexivity|]. split; [exact E|]. intros [|k'] y K; [injection K as ->; lra|exact (A k' y K)].
      * exists (S k), y. split; [lia|]. split; [exact B|]. split; [lra|]. intros [|k'] w K; [injection K as ->; lra|exact (D k' w K)].
    + apply Qlt_bool_false in E. destruct (IH _ _ _ _ H) as [[-> A]|(k & y & -> & B & C & D)].
      * left. split; [reflexivity|]. intros [|k'] y K; [injection K as ->; exact E|exact (A k' y K)].
      * right. exists (S k), y. split; [lia|]. split; [exact B|]. split; [exact C|]. intros [|k'] w K; [injection K as ->; lra|exact (D k' w K)].
  - destruct (IH _ _ _ _ H) as [[-> A]|(k & y & -> & B & C & D)].
    + left. split; [reflexivity|]. intros [|k'] y K; [discriminate|exact (A k' y K)].
    + right. exists (S k), y. split; [lia|]. split; [exact B|]. split; [exact C|]. intros [|k'] w K; [discriminate|exact (D k' w K)].
Qed.
Lemma nearest_at_spec v l : forall i j, nearest_at v i l = Ok j -> exists k x, j = (i + k)%nat /\ nth_error l k = Some (Some x) /\
  forall k' y, nth_error l k' = Some (Some y) -> Qabs (x - v) <= Qabs (y - v).
Proof.
  induction l as [|[x|] l IH]; intros i j H; cbn [nearest_at] in H; [discriminate| |].
  - assert (E : nearest_from v (S i) (i, Qabs (x - v)) l = j) by congruence. clear H.
    destruct (nearest_from_spec _ _ _ _ _ _ E) as [[-> A]|(k & y & -> & B & C & D)].
    + exists 0%nat, x. split; [lia|]. split; [reflexivity|]. intros [|k'] y K; [injection K as ->; lra|exact (A k' y K)].
    + exists (S k), y. split; [lia|]. split; [exact B|]. intros [|k'] w K; [injection K as ->; lra|exact (D k' w K)].
  - destruct (IH _ _ H) as (k & y & -> & B & D). exists (S k), y. split; [lia|]. split; [exact B|]. intros [|k'] w K; [discriminate|exact (D k' w K)].
Qed.
Lemma nearest_spec v l j : nearest v l = Ok j -> exists x, nth_error l j = Some (Some x) /\
  forall k y, nth_error l k = Some (Some y) -> Qabs (x - v) <= Qabs (y - v).
Proof. intro H. destruct (nearest_at_spec _ _ _ _ H) as (k & x & -> & A & B). exists x. split; [exact A|exact B]. Qed.
Lemma nearest_ok v l k y : nth_error l k = Some (Some y) -> exists j, nearest v l = Ok j.
Proof.
  unfold nearest. generalize 0%nat as i. revert k. induction l as [|[x|] l IH]; intros k i H; [destruct k; discriminate| |]; cbn [nearest_at]; [eauto|].
  destruct k as [|k]; [discriminate|]. exact (IH k (S i) H).
Qed.
Lemma cell_nth pe ne i v : nth_error (map snd (cell_curve pe ne)) i = Some (Some v) <-> exists q a b, electrodes_at pe ne i q a b /\ v = a - b.
Proof.
  unfold cell_curve, electrodes_at. rewrite map_map. cbn [snd]. revert ne i. induction pe as [|(q, vp) pe IH]; intros [|(q', vn) ne] [|i]; cbn [combine map nth_error fst snd].
  - split; [discriminate|]. intros (? & ? & ? & [? _] & _). discriminate.
  - split; [discriminate|]. intros (? & ? & ? & [? _] & _). discriminate.
  - split; [discriminate|]. intros (? & ? & ? & [? _] & _). discriminate.
  - split; [discriminate|]. intros (? & ? & ? & [? _] & _). discriminate.
  - split; [discriminate|]. intros (? & ? & ? & (_ & ? & ?) & _). discriminate.
  - split; [discriminate|]. intros (? & ? & ? & (_ & ? & ?) & _). discriminate.
  - split.
    + intro H. destruct vp as [a|]; [|discriminate]. destruct vn as [b|]; [|discriminate]. cbn in H. injection H as <-. exists q, a, b. split; [|reflexivity]. split; [reflexivity|]. eauto.
    + intros (q0 & a & b & (A & q1 & B) & ->). injection A as -> ->. injection B as -> ->. reflexivity.
  - apply IH.
Qed.
Lemma cell_abscissa pe ne i q v : nth_error (cell_curve pe ne) i = Some (q, v) -> exists w, nth_error pe i = Some (q, w).
Proof.
  unfold cell_curve. revert ne i. induction pe as [|(x, vp) pe IH]; intros [|n ne] [|i] H; cbn in H; try discriminate; [injection H as <- _; cbn; eauto|]. exact (IH ne i H).
Qed.
(** a column of the info *)
Lemma voltage_columns_spec prefix el cell r : voltage_columns prefix el cell = Ok r ->
  map fst r = map (fun n : string * Q => (prefix ++ "_voltage_FC" ++ fst n)%string) voltages /\
  forall n V, In (n, V) voltages -> exists i p, nearest V (map snd cell) = Ok i /\ nth_error el i = Some p /\ In ((prefix ++ "_voltage_FC" ++ n)%string, snd p) r.
Proof.
  intro H. unfold voltage_columns in H. split.
  - eapply Proofs_Hppc.mapM_fst; [|exact H]. intros (n, V) y E. cbn [fst snd] in *. inv E i NI. inv E p RO. cbn [fst snd]. injection E as <-. reflexivity.
  - intros n V IN. destruct (Proofs_Hppc.mapM_in _ _ _ _ H IN) as (y & Y & E). cbn [fst snd] in E. inv E i NI. inv E p RO. exists i, p. split; [exact NI|].
    unfold row_at in RO. destruct (nth_error el i) as [p0|] eqn:N; [|discriminate]. injection RO as ->. split; [reflexivity|]. injection E as <-. exact Y.
Qed.
Lemma soc_columns_spec prefix el cell r : soc_columns prefix el cell = Ok r ->
  map fst r = map (fun n : string * Q => (prefix ++ "_soc_FC" ++ fst n)%string) voltages /\
  forall n V, In (n, V) voltages -> exists i p, nearest V (map snd cell) = Ok i /\ nth_error el i = Some p /\
    In ((prefix ++ "_soc_FC" ++ n)%string, ndiv (nsub (Some (fst p)) (known_min el)) (nsub (known_max el) (known_min el))) r.
Proof.
  intro H. unfold soc_columns in H. split.
  - eapply Proofs_Hppc.mapM_fst; [|exact H]. intros (n, V) y E. cbn [fst snd] in *. inv E i NI. inv E p RO. cbn [fst snd]. injection E as <-. reflexivity.
  - intros n V IN. destruct (Proofs_Hppc.mapM_in _ _ _ _ H IN) as (y & Y & E). cbn [fst snd] in E. inv E i NI. inv E p RO. exists i, p. split; [exact NI|].
    unfold row_at in RO. destruct (nth_error el i) as [p0|] eqn:N; [|discriminate]. injection RO as ->. split; [reflexivity|]. injection E as <-. exact Y.
Qed.
Lemma known_min_spec l : match known_min l with Some m => least (has_voltage l) m | None => forall q, ~ has_voltage l q end.
Proof.
  unfold known_min. pose proof (col_min_spec (abscissas (known_part l))) as M.
  assert (E : forall q, In (Some q) (abscissas (known_part l)) <-> has_voltage l q).
  { intro q. rewrite abscissas_in. unfold has_voltage. split.
    - intros (v & V). destruct (known_value _ _ _ V) as (w & -> & W). eauto.
    - intros (v & V). exists (Some v). apply known_in. split; [exact V|discriminate]. }
  destruct (col_min _) as [m|].
  - destruct M as [A B]. split; [apply E, A|]. intros x X. apply B, E, X.
  - intros q H. apply (M q), E, H.
Qed.
Lemma known_max_spec l : match known_max l with Some m => greatest (has_voltage l) m | None => forall q, ~ has_voltage l q end.
Proof.
  unfold known_max. pose proof (col_max_spec (abscissas (known_part l))) as M.
  assert (E : forall q, In (Some q) (abscissas (known_part l)) <-> has_voltage l q).
  { intro q. rewrite abscissas_in. unfold has_voltage. split.
    - intros (v & V). destruct (known_value _ _ _ V) as (w & -> & W). eauto.
    - intros (v & V). exists (Some v). apply known_in. split; [exact V|discriminate]. }
  destruct (col_max _) as [m|].
  - destruct M as [A B]. split; [apply E, A|]. intros x X. apply B, E, X.
  - intros q H. apply (M q), E, H.
Qed.
Lemma electrodes_known pe ne i q a b : electrodes_at pe ne i q a b -> has_voltage pe q.
Proof. intros (A & _). exists a. apply nth_error_In with i. exact A. Qed.
Lemma info_inv pe ne info : electrode_info pe ne = Ok info -> exists pv ps nv ns i p,
  voltage_columns "pe" pe (cell_curve pe ne) = Ok pv /\ soc_columns "pe" pe (cell_curve pe ne) = Ok ps /\
  voltage_columns "ne" ne (cell_curve pe ne) = Ok nv /\ soc_columns "ne" ne (cell_curve pe ne) = Ok ns /\
  nearest (42 # 10) (map snd (cell_curve pe ne)) = Ok i /\ nth_error (cell_curve pe ne) i = Some p /\
  info = pv ++ ps ++ nv ++ ns ++
          [("Q_fc", Some (fst p)); ("Q_pe", nsub (known_max pe) (known_min pe)); ("Q_ne", nsub (known_max ne) (known_min ne));
           ("Q_li", nsub (known_max (cell_curve pe ne)) (known_min (cell_curve pe ne)))]%string.
Proof.
  unfold electrode_info. intro H. inv H pv PV. inv H ps PS. inv H nv NV. inv H ns NS. inv H i NI. inv H p RO. exists pv, ps, nv, ns, i, p.
  unfold row_at in RO. destruct (nth_error (cell_curve pe ne) i) as [p0|] eqn:N; [|discriminate]. injection RO as ->. do 6 (split; [assumption || reflexivity|]). congruence.
Qed.
Fixpoint distinct_b (l : list string) : bool := match l with [] => true | x :: r => negb (existsb (String.eqb x) r) && distinct_b r end.
Lemma distinct_nodup l : distinct_b l = true -> NoDup l.
Proof.
  induction l as [|x l IH]; intro H; constructor; cbn in H; apply andb_prop in H as [A B]; [|apply IH, B].
  intro I. apply negb_true_iff in A. assert (existsb (String.eqb x) l = true) by (apply existsb_exists; exists x; split; [exact I|apply String.eqb_refl]). congruence.
Qed.
Lemma columns_distinct : NoDup result_columns. Proof. apply distinct_nodup. vm_compute. reflexivity. Qed.
Lemma info_names pe ne info : electrode_info pe ne = Ok info -> map fst info = skipn 5 result_columns.
Proof.
  intro H. destruct (info_inv _ _ _ H) as (pv & ps & nv & ns & i & p & PV & PS & NV & NS & _ & _ & ->).
  rewrite !map_app, (proj1 (voltage_columns_spec _ _ _ _ PV)), (proj1 (soc_columns_spec _ _ _ _ PS)), (proj1 (voltage_columns_spec _ _ _ _ NV)), (proj1 (soc_columns_spec _ _ _ _ NS)). reflexivity.
Qed.
Lemma info_nodup pe ne info : electrode_info pe ne = Ok info -> NoDup (map fst info).
Proof. intro H. rewrite (info_names _ _ _ H). apply distinct_nodup. vm_compute. reflexivity. Qed.

(** ** The grid is fine *)
Lemma grid_above a b A : a < b -> a <= A -> A <= b -> exists x, In x (linspace a b points) /\ A <= x /\ x < A + (b - a) / 1000.
Proof.
  intros AB L1 L2. set (d := (b - a) / 1000). assert (D : d * 1000 == b - a) by (subst d; field). assert (D0 : 0 < d) by lra.
  set (r := (A - a) / d). assert (R : r * d == A - a) by (subst r; field; lra).
  assert (R0 : 0 <= r) by (apply Qnot_lt_le; intro; nra). assert (R1 : r <= 1000) by (apply Qnot_lt_le; intro; nra).
  pose proof (Qceiling_lt r) as C1. pose proof (Qle_ceiling r) as C2. set (i := Qceiling r) in *. clearbody i.
  assert (I0 : (0 <= i)%Z). { rewrite Zle_Qle. apply Qle_trans with r; assumption. }
  assert (I1 : (i <= 1000)%Z). { assert (K : inject_Z (i - 1) < inject_Z 1000) by (change (inject_Z 1000) with 1000; lra). rewrite <- Zlt_Qlt in K. lia. }
  exists (a + inject_Z (Z.of_nat (Z.to_nat i)) * ((b - a) / inject_Z (Z.of_nat (points - 1)))). split.
  - apply nth_error_In with (Z.to_nat i). apply linspace_nth; [apply points_2|]. unfold points. lia.
  - rewrite Z2Nat.id by assumption. change (inject_Z (Z.of_nat (points - 1))) with 1000. fold d.
    assert (E : inject_Z (i - 1) == inject_Z i - 1) by (unfold Z.sub; rewrite inject_Z_plus; reflexivity). rewrite E in C1.
    clearbody d r. split; nra.
Qed.
Lemma grid_below a b B : a < b -> a <= B -> B <= b -> exists x, In x (linspace a b points) /\ x <= B /\ B - (b - a) / 1000 < x.
Proof.
  intros AB L1 L2. set (d := (b - a) / 1000). assert (D : d * 1000 == b - a) by (subst d; field). assert (D0 : 0 < d) by lra.
  set (r := (B - a) / d). assert (R : r * d == B - a) by (subst r; field; lra).
  assert (R0 : 0 <= r) by (apply Qnot_lt_le; intro; nra). assert (R1 : r <= 1000) by (apply Qnot_lt_le; intro; nra).
  pose proof (Qlt_floor r) as C1. pose proof (Qfloor_le r) as C2. set (i := Qfloor r) in *. clearbody i.
  assert (I0 : (0 <= i)%Z). { assert (K : inject_Z 0 < inject_Z (i + 1)) by (apply Qle_lt_trans with r; assumption). rewrite <- Zlt_Qlt in K. lia. }
  assert (I1 : (i <= 1000)%Z). { rewrite Zle_Qle. apply Qle_trans with r; assumption. }
  exists (a + inject_Z (Z.of_nat (Z.to_nat i)) * ((b - a) / inject_Z (Z.of_nat (points - 1)))). split.
  - apply nth_error_In with (Z.to_nat i). apply linspace_nth; [apply points_2|]. unfold points. lia.
  - rewrite Z2Nat.id by assumption. change (inject_Z (Z.of_nat (points - 1))) with 1000. fold d.
    rewrite inject_Z_plus in C1. change (inject_Z 1) with 1 in C1. clearbody d r. split; nra.
Qed.
(** a curve with known values, sampled on a grid that covers it *)
Lemma sampled_range nothing l f a b : interp1d nothing None None l = Ok f -> (forall p, In p l -> snd p <> None) ->
  forall x, In x (linspace a b points) -> (f x <> None <-> exists p q, In p l /\ In q l /\ fst p <= x <= fst q).
Proof.
  intros F K x X. destruct (interp1d_reads _ _ _ _ _ F) as (NE & R). destruct (R x) as [[P I]|[[O E]|[O E]]].
  - split; intros _; [exact P|]. apply (inside_known _ _ _ K I).
  - split; [intro N; exfalso; apply N; exact E|]. intros (p & q & P & _ & L & _). specialize (O p P). lra.
  - split; [intro N; exfalso; apply N; exact E|]. intros (p & q & _ & P & _ & L). specialize (O q P). lra.
Qed.
(** the capacity found on the grid *)
Lemma sampled_capacity nothing l f a b A B : interp1d nothing None None l = Ok f -> (forall p, In p l -> snd p <> None) ->
  least (fun x => exists v, In (x, v) l) A -> greatest (fun x => exists v, In (x, v) l) B -> a < b -> a <= A -> B <= b -> (b - a) / 1000 <= B - A ->
  exists lo hi, least (has_voltage (sample_on f (linspace a b points))) lo /\ greatest (has_voltage (sample_on f (linspace a b points))) hi /\
    A <= lo < A + (b - a) / 1000 /\ B - (b - a) / 1000 < hi <= B.
Proof.
  intros F K [(va & A1) A2] [(vb & B1) B2] AB LA LB FINE.
  set (s := sample_on f (linspace a b points)).
  assert (HV : forall x, has_voltage s x <-> In x (linspace a b points) /\ A <= x <= B).
  { intro x. unfold has_voltage. split.
    - intros (v & V). apply sample_in in V as [X V]. split; [exact X|].
      assert (N : f x <> None) by (rewrite <- V; discriminate). apply (sampled_range nothing l f a b F K x X) in N as (p & q & P & P' & L1 & L2).
      destruct p as [xp vp], q as [xq vq]. cbn [fst] in *. assert (A <= xp) by (apply A2; eauto). assert (xq <= B) by (apply B2; eauto). lra.
    - intros (X & L1 & L2). assert (N : f x <> None). { apply (sampled_range nothing l f a b F K x X). exists (A, va), (B, vb). cbn [fst]. auto. }
      destruct (f x) as [v|] eqn:E; [|destruct N; reflexivity]. exists v. apply sample_in. auto. }
  assert (AB' : A <= B) by (apply A2; eauto).
  destruct (grid_above a b A AB LA) as (x & X & X1 & X2); [lra|]. destruct (grid_below a b B AB) as (y & Y & Y1 & Y2); [lra|lra|].
  assert (HX : has_voltage s x) by (apply HV; split; [exact X|lra]). assert (HY : has_voltage s y) by (apply HV; split; [exact Y|lra]).
  pose proof (known_min_spec s) as MIN. destruct (known_min s) as [lo|]; [|destruct (MIN x HX)]. pose proof (known_max_spec s) as MAX. destruct (known_max s) as [hi|]; [|destruct (MAX x HX)].
  exists lo, hi. split; [exact MIN|]. split; [exact MAX|]. destruct MIN as [M1 M2], MAX as [N1 N2]. apply HV in M1 as [_ M1], N1 as [_ N1].
  specialize (M2 x HX). specialize (N2 y HY). lra.
Qed.
Lemma shift_voltage z l q : has_voltage (shift z l) q <-> exists q0, has_voltage l q0 /\ q = q0 - z.
Proof.
  unfold has_voltage, shift. split.
  - intros (v & V). apply in_map_iff in V as ((y & w) & E & H). cbn [fst snd] in E. injection E as <- ->. eauto.
  - intros (q0 & (v & V) & ->). exists v. apply in_map_iff. exists (q0, Some v). auto.
Qed.
Lemma least_unique P a b : least P a -> least P b -> a == b.
Proof. intros [A1 A2] [B1 B2]. specialize (A2 b B1). specialize (B2 a A1). lra. Qed.
Lemma greatest_unique P a b : greatest P a -> greatest P b -> a == b.
Proof. intros [A1 A2] [B1 B2]. specialize (A2 b B1). specialize (B2 a A1). lra. Qed.
Lemma rescale_known k d t p : In p (rescale k d t) -> snd p <> None.
Proof. intro H. apply rescale_in in H as (s & _ & ->). discriminate. Qed.

(** ** Rows of the tables *)
Lemma d_update_fst {A} (d : list (Z * A)) k v : map fst (d_update d k v) = if mem_z k (map fst d) then map fst d else map fst d ++ [k].
Proof.
  induction d as [|[k' v'] d IH]; [reflexivity|]. cbn [d_update map fst mem_z]. rewrite (Z.eqb_sym k k'). destruct (Z.eqb k' k); [reflexivity|].
  cbn [orb map fst]. rewrite IH. destruct (mem_z k (map fst d)); reflexivity.
Qed.
Lemma d_update_in {A} (d : list (Z * A)) k v k' v' : In (k', v') (d_update d k v) -> (k' = k /\ v' = v) \/ In (k', v') d.
Proof.
  induction d as [|[k0 v0] d IH]; cbn [d_update].
  - intros [E|[]]. injection E as <- <-. auto.
  - destruct (Z.eqb_spec k0 k) as [->|N]; intros [E|H].
    + injection E as <- <-. auto.
    + right. right. exact H.
    + right. left. exact E.
    + destruct (IH H) as [K|K]; [auto|]. right. right. exact K.
Qed.
Lemma rows_of_ok row cycles : forall d rows, rows_of row cycles d = Ok rows -> (forall c r, In (c, r) d -> row c = Ok r) -> forall c r, In (c, r) rows -> row c = Ok r.
Proof.
  induction cycles as [|c cycles IH]; intros d rows H D; cbn [rows_of] in H; [assert (d = rows) by congruence; subst; exact D|].
  inv H v V. apply (IH _ _ H). intros k r K. apply d_update_in in K as [[-> ->]|K]; [exact V|apply D, K].
Qed.
Definition add_new (l : list Z) (c : Z) : list Z := if mem_z c l then l else l ++ [c].
Lemma rows_of_fst row cycles : forall d rows, rows_of row cycles d = Ok rows -> map fst rows = fold_left add_new cycles (map fst d).
Proof.
  induction cycles as [|c cycles IH]; intros d rows H; cbn [rows_of fold_left] in *; [congruence|]. inv H v V. rewrite (IH _ _ H), d_update_fst. reflexivity.
Qed.
Lemma mem_z_in k l : mem_z k l = true <-> In k l.
Proof. induction l as [|y l IH]; cbn [mem_z In]; [split; [discriminate|tauto]|]. rewrite orb_true_iff, IH, Z.eqb_eq. split; intros [E|H]; auto. Qed.
Lemma add_new_spec cycles : forall l, NoDup l -> NoDup (fold_left add_new cycles l) /\ forall c, In c (fold_left add_new cycles l) <-> In c l \/ In c cycles.
Proof.
  induction cycles as [|c cycles IH]; intros l N; cbn [fold_left]; [split; [exact N|]; intro; cbn; tauto|].
  assert (N' : NoDup (add_new l c)). { unfold add_new. destruct (mem_z c l) eqn:M; [exact N|].
    apply NoDup_rev in N. rewrite <- (rev_involutive (l ++ [c])), rev_app_distr. apply NoDup_rev. cbn. constructor; [|exact N].
    rewrite <- in_rev. intro I. apply mem_z_in in I. congruence. }
  destruct (IH _ N') as [A B]. split; [exact A|]. intro k. rewrite B. unfold add_new. destruct (mem_z c l) eqn:M.
  - apply mem_z_in in M. cbn. split; [tauto|]. intros [|[<-|]]; auto.
  - rewrite in_app_iff. cbn. tauto.
Qed.
(** distinct cycles give one row each, in order *)
Lemma rows_of_distinct row cycles rows : NoDup cycles -> rows_of row cycles [] = Ok rows -> map fst rows = cycles.
Proof.
  intros N H. rewrite (rows_of_fst _ _ _ _ H). cbn [map].
  assert (G : forall l, NoDup (l ++ cycles) -> fold_left add_new cycles l = l ++ cycles); [|apply (G [] N)].
  clear. induction cycles as [|c cycles IH]; intros l N; cbn [fold_left]; [rewrite app_nil_r; reflexivity|].
  unfold add_new at 2. destruct (mem_z c l) eqn:M.
  - apply mem_z_in in M. apply NoDup_remove in N as [_ N]. destruct N. apply in_or_app. auto.
  - rewrite IH; rewrite <- app_assoc; [reflexivity|exact N].
Qed.
Lemma rows_of_total row cycles : (forall c, In c cycles -> exists r, row c = Ok r) -> forall d, exists rows, rows_of row cycles d = Ok rows.
Proof.
  induction cycles as [|c cycles IH]; intros T d; cbn [rows_of]; [eauto|]. destruct (T c) as (r & ->); [left; reflexivity|]. cbn [bind]. apply IH. intros; apply T; right; assumption.
Qed.
Lemma chosen_in t type summary c : In c (chosen_cycles t type summary) <-> usable type t summary c.
Proof.
  unfold chosen_cycles, usable. rewrite in_map_iff. split.
  - intros (d & E & H). apply filter_In in H as [I H]. apply andb_prop in H as [T H]. apply String.eqb_eq in T. destruct (d_dis d) as [q|] eqn:D; [|discriminate].
    exists d, q. apply Qlt_bool_iff in H. auto.
  - intros (d & q & I & T & C & D & L). exists d. split; [exact C|]. apply filter_In. split; [exact I|]. rewrite T, D, String.eqb_refl. apply Qlt_bool_iff in L. rewrite L. reflexivity.
Qed.

(** ** The error *)
Section Errors.
  Variable distance : list (Q * Q) -> list (Q * Q) -> (Q * Q) -> (Q * Q) -> Q.
  Lemma closest_spec xa xb p r : closest_of distance xa xb p = Ok r -> exists d, r = Some d /\ least (fun y => exists q, In q xb /\ y = distance xa xb p q) d.
  Proof.
    unfold closest_of. destruct xb as [|q xb]; [discriminate|]. intro H.
    pose proof (col_min_spec (map (fun q0 => Some (distance xa (q :: xb) p q0)) (q :: xb))) as M. assert (E : col_min (map (fun q0 => Some (distance xa (q :: xb) p q0)) (q :: xb)) = r) by congruence.
    rewrite E in M. assert (EX : forall y, In (Some y) (map (fun q0 => Some (distance xa (q :: xb) p q0)) (q :: xb)) <-> exists q0, In q0 (q :: xb) /\ y = distance xa (q :: xb) p q0).
    { intro y. rewrite in_map_iff. split; intros (q0 & A & B); exists q0; split; congruence. }
    destruct r as [d|].
    - exists d. split; [reflexivity|]. destruct M as [A B]. split; [apply EX, A|]. intros y Y. apply B, EX, Y.
    - destruct (M (distance xa (q :: xb) p q)). left. reflexivity.
  Qed.
  Lemma mean_distance_spec xa xb e : xa <> [] -> mean_distance distance xa xb = Ok e -> exists m, e = Some m /\ mean_nearest distance xa xb m.
  Proof.
    intros N H. unfold mean_distance in H. destruct xa as [|p0 ra]; [congruence|]. remember (p0 :: ra) as xa eqn:XA. clear XA. inv H ds DS.
    assert (F : exists qs, ds = map Some qs /\ Forall2 (fun p d => least (fun y => exists q, In q xb /\ y = distance xa xb p q) d) xa qs).
    { assert (G : forall l ds, mapM (closest_of distance xa xb) l = Ok ds -> exists qs, ds = map Some qs /\ Forall2 (fun p d => least (fun y => exists q, In q xb /\ y = distance xa xb p q) d) l qs).
      { clear DS H ds. induction l as [|p l IH]; intros ds DS; cbn [mapM] in DS; [injection DS as <-; exists []; split; [reflexivity|constructor]|].
        inv DS r R. inv DS rs RS. destruct (IH rs RS) as (qs & -> & F). destruct (closest_spec _ _ _ _ R) as (d & -> & L). injection DS as <-. exists (d :: qs). split; [reflexivity|]. constructor; assumption. }
      apply (G xa ds DS). }
    destruct F as (qs & -> & F). exists (qsum qs / inject_Z (Z.of_nat (length xa))).
    assert (L : length xa = length qs). { clear -F. induction F; cbn; congruence. }
    assert (D : dropna (map Some qs) = qs). { clear. induction qs as [|q qs IH]; [reflexivity|]. cbn. rewrite IH. reflexivity. }
    split.
    - unfold mean in H. rewrite D in H. destruct qs as [|q qs]; [destruct xa; [congruence|discriminate]|]. rewrite L. congruence.
    - exists qs. split; [exact F|reflexivity].
  Qed.
  Lemma qsum_bounds P ds : Forall (fun d => P <= d) ds -> P * inject_Z (Z.of_nat (length ds)) <= qsum ds.
  Proof.
    induction 1 as [|d ds D F IH]; [cbn; rewrite Qmult_0_r; apply Qle_refl|]. cbn [qsum length]. rewrite Nat2Z.inj_succ. unfold Z.succ. rewrite inject_Z_plus. change (inject_Z 1) with 1. lra.
  Qed.
  (** not negative; zero for identical points *)
  Lemma mean_nearest_nonneg xa xb m : (forall p q, 0 <= distance xa xb p q) -> xa <> [] -> mean_nearest distance xa xb m -> 0 <= m.
  Proof.
    intros P N (ds & F & ->). assert (K : 0 < inject_Z (Z.of_nat (length xa))). { change 0 with (inject_Z 0). rewrite <- Zlt_Qlt. destruct xa; [congruence|]. cbn. lia. }
    apply Qle_shift_div_l; [exact K|]. rewrite Qmult_0_l.
    assert (G : Forall (fun d => 0 <= d) ds). { clear -P F. induction F as [|p d l ds [(q & _ & ->) _] F IH]; constructor; [apply P|exact IH]. }
    apply qsum_bounds in G. lra.
  Qed.
  Lemma mean_nearest_zero xa xb m : (forall p q, 0 <= distance xa xb p q) -> (forall p, In p xa -> exists q, In q xb /\ distance xa xb p q == 0) -> mean_nearest distance xa xb m -> m == 0.
  Proof.
    intros P Z (ds & F & ->). assert (G : Forall (fun d => d == 0) ds).
    { assert (IMP : forall l ds, (forall p, In p l -> exists q, In q xb /\ distance xa xb p q == 0) -> Forall2 (fun p d => least (fun y => exists q, In q xb /\ y = distance xa xb p q) d) l ds -> Forall (fun d => d == 0) ds); [|apply (IMP xa ds Z F)].
      clear -P. intros l ds Z F. induction F as [|p d l ds [(q & _ & ->) L] F IH]; constructor.
      - destruct (Z p) as (q' & Q' & E); [left; reflexivity|]. assert (distance xa xb p q <= distance xa xb p q') by (apply L; eauto). specialize (P p q). lra.
      - apply IH. intros; apply Z; right; assumption. }
    assert (S0 : qsum ds == 0). { clear -G. induction G as [|d ds D G IH]; [reflexivity|]. cbn [qsum]. lra. }
    rewrite S0. unfold Qdiv. apply Qmult_0_l.
  Qed.
End Errors.

(** ** Sampling the samples again *)
Lemma sample_again nothing l f a b a' b' g : a < b -> interp1d nothing None None (sample_on f (linspace a b points)) = Ok g ->
  span nothing (sample_on f (linspace a b points)) = Ok (a', b') -> l = sample_on g (linspace a' b' points) ->
  Forall2 (fun p p' => fst p' == fst p /\ snd p' = snd p) (sample_on f (linspace a b points)) l.
Proof.
  intros AB G SP ->. destruct (span_spec _ _ _ _ SP) as ([(va & A1) A2] & [(vb & B1) B2]).
  apply sample_in in A1 as [A1 _], B1 as [B1 _].
  assert (EA : a' == a). { destruct (linspace_first a b points points_2) as (x & X & E). assert (a' <= x) by (apply A2; exists (f x); apply sample_in; auto).
    apply (linspace_range a b points _ points_2) in A1; [lra|lra]. }
  assert (EB : b' == b). { destruct (linspace_last a b points points_2) as (x & X & E). assert (x <= b') by (apply B2; exists (f x); apply sample_in; auto).
    apply (linspace_range a b points _ points_2) in B1; [lra|lra]. }
  assert (SV : single_valued (fun p => In p (sample_on f (linspace a b points)))).
  { intros (x, v) (y, w) P1 P2 E. cbn [fst snd] in *. apply sample_in in P1 as [X ->], P2 as [Y ->]. f_equal.
    apply In_nth_error in X as (i & X), Y as (j & Y).
    assert (LI : (i < points)%nat) by (rewrite <- (linspace_length a b points); apply nth_error_Some; congruence).
    assert (LJ : (j < points)%nat) by (rewrite <- (linspace_length a b points); apply nth_error_Some; congruence).
    rewrite linspace_nth in X, Y by (auto; apply points_2). injection X as <-. injection Y as <-.
    change (inject_Z (Z.of_nat (points - 1))) with 1000 in E. assert (K : inject_Z (Z.of_nat i) == inject_Z (Z.of_nat j)).
    { set (u := inject_Z (Z.of_nat i)) in *. set (w := inject_Z (Z.of_nat j)) in *. clearbody u w. assert (E' : a + u * ((b - a) / 1000) == a + w * ((b - a) / 1000)) by exact E. clear E. assert (D : 0 < (b - a) / 1000) by (apply Qlt_shift_div_l; lra). set (d := (b - a) / 1000) in *. clearbody d. apply (Qmult_inj_r u w d); lra. }
    apply (proj1 (inject_Z_injective _ _)) in K. apply Nat2Z.inj in K. subst j. reflexivity. }
  assert (MAIN : forall i, (i < points)%nat -> exists x x', nth_error (linspace a b points) i = Some x /\ nth_error (linspace a' b' points) i = Some x' /\ x' == x /\ g x' = f x).
  { intros i L. rewrite !linspace_nth by (auto; apply points_2). eexists. eexists. split; [reflexivity|]. split; [reflexivity|].
    assert (E : a' + inject_Z (Z.of_nat i) * ((b' - a') / inject_Z (Z.of_nat (points - 1))) == a + inject_Z (Z.of_nat i) * ((b - a) / inject_Z (Z.of_nat (points - 1)))) by (rewrite EA, EB; reflexivity).
    split; [exact E|]. set (x := a + _) in *. set (x' := a' + _) in *.
    assert (X : In x (linspace a b points)) by (apply nth_error_In with i; apply linspace_nth; [apply points_2|exact L]).
    apply (reads_at (fun p => In p (sample_on f (linspace a b points))) x' (g x') (x, f x) SV); [apply sample_in; auto|cbn [fst]; lra|apply (interp_reads nothing _ g x' G)]. }
  assert (ZIP : forall (l l' : list Q), length l = length l' -> (forall i, (i < length l)%nat -> exists x x', nth_error l i = Some x /\ nth_error l' i = Some x' /\ x' == x /\ g x' = f x) ->
    Forall2 (fun p p' => fst p' == fst p /\ snd p' = snd p) (sample_on f l) (sample_on g l')).
  { clear. induction l as [|x l IH]; intros [|x' l'] L H; cbn in L; try discriminate; cbn [sample_on map]; constructor.
    - destruct (H 0%nat) as (u & u' & A & B & C & D); [cbn; lia|]. injection A as <-. injection B as <-. split; assumption.
    - apply IH; [congruence|]. intros i I. apply (H (S i)). cbn. lia. }
  apply ZIP; [rewrite !linspace_length; reflexivity|]. rewrite linspace_length. exact MAIN.
Qed.

(** ** Blending *)
Lemma extrapolate_spec (s : curve) : forall x, StronglySorted (fun p q => fst p < fst q) s -> (2 <= length s)%nat -> (forall p, In p s -> snd p <> None) ->
  exists (p q : Q * num) a b y, In p s /\ In q s /\ fst p < fst q /\ (forall r, In r s -> fst r <= fst p \/ fst q <= fst r) /\
    (fst p <= x \/ forall r, In r s -> fst p <= fst r) /\ (x <= fst q \/ forall r, In r s -> fst r <= fst q) /\
    snd p = Some a /\ snd q = Some b /\ extrapolate s x = Some y /\ y == a + (b - a) * ((x - fst p) / (fst q - fst p)).
Proof.
  induction s as [|p s IH]; intros x SO L K; [cbn in L; lia|]. destruct s as [|q t]; [cbn in L; lia|].
  apply StronglySorted_inv in SO as [SO F]. assert (PQ : fst p < fst q) by (inversion F; assumption).
  assert (LINE : forall x, exists a b y, snd p = Some a /\ snd q = Some b /\ line p q x = Some y /\ y == a + (b - a) * ((x - fst p) / (fst q - fst p))).
  { intro z. pose proof (K p (or_introl eq_refl)) as KP. pose proof (K q (or_intror (or_introl eq_refl))) as KQ. unfold line.
    destruct (snd p) as [a|]; [|congruence]. destruct (snd q) as [b|]; [|congruence]. destruct (Qeq_bool (fst p) (fst q)) eqn:E; [apply Qeq_bool_iff in E; lra|].
    exists a, b. eexists. split; [reflexivity|]. split; [reflexivity|]. split; [reflexivity|]. field. lra. }
  assert (LO : forall r, In r (p :: q :: t) -> fst p <= fst r). { rewrite Forall_forall in F. intros r [<-|R]; [lra|]. apply Qlt_le_weak, F, R. }
  assert (HI : forall r, In r (q :: t) -> fst q <= fst r). { apply StronglySorted_inv in SO as [_ F2]. rewrite Forall_forall in F2. intros r [<-|R]; [lra|]. apply Qlt_le_weak, F2, R. }
  assert (GAP : forall r, In r (p :: q :: t) -> fst r <= fst p \/ fst q <= fst r). { intros r [<-|R]; [left; lra|right; apply HI, R]. }
  cbn [extrapolate]. destruct t as [|r t].
  - destruct (LINE x) as (a & b & y & A & B & Y & E). exists p, q, a, b, y. repeat split; auto; [left; reflexivity|right; left; reflexivity|].
    right. intros r [<-|[<-|[]]]; lra.
  - destruct (Qle_bool x (fst q)) eqn:X.
    + apply Qle_bool_iff in X. destruct (LINE x) as (a & b & y & A & B & Y & E). exists p, q, a, b, y. repeat split; auto; [left; reflexivity|right; left; reflexivity].
    + assert (X' : fst q < x) by (apply Qnot_le_lt; intro Z; apply Qle_bool_iff in Z; congruence).
      destruct (IH x SO) as (p' & q' & a & b & y & P & P' & LT & G & L1 & L2 & A & B & Y & E); [cbn; lia|intros; apply K; right; assumption|].
      exists p', q', a, b, y. split; [right; exact P|]. split; [right; exact P'|]. split; [exact LT|].
      assert (P0 : fst p <= fst p') by (apply LO; right; exact P). assert (P1 : fst p <= fst q') by (apply LO; right; exact P').
      split; [intros w [<-|W]; [left; exact P0|apply G, W]|]. split; [destruct L1 as [L1|L1]; [left; exact L1|left; specialize (L1 q (or_introl eq_refl)); lra]|].
      split; [destruct L2 as [L2|L2]; [left; exact L2|right; intros w [<-|W]; [lra|apply L2, W]]|]. auto.
Qed.
Lemma sorted_strict l : ForallOrdPairs (fun p q : Q * num => ~ fst p == fst q) l -> StronglySorted (fun p q => fst p < fst q) (sort_x l).
Proof.
  intro D. assert (D' : ForallOrdPairs (fun p q : Q * num => ~ fst p == fst q) (sort_x l)).
  { assert (G : forall l1 l2 : curve, Permutation l1 l2 -> ForallOrdPairs (fun p q : Q * num => ~ fst p == fst q) l1 -> ForallOrdPairs (fun p q : Q * num => ~ fst p == fst q) l2).
    { clear. induction 1 as [|a l1 l2 P IH|a b l1|l1 l2 l3 P1 IH1 P2 IH2]; intro H; auto.
      - inversion_clear H. constructor; [rewrite <- P; assumption|apply IH; assumption].
      - inversion_clear H as [|? ? F1 H']. inversion_clear H' as [|? ? F2 H]. inversion_clear F1 as [|? ? AB F1'].
        constructor; [constructor; [intro E; apply AB; symmetry; exact E|exact F2]|]. constructor; assumption. }
    apply (G l); [symmetry; apply sort_perm|exact D]. }
  pose proof (sort_sorted l) as SO. clear D. induction SO as [|p s SO IH F]; [constructor|]. inversion_clear D'. constructor; [apply IH; assumption|].
  rewrite Forall_forall in *. intros q QI. specialize (F q QI). specialize (H q QI). unfold below_x in F. lra.
Qed.
Lemma flip_in t p : In p (flip t) <-> exists s, In s t /\ p = (snd s, Some (fst s)).
Proof. unfold flip. rewrite in_map_iff. split; intros (s & A & B); exists s; auto. Qed.
Lemma flip_distinct t : distinct_voltages t -> ForallOrdPairs (fun p q : Q * num => ~ fst p == fst q) (flip t).
Proof.
  unfold distinct_voltages, flip. induction 1 as [|p t F D IH]; cbn [map]; constructor; [|exact IH]. rewrite Forall_forall in *. intros q QI.
  apply in_map_iff in QI as (r & <- & R). cbn [fst]. apply F, R.
Qed.
Lemma interp_follows nothing t f v : distinct_voltages t -> (2 <= length t)%nat -> interp1d_extrapolate nothing (flip t) = Ok f -> exists s, f v = Some s /\ follows t v s.
Proof.
  intros D L F. unfold interp1d_extrapolate in F. assert (E : f = extrapolate (sort_x (flip t))) by (destruct (flip t); congruence). subst f. clear F.
  destruct (extrapolate_spec (sort_x (flip t)) v (sorted_strict _ (flip_distinct _ D))) as (p & q & a & b & y & P & P' & LT & G & L1 & L2 & A & B & Y & E).
  - rewrite (Permutation_length (sort_perm (flip t))). unfold flip. rewrite map_length. exact L.
  - intros p P. apply sort_in, flip_in in P as (s & _ & ->). discriminate.
  - exists y. split; [exact Y|]. assert (IN : forall r, In r t -> In (snd r, Some (fst r)) (sort_x (flip t))) by (intros r R; apply sort_in, flip_in; eauto).
    apply sort_in, flip_in in P as (sp & SP & ->). apply sort_in, flip_in in P' as (sq & SQ & ->). cbn [fst snd] in *. injection A as <-. injection B as <-.
    exists sp, sq. repeat split; auto.
    + intros r R. apply (G _ (IN r R)).
    + destruct L1 as [L1|L1]; [left; exact L1|right; intros r R; apply (L1 _ (IN r R))].
    + destruct L2 as [L2|L2]; [left; exact L2|right; intros r R; apply (L2 _ (IN r R))].
Qed.
Lemma blend_points_spec nothing t1 t2 x l : distinct_voltages t1 -> distinct_voltages t2 -> (2 <= length t1)%nat -> (2 <= length t2)%nat -> blend_points nothing t1 t2 x = Ok l ->
  exists lo hi, least (fun v => exists p, In p (t1 ++ t2) /\ v = snd p) lo /\ greatest (fun v => exists p, In p (t1 ++ t2) /\ v = snd p) hi /\
  exists vs, evenly lo hi points vs /\ Forall2 (fun v p => snd p = Some v /\ blended t1 t2 x v (fst p)) vs l.
Proof.
  intros D1 D2 L1 L2 H. unfold blend_points in H. inv H f1 F1. inv H f2 F2. inv H ab1 S1. destruct ab1 as [a1 b1]. inv H ab2 S2. destruct ab2 as [a2 b2].
  match type of H with Ok ?r = _ => assert (EL : l = r) by congruence end. clear H.
  destruct (span_spec _ _ _ _ S1) as [[(u1 & A1) A1'] [(w1 & B1) B1']]. destruct (span_spec _ _ _ _ S2) as [[(u2 & A2) A2'] [(w2 & B2) B2']].
  assert (IN : forall t y w, In (y, w) (flip t) -> exists p, In p t /\ y = snd p). { intros t y w W. apply flip_in in W as (s & SI & E). exists s. split; [exact SI|congruence]. }
  assert (IN' : forall t p, In p t -> exists w, In (snd p, w) (flip t)). { intros t p P. exists (Some (fst p)). apply flip_in. eauto. }
  exists (min_q a1 a2), (max_q b1 b2). split; [|split].
  - destruct (min_q_spec a1 a2) as (M & M1 & M2). split.
    + destruct M as [-> | ->]; [destruct (IN _ _ _ A1) as (p & P & E)|destruct (IN _ _ _ A2) as (p & P & E)]; exists p; split; auto; apply in_or_app; auto.
    + intros y (p & P & ->). apply in_app_or in P as [P|P]; [specialize (A1' _ (IN' _ _ P))|specialize (A2' _ (IN' _ _ P))]; lra.
  - destruct (max_q_spec b1 b2) as (M & M1 & M2). split.
    + destruct M as [-> | ->]; [destruct (IN _ _ _ B1) as (p & P & E)|destruct (IN _ _ _ B2) as (p & P & E)]; exists p; split; auto; apply in_or_app; auto.
    + intros y (p & P & ->). apply in_app_or in P as [P|P]; [specialize (B1' _ (IN' _ _ P))|specialize (B2' _ (IN' _ _ P))]; lra.
  - exists (linspace (min_q a1 a2) (max_q b1 b2) points). split; [apply linspace_evenly, points_2|]. subst l.
    generalize (linspace (min_q a1 a2) (max_q b1 b2) points). induction l as [|v l IH]; [constructor|]. cbn [flat_map].
    destruct (interp_follows _ _ _ v D1 L1 F1) as (s1 & E1 & W1). destruct (interp_follows _ _ _ v D2 L2 F2) as (s2 & E2 & W2). rewrite E1, E2. cbn [nscale nadd app].
    constructor; [|exact IH]. split; [reflexivity|]. exists s1, s2. cbn [fst]. split; [exact W1|]. split; [exact W2|reflexivity].
Qed.
Lemma respan_spec nothing l t : respan nothing l = Ok t -> exists (c : curve) lo hi,
  (exists full, evenly 0 100 points (map fst full) /\ (forall q v, In (q, v) full -> reads (fun p => In p l) q v) /\ c = known_part full) /\
  least (has_voltage c) lo /\ greatest (has_voltage c) hi /\ 0 <= lo /\ lo <= hi /\ 0 < hi <= 100 /\
  evenly (lo / hi * 100) 100 points (map fst t) /\
  forall s v, In (s, v) t -> inside (fun p => In p c) (s * hi / 100) (Some v).
Proof.
  intro H. unfold respan in H. inv H f F. set (c := known_part (sample_on f (linspace 0 100 points))) in *. inv H g G. inv H ab SP. destruct ab as [a b].
  destruct (Qeq_bool b 0) eqn:B0; [discriminate|]. assert (NZ : ~ b == 0) by (intro K; apply Qeq_bool_iff in K; congruence).
  destruct (span_spec _ _ _ _ SP) as [[(u & A1) A2] [(w & B1) B2]].
  assert (CK : forall q, (exists v, In (q, v) c) <-> has_voltage c q).
  { intro q. split; [|intros (v & V); eauto]. intros (v & V). pose proof (known_points _ _ V) as N. cbn [snd] in N. destruct v as [v|]; [exists v; exact V|congruence]. }
  assert (RG : forall q v, In (q, v) c -> 0 <= q <= 100).
  { intros q v V. apply known_in in V as [V _]. apply sample_in in V as [V _]. apply (linspace_range 0 100 points q points_2); [lra|exact V]. }
  assert (AB : a <= b) by (apply A2; eauto). pose proof (RG _ _ A1) as RA. pose proof (RG _ _ B1) as RB.
  exists c, a, b. split; [|split; [|split; [|split; [|split; [|split; [|split]]]]]].
  - exists (sample_on f (linspace 0 100 points)). split; [rewrite sample_fst; apply linspace_evenly, points_2|]. split; [|reflexivity].
    intros q v V. apply sample_in in V as [_ ->]. apply (interp_reads _ _ _ q F).
  - split; [apply CK; eauto|]. intros q Q. apply A2, CK, Q.
  - split; [apply CK; eauto|]. intros q Q. apply B2, CK, Q.
  - lra.
  - exact AB.
  - split; [lra|]. lra.
  - assert (E : map fst t = map (fun s => s / b * 100) (linspace a b points)).
    { clear -H. revert t H. induction (linspace a b points) as [|s l IH]; intros t H; cbn [mapM] in H; [injection H as <-; reflexivity|].
      inv H r R. inv H rs RS. injection H as <-. cbn [map]. rewrite (IH _ RS). destruct (g s); [injection R as <-; reflexivity|discriminate]. }
    rewrite E. split; [rewrite map_length; apply linspace_length|]. intros i y Y. rewrite nth_error_map in Y. destruct (nth_error (linspace a b points) i) as [s|] eqn:N; [|discriminate].
    injection Y as <-. destruct (linspace_evenly a b points points_2) as [_ EV]. rewrite (EV _ _ N). change (inject_Z (Z.of_nat (points - 1))) with 1000. field. lra.
  - intros s v I. apply In_nth_error in I as (i & I). assert (M : exists y, In y (linspace a b points) /\ s = y / b * 100 /\ g y = Some v).
    { clear -H I. revert t H i I. induction (linspace a b points) as [|y l IH]; intros t H i I; cbn [mapM] in H; [injection H as <-; destruct i; discriminate|].
      inv H r R. inv H rs RS. injection H as <-. destruct i as [|i]; cbn in I.
      - injection I as ->. exists y. destruct (g y) eqn:GY; [|discriminate]. assert (s = y / b * 100 /\ q = v) as [-> ->] by (split; congruence). split; [left; reflexivity|auto].
      - destruct (IH _ RS _ I) as (y' & Y & Z). exists y'. split; [right; exact Y|exact Z]. }
    destruct M as (y & Y & -> & GY). pose proof (sampled_inside _ _ _ _ _ y G SP Y) as IS. rewrite GY in IS.
    assert (E : y / b * 100 * b / 100 == y) by (field; lra).
    destruct IS as [(p & P & E1 & E2)|(p & q & P & P' & L1 & L2 & GAP & ST)].
    + left. exists p. split; [exact P|]. split; [lra|exact E2].
    + right. exists p, q. split; [exact P|]. split; [exact P'|]. split; [lra|]. split; [lra|]. split; [exact GAP|].
      unfold straight in *. destruct (snd p) as [va|]; [|exact ST]. destruct (snd q) as [vb|]; [|exact ST]. destruct ST as (z & Z & EZ). exists z. split; [exact Z|]. rewrite E. exact EZ.
Qed.
(** equal abscissas read the same *)
Lemma reads_ext S x y v : x == y -> reads S y v -> reads S x v.
Proof.
  intros E [[(p & P & E1 & E2)|(p & q & P & P' & L1 & L2 & GAP & ST)]|[[O|O] N]].
  - left. left. exists p. split; [exact P|]. split; [lra|exact E2].
  - left. right. exists p, q. split; [exact P|]. split; [exact P'|]. split; [lra|]. split; [lra|]. split; [exact GAP|].
    unfold straight in *. destruct (snd p) as [va|]; [|exact ST]. destruct (snd q) as [vb|]; [|exact ST]. destruct ST as (z & Z & EZ). exists z. split; [exact Z|]. rewrite E. exact EZ.
  - right. split; [left; intros p P; specialize (O p P); lra|exact N].
  - right. split; [right; intros p P; specialize (O p P); lra|exact N].
Qed.
Lemma respan_total nothing (l : curve) p q s : In p l -> In q l -> (forall r, In r l -> snd r <> None) -> fst p <= s <= fst q -> In s (linspace 0 100 points) -> 0 < s -> exists t, respan nothing l = Ok t.
Proof.
  intros P P' K B S0 S1. unfold respan. destruct (interp1d_total nothing None None l) as (f & F); [intro E; rewrite E in P; destruct P|]. rewrite F. cbn [bind].
  set (part := known_part (sample_on f (linspace 0 100 points))).
  assert (HV : f s <> None) by (apply (sampled_range _ _ _ 0 100 F K s S0); eauto). destruct (f s) as [y|] eqn:FS; [|congruence].
  assert (I : In (s, Some y) part) by (apply known_in; split; [apply sample_in; auto|discriminate]).
  destruct (interp1d_total nothing None None part) as (g & G); [intro E; rewrite E in I; destruct I|]. rewrite G. cbn [bind].
  destruct (span_total nothing part) as (a & b & SP); [intro E; rewrite E in I; destruct I|]. rewrite SP. cbn [bind].
  destruct (span_spec _ _ _ _ SP) as [_ [_ GB]]. assert (s <= b) by (apply GB; eauto). destruct (Qeq_bool b 0) eqn:Z; [apply Qeq_bool_iff in Z; lra|].
  assert (KN : forall x, In x (linspace a b points) -> g x <> None).
  { intros x X. apply (inside_known _ _ _ (known_points (sample_on f (linspace 0 100 points))) (sampled_inside _ _ _ _ _ x G SP X)). }
  induction (linspace a b points) as [|x xs IH]; [exists []; reflexivity|]. cbn [mapM]. specialize (KN x (or_introl eq_refl)) as KX. destruct (g x); [|congruence]. cbn [bind].
  destruct IH as (t & ->); [intros; apply KN; right; assumption|]. cbn [bind]. eauto.
Qed.
Lemma info_total pe ne i q a b : electrodes_at pe ne i q a b -> exists info, electrode_info pe ne = Ok info.
Proof.
  intro EL. assert (N : nth_error (map snd (cell_curve pe ne)) i = Some (Some (a - b))) by (apply cell_nth; exists q, a, b; auto).
  assert (LOOK : forall V, exists j p p', nearest V (map snd (cell_curve pe ne)) = Ok j /\ nth_error pe j = Some p /\ nth_error ne j = Some p').
  { intro V. destruct (nearest_ok V _ _ _ N) as (j & J). destruct (nearest_spec _ _ _ J) as (x & X & _). apply cell_nth in X as (qj & aj & bj & (E1 & q' & E2) & _). eauto 7. }
  assert (VC : forall prefix el, (el = pe \/ el = ne) -> exists r, voltage_columns prefix el (cell_curve pe ne) = Ok r).
  { intros prefix el E. unfold voltage_columns. induction voltages as [|n l (r & IH)]; [exists []; reflexivity|]. cbn [mapM]. destruct (LOOK (snd n)) as (j & p & p' & -> & J1 & J2). cbn [bind].
    unfold row_at at 1. assert (exists w, nth_error el j = Some w) as (w & ->) by (destruct E as [-> | ->]; eauto). cbn [bind]. rewrite IH. cbn [bind]. eauto. }
  assert (SC : forall prefix el, (el = pe \/ el = ne) -> exists r, soc_columns prefix el (cell_curve pe ne) = Ok r).
  { intros prefix el E. unfold soc_columns. induction voltages as [|n l (r & IH)]; [exists []; reflexivity|]. cbn [mapM]. destruct (LOOK (snd n)) as (j & p & p' & -> & J1 & J2). cbn [bind].
    unfold row_at at 1. assert (exists w, nth_error el j = Some w) as (w & ->) by (destruct E as [-> | ->]; eauto). cbn [bind]. rewrite IH. cbn [bind]. eauto. }
  unfold electrode_info. destruct (VC "pe"%string pe (or_introl eq_refl)) as (r1 & ->). cbn [bind]. destruct (SC "pe"%string pe (or_introl eq_refl)) as (r2 & ->). cbn [bind].
  destruct (VC "ne"%string ne (or_intror eq_refl)) as (r3 & ->). cbn [bind]. destruct (SC "ne"%string ne (or_intror eq_refl)) as (r4 & ->). cbn [bind].
  destruct (nearest_ok (42 # 10) _ _ _ N) as (j & J). rewrite J. cbn [bind]. destruct (nearest_spec _ _ _ J) as (x & X & _). rewrite nth_error_map in X. unfold row_at.
  destruct (nth_error (cell_curve pe ne) j) as [p|]; [|discriminate]. cbn [bind]. eauto.
Qed.
