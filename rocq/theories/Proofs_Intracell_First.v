(** Proofs about the first version of the half-cell fit. *)
From Coq Require Import Sorting.Sorted Sorting.Permutation Psatz Lqa.
From Verif Require Import Py Num Model_Text Model_Diagnostic Model_Interp Model_Degrade Model_Lookup Model_Hppc Model_Intracell Spec_Intracell
  Proofs_Interp Proofs_Intracell Model_Intracell_First Spec_Intracell_First.
From Verif Require Proofs_Hppc.

(** ** Curves with another abscissa *)
Definition mapped (phi : Q -> Q) (l : curve) : curve := map (fun p => (phi (fst p), snd p)) l.
Lemma mapped_in phi l p : In p (mapped phi l) <-> exists q, In q l /\ p = (phi (fst q), snd q).
Proof. unfold mapped. rewrite in_map_iff. split; intros (q & A & B); exists q; auto. Qed.
Lemma reads_mapped phi k d l y v : 0 < k -> (forall x, phi x == x * k + d) ->
  reads (fun p => In p (mapped phi l)) y v -> reads (fun p => In p l) ((y - d) / k) v.
Proof.
  intros K PHI R. set (u := (y - d) / k). assert (X : y == u * k + d) by (subst u; field; lra). clearbody u.
  assert (M : forall a, phi a < y <-> a < u). { intro a. rewrite (PHI a), X. split; intro; [apply Qnot_le_lt; intro|]; nra. }
  assert (M' : forall a, y < phi a <-> u < a). { intro a. rewrite (PHI a), X. split; intro; [apply Qnot_le_lt; intro|]; nra. }
  assert (ME : forall a, phi a == y <-> a == u).
  { intro a. split; intro H; [|rewrite (PHI a), H, X; reflexivity]. destruct (Q_dec a u) as [[L|L]|L]; [apply M in L; lra|apply M' in L; lra|exact L]. }
  assert (BWD : forall q, In q l -> In (phi (fst q), snd q) (mapped phi l)) by (intros; apply mapped_in; eauto).
  destruct R as [[(p & P & E & ->)|(p & q & P & P' & L1 & L2 & G & ST)]|[O ->]].
  - apply mapped_in in P as (s & S & ->). cbn [fst snd] in *. left. left. exists s. split; [exact S|]. split; [apply ME, E|reflexivity].
  - apply mapped_in in P as (s & S & ->). apply mapped_in in P' as (s' & S' & ->). cbn [fst snd] in *. left. right.
    exists s, s'. apply M in L1. apply M' in L2. split; [exact S|]. split; [exact S'|]. split; [exact L1|]. split; [exact L2|]. split.
    + intros r R. specialize (G _ (BWD r R)). cbn [fst] in G. rewrite (PHI (fst r)), (PHI (fst s)), (PHI (fst s')) in G.
      destruct G as [G|G]; [left|right]; apply Qnot_lt_le; intro; nra.
    + unfold straight in *. cbn [fst snd] in *. destruct (snd s) as [va|]; [|exact ST]. destruct (snd s') as [vb|]; [|exact ST].
      destruct ST as (z & -> & Z). exists z. split; [reflexivity|]. rewrite Z, X, (PHI (fst s)), (PHI (fst s')). field. assert (fst s < fst s') by lra.
      repeat split; try lra; intro Z0; nra.
  - right. split; [|reflexivity]. destruct O as [O|O]; [left|right]; intros p P; specialize (O _ (BWD p P)); cbn [fst] in O; [apply M|apply M']; exact O.
Qed.
Lemma inside_mapped phi k d l y v : 0 < k -> (forall x, phi x == x * k + d) ->
  inside (fun p => In p (mapped phi l)) y v -> inside (fun p => In p l) ((y - d) / k) v.
Proof.
  intros K PHI N. destruct (reads_mapped phi k d l y v K PHI (or_introl N)) as [H|[O _]]; [exact H|exfalso].
  set (u := (y - d) / k) in *. assert (X : y == u * k + d) by (subst u; field; lra). clearbody u.
  destruct N as [(p & P & E & _)|(p & q & P & P' & L1 & L2 & _)].
  - apply mapped_in in P as (s & S & ->). cbn [fst] in E. rewrite (PHI (fst s)), X in E. destruct O as [O|O]; specialize (O s S); nra.
  - apply mapped_in in P as (s & S & ->). apply mapped_in in P' as (s' & S' & ->). cbn [fst] in L1, L2. rewrite (PHI _), X in L1. rewrite (PHI _), X in L2.
    destruct O as [O|O]; [specialize (O s' S')|specialize (O s S)]; nra.
Qed.
Lemma inside_ext S x y v : x == y -> inside S y v -> inside S x v.
Proof.
  intros E H. destruct (reads_ext S x y v E (or_introl H)) as [K|[O _]]; [exact K|exfalso].
  destruct H as [(p & P & E' & _)|(p & q & P & P' & L1 & L2 & _)].
  - destruct O as [O|O]; specialize (O p P); lra.
  - destruct O as [O|O]; [specialize (O q P')|specialize (O p P)]; lra.
Qed.
Lemma shift_mapped z l : shift z l = mapped (fun x => x - z) l. Proof. reflexivity. Qed.
Lemma affine_mapped k d l : affine k d l = mapped (fun x => x * k + d) l. Proof. reflexivity. Qed.
Lemma by_soc_mapped lo hi l : by_soc lo hi l = mapped (soc lo hi) l. Proof. reflexivity. Qed.
Lemma percent_mapped m l : percent_of m l = mapped (fun x => x / m * 100) l. Proof. reflexivity. Qed.

(** ** The fresh cell *)
Lemma initial_cycle_spec type summary c : initial_cycle type summary = Ok c <-> first_diagnostic type summary c.
Proof.
  unfold initial_cycle, first_diagnostic. induction summary as [|d l IH]; cbn [filter].
  - split; [discriminate|]. intros (before & d & after & E & _). destruct before; discriminate.
  - destruct (String.eqb_spec (d_type d) type) as [T|T].
    + split.
      * intro H. injection H as H. exists [], d, l. repeat split; auto. all: try (intros ? []).
      * intros (before & d' & after & E & T' & C & N). destruct before as [|b before]; cbn [app] in E.
        -- injection E as -> ->. congruence.
        -- injection E as -> ->. destruct (N b (or_introl eq_refl) T).
    + rewrite IH. split; intros (before & d' & after & E & T' & C & N).
      * exists (d :: before), d', after. rewrite E. repeat split; auto. intros x [<-|X]; [exact T|exact (N x X)].
      * destruct before as [|b before]; cbn [app] in E.
        -- injection E as -> ->. contradiction.
        -- injection E as -> ->. exists before, d', after. repeat split; auto. intros x X. apply N. right. exact X.
Qed.
Lemma initial_cycle_none type summary : (forall d, In d summary -> d_type d <> type) -> initial_cycle type summary = Err IndexError.
Proof.
  intro N. unfold initial_cycle. replace (filter (fun d => String.eqb (d_type d) type) summary) with (@nil drow); [reflexivity|].
  symmetry. induction summary as [|d l IH]; [reflexivity|]. cbn [filter]. destruct (String.eqb_spec (d_type d) type) as [T|T].
  - destruct (N d (or_introl eq_refl) T).
  - apply IH. intros x X. apply N. right. exact X.
Qed.
Lemma initial_rows_in type data c r : In r (initial_rows type data c) <->
  In r data /\ i_type r = type /\ i_cycle r = c /\ i_step r = 0%Z /\ exists v, i_voltage r = Some v /\ 27 # 10 < v /\ v < 42 # 10.
Proof.
  unfold initial_rows. rewrite filter_In, !andb_true_iff, String.eqb_eq, !Z.eqb_eq. unfold strictly_within, upper, lower. split.
  - intros (I & ((T & C) & S) & W). destruct (i_voltage r) as [v|]; [|discriminate]. apply andb_true_iff in W as (U & L). apply Qlt_bool_iff in U, L.
    repeat split; auto. exists v. auto.
  - intros (I & T & C & S & v & -> & L & U). repeat split; auto. apply andb_true_iff. split; apply Qlt_bool_iff; assumption.
Qed.
Lemma mapM_capacity rows l : mapM capacity_point rows = Ok l -> forall p, In p l <-> exists r, In r rows /\ i_qc r = Some (fst p) /\ i_voltage r = snd p.
Proof.
  revert l. induction rows as [|r rows IH]; intros l H; cbn [mapM] in H.
  - injection H as <-. intro p. split; [intros []|intros (? & [] & _)].
  - inv H q E. inv H l' E'. injection H as <-. specialize (IH l' E'). intro p. cbn [In]. rewrite IH.
    unfold capacity_point in E. destruct (i_qc r) as [c|] eqn:C; [|discriminate]. injection E as <-. split.
    + intros [<-|(r' & A & B)]; [exists r; cbn [fst snd]; auto|exists r'; tauto].
    + intros (r' & [<-|A] & B & D); [left; destruct p; cbn [fst snd] in *; congruence|right; eauto].
Qed.
Lemma soc_affine lo hi q : ~ lo == hi -> soc lo hi q == q * (100 / (hi - lo)) + - (lo * 100 / (hi - lo)).
Proof. intro N. unfold soc. field. intro. apply N. lra. Qed.
Lemma soc_reading lo hi l y v : lo < hi -> inside (fun p => In p (by_soc lo hi l)) y v -> inside (fun p => In p l) (capacity_at lo hi y) v.
Proof.
  intros L H. rewrite by_soc_mapped in H.
  apply (inside_mapped (soc lo hi) (100 / (hi - lo)) (- (lo * 100 / (hi - lo)))) in H.
  - eapply inside_ext; [|exact H]. unfold capacity_at. field. repeat split; lra.
  - apply Qlt_shift_div_l; lra.
  - intro x. apply soc_affine. lra.
Qed.
Lemma measured_points type data c l : mapM capacity_point (initial_rows type data c) = Ok l -> forall p, In p l <-> measured data type c p.
Proof.
  intros H p. rewrite (mapM_capacity _ _ H p). unfold measured. split.
  - intros (r & I & C & V). apply initial_rows_in in I as (D & T & Y & S & v & V' & L & U). exists r, v. rewrite V in V'. rewrite V, V'. tauto.
  - intros (r & v & D & T & Y & S & C & V & L & U & P). exists r. split; [|split; [exact C|congruence]]. apply initial_rows_in. repeat split; auto. eauto.
Qed.
Lemma initial_inv nothing type summary data l lo hi : initial_profile nothing type summary data = Ok (l, (lo, hi)) -> exists c pts f,
  first_diagnostic type summary c /\ (forall p, In p pts <-> measured data type c p) /\ span nothing pts = Ok (lo, hi) /\ lo < hi /\
  interp1d nothing None None (by_soc lo hi pts) = Ok f /\ l = sample_on f (linspace 0 100 points).
Proof.
  unfold initial_profile. intro H. inv H c C. inv H pts P. inv H ab SP. destruct ab as [a b].
  destruct (Qeq_bool a b) eqn:E; [discriminate|]. inv H f F. assert (E1 : l = sample_on f (linspace 0 100 points)) by congruence.
  assert (E2 : lo = a) by congruence. assert (E3 : hi = b) by congruence. subst lo hi.
  exists c, pts, f. split; [apply initial_cycle_spec, C|]. split; [apply (measured_points _ _ _ _ P)|]. split; [exact SP|]. split; [|auto].
  destruct (span_spec _ _ _ _ SP) as ((A & _) & (_ & B)). specialize (B a A).
  destruct (Qlt_le_dec a b) as [L|L]; [exact L|]. assert (EQ : a == b) by lra. apply Qeq_bool_iff in EQ. congruence.
Qed.
Lemma soc_in lo hi l p : In p l -> In (soc lo hi (fst p), snd p) (by_soc lo hi l).
Proof. intro I. rewrite by_soc_mapped. apply mapped_in. eauto. Qed.
Lemma soc_le lo hi a s : lo < hi -> (soc lo hi a <= s <-> a <= capacity_at lo hi s).
Proof.
  intro L. unfold soc, capacity_at. set (w := hi - lo). assert (W : 0 < w) by (subst w; lra). set (u := (a - lo) / w).
  assert (U : a == lo + u * w) by (subst u; field; lra). clearbody u w. rewrite U. unfold Qdiv. change (/ 100) with (1 # 100). split; intro; nra.
Qed.
Lemma soc_ge lo hi a s : lo < hi -> (s <= soc lo hi a <-> capacity_at lo hi s <= a).
Proof.
  intro L. unfold soc, capacity_at. set (w := hi - lo). assert (W : 0 < w) by (subst w; lra). set (u := (a - lo) / w).
  assert (U : a == lo + u * w) by (subst u; field; lra). clearbody u w. rewrite U. unfold Qdiv. change (/ 100) with (1 # 100). split; intro; nra.
Qed.
Lemma span_measured nothing pts data type c lo hi : (forall p, In p pts <-> measured data type c p) -> span nothing pts = Ok (lo, hi) -> lo < hi -> capacity_limits data type c lo hi.
Proof.
  intros P S L. destruct (span_spec _ _ _ _ S) as (((v & A1) & A2) & ((w & B1) & B2)). split; [|split; [|exact L]].
  - split; [exists v; apply P, A1|]. intros x (u & X). apply A2. exists u. apply P, X.
  - split; [exists w; apply P, B1|]. intros x (u & X). apply B2. exists u. apply P, X.
Qed.
Lemma initial_reads nothing pts data type c lo hi f s : (forall p, In p pts <-> measured data type c p) -> capacity_limits data type c lo hi ->
  interp1d nothing None None (by_soc lo hi pts) = Ok f -> 0 <= s <= 100 -> inside (measured data type c) (capacity_at lo hi s) (f s).
Proof.
  intros P ((( v & A) & _) & ((w & B) & _) & L) F R. apply P in A, B.
  destruct (interp1d_reads _ _ _ _ _ F) as (_ & X). destruct (X s) as [(_ & N)|[(N & _)|(N & _)]].
  - apply (soc_reading lo hi pts s (f s) L) in N. eapply inside_iff; [|exact N]. intro; apply P.
  - specialize (N _ (soc_in lo hi pts _ A)). cbn [fst] in N. assert (Z0 : soc lo hi lo == 0) by (unfold soc; field; lra). lra.
  - specialize (N _ (soc_in lo hi pts _ B)). cbn [fst] in N. assert (Z0 : soc lo hi hi == 100) by (unfold soc; field; lra). lra.
Qed.
Lemma initial_spec nothing type summary data l lo hi : initial_profile nothing type summary data = Ok (l, (lo, hi)) -> exists c,
  first_diagnostic type summary c /\ capacity_limits data type c lo hi /\ evenly 0 100 points (map fst l) /\
  forall s v, In (s, v) l -> inside (measured data type c) (capacity_at lo hi s) v.
Proof.
  intro H. destruct (initial_inv _ _ _ _ _ _ _ H) as (c & pts & f & C & P & SP & L & F & ->). exists c. split; [exact C|].
  pose proof (span_measured _ _ _ _ _ _ _ P SP L) as CL. split; [exact CL|]. split.
  - unfold sample_on. rewrite map_map. cbn [fst]. rewrite map_id. apply linspace_evenly, points_2.
  - intros s v I. apply sample_in in I as (G & ->). eapply initial_reads; eauto. apply (linspace_range 0 100 points); [apply points_2|lra|exact G].
Qed.
Lemma measured_known data type c p : measured data type c p -> snd p <> None.
Proof. intros (r & v & _ & _ & _ & _ & _ & _ & _ & _ & E). congruence. Qed.
Lemma initial_total nothing type summary data c p q : first_diagnostic type summary c -> capacities_known data type c ->
  measured data type c p -> measured data type c q -> fst p < fst q -> exists l lo hi, initial_profile nothing type summary data = Ok (l, (lo, hi)).
Proof.
  intros C K P P' L. unfold initial_profile. rewrite (proj2 (initial_cycle_spec _ _ _) C). cbn [bind].
  assert (T : exists pts, mapM capacity_point (initial_rows type data c) = Ok pts).
  { assert (A : forall r, In r (initial_rows type data c) -> i_qc r <> None).
    { intros r R. apply initial_rows_in in R as (D & T & Y & Z0 & v & V & U1 & U2). exact (K r v D T Y Z0 V U1 U2). }
    induction (initial_rows type data c) as [|r rows IH]; [exists []; reflexivity|]. destruct IH as (pts & E); [intros; apply A; right; assumption|].
    cbn [mapM]. unfold capacity_point at 1. destruct (i_qc r) as [x|] eqn:X; [|destruct (A r (or_introl eq_refl) X)]. cbn [bind]. rewrite E. cbn [bind]. eauto. }
  destruct T as (pts & T). rewrite T. cbn [bind]. pose proof (measured_points _ _ _ _ T) as M. apply M in P, P'.
  destruct (span_total nothing pts) as (a & b & SP); [intro E; rewrite E in P; destruct P|]. rewrite SP. cbn [bind].
  destruct (span_spec _ _ _ _ SP) as ((_ & A) & (_ & B)). assert (a <= fst p) by (apply A; exists (snd p); rewrite <- surjective_pairing; exact P).
  assert (fst q <= b) by (apply B; exists (snd q); rewrite <- surjective_pairing; exact P').
  destruct (Qeq_bool a b) eqn:E; [apply Qeq_bool_iff in E; lra|].
  destruct (interp1d_total nothing None None (by_soc a b pts)) as (f & F); [rewrite by_soc_mapped; destruct pts; [destruct P|discriminate]|].
  rewrite F. cbn [bind]. eauto.
Qed.

(** ** The aged cell *)
Lemma initial_top nothing type summary data l lo hi a top : initial_profile nothing type summary data = Ok (l, (lo, hi)) -> span nothing (known_part l) = Ok (a, top) -> top == 100.
Proof.
  intros H SP. destruct (initial_inv _ _ _ _ _ _ _ H) as (c & pts & f & C & P & SP' & L & F & ->).
  pose proof (span_measured _ _ _ _ _ _ _ P SP' L) as CL. destruct (span_spec _ _ _ _ SP) as (_ & ((v & B1) & B2)).
  apply known_in in B1 as (B1 & _). apply sample_in in B1 as (B1 & _). pose proof (linspace_range 0 100 points top points_2 ltac:(lra) B1).
  destruct (linspace_last 0 100 points points_2) as (x & X & X').
  assert (x <= top); [|lra]. apply B2. exists (f x). apply known_in. split; [apply sample_in; auto|]. cbn [snd].
  eapply inside_known; [|eapply (initial_reads nothing pts data type c lo hi f x); eauto; lra]. apply measured_known.
Qed.
Lemma aged_spec nothing type summary data0 data cycle l lo hi l' : initial_profile nothing type summary data0 = Ok (l, (lo, hi)) -> aged_profile nothing type (l, (lo, hi)) data cycle = Ok l' ->
  exists top, greatest (fun q => exists v, charged data type cycle (q, v)) top /\ evenly 0 (100 * (top - lo) / (hi - lo)) points (map fst l') /\
  forall s v, In (s, v) l' ->
    ((exists p q, charged data type cycle p /\ charged data type cycle q /\ fst p <= capacity_at lo hi s <= fst q) -> inside (charged data type cycle) (capacity_at lo hi s) v) /\
    ((forall p, charged data type cycle p -> capacity_at lo hi s < fst p) -> v = Some (27 # 10)) /\
    ((forall p, charged data type cycle p -> fst p < capacity_at lo hi s) -> v = Some (42 # 10)).
Proof.
  intros H0 H. unfold aged_profile in H. inv H f F. inv H ab SP. destruct ab as [a b]. inv H at' SP'. destruct at' as [a' top0].
  destruct (Qeq_bool top0 0); [discriminate|]. assert (E : l' = map (fun s => (s / top0 * 100, f s)) (linspace 0 b points)) by congruence. clear H.
  pose proof (initial_top _ _ _ _ _ _ _ _ _ H0 SP') as T0. destruct (initial_inv _ _ _ _ _ _ _ H0) as (_ & _ & _ & _ & _ & _ & L & _).
  destruct (span_spec _ _ _ _ SP) as (_ & ((v & B1) & B2)). rewrite by_soc_mapped in B1. apply mapped_in in B1 as (t & T & TE). injection TE as Tb Tv.
  exists (fst t). split; [|split].
  - split; [exists (snd t); apply charge_points_in; rewrite <- surjective_pairing; exact T|]. intros x (w & X). apply charge_points_in in X.
    assert (Y : soc lo hi x <= b) by (apply B2; exists w; exact (soc_in lo hi _ _ X)). rewrite Tb in Y. apply (soc_le lo hi x _ L) in Y.
    assert (Z0 : capacity_at lo hi (soc lo hi (fst t)) == fst t) by (unfold capacity_at, soc; field; lra). lra.
  - rewrite E, map_map. cbn [fst]. split; [rewrite map_length; apply linspace_length|]. intros i x X.
    destruct (nth_error (linspace 0 b points) i) as [y|] eqn:Y; [|apply nth_error_None in Y; rewrite (proj2 (nth_error_None _ _)) in X; [discriminate|rewrite map_length; exact Y]].
    rewrite (map_nth_error _ _ _ Y) in X. injection X as <-. destruct (linspace_evenly 0 b points points_2) as (_ & EV). specialize (EV i y Y).
    assert (W : ~ inject_Z (Z.of_nat (points - 1)) == 0) by (intro W; vm_compute in W; discriminate).
    rewrite T0, EV, Tb. unfold soc. field. repeat split; try exact W; lra.
  - intros s v' I. rewrite E in I. apply in_map_iff in I as (s0 & I & G). injection I as I1 I2. assert (S0 : s0 == s) by (rewrite <- I1, T0; field).
    assert (C0 : capacity_at lo hi s0 == capacity_at lo hi s) by (unfold capacity_at; rewrite S0; reflexivity).
    destruct (interp1d_reads _ _ _ _ _ F) as (_ & X). destruct (X s0) as [(_ & N)|[(N & V)|(N & V)]].
    + apply (soc_reading lo hi _ _ _ L) in N. rewrite I2 in N.
      assert (N' : inside (charged data type cycle) (capacity_at lo hi s) v').
      { eapply inside_ext; [symmetry; exact C0|]. eapply inside_iff; [|exact N]. intro; apply charge_points_in. }
      split; [intros _; exact N'|]. destruct N' as [(p & P & PE & _)|(p & q & P & P' & L1 & L2 & _)].
      * split; intro A; specialize (A p P); lra.
      * split; intro A; [specialize (A p P)|specialize (A q P')]; lra.
    + assert (N' : forall p, charged data type cycle p -> capacity_at lo hi s < fst p).
      { intros p P. apply charge_points_in in P. specialize (N _ (soc_in lo hi _ _ P)). cbn [fst] in N. apply Qnot_le_lt. intro A. apply (Qlt_not_le _ _ N). apply (soc_le lo hi _ _ L). rewrite C0. exact A. }
      split; [intros (p & q & P & _ & A & _); specialize (N' p P); lra|]. split; [intros _; rewrite <- I2; exact V|].
      intro A. exfalso. specialize (A _ (proj1 (charge_points_in _ _ _ _) T)). specialize (N' _ (proj1 (charge_points_in _ _ _ _) T)). lra.
    + assert (N' : forall p, charged data type cycle p -> fst p < capacity_at lo hi s).
      { intros p P. apply charge_points_in in P. specialize (N _ (soc_in lo hi _ _ P)). cbn [fst] in N. apply Qnot_le_lt. intro A. apply (Qlt_not_le _ _ N). apply (soc_ge lo hi _ _ L). rewrite C0. exact A. }
      split; [intros (p & q & _ & P & _ & A); specialize (N' q P); lra|]. split; [|intros _; rewrite <- I2; exact V].
      intro A. exfalso. specialize (A _ (proj1 (charge_points_in _ _ _ _) T)). specialize (N' _ (proj1 (charge_points_in _ _ _ _) T)). lra.
Qed.
Lemma aged_total nothing type summary data0 data cycle l lo hi p : initial_profile nothing type summary data0 = Ok (l, (lo, hi)) -> charged data type cycle p ->
  exists l', aged_profile nothing type (l, (lo, hi)) data cycle = Ok l'.
Proof.
  intros H C. apply charge_points_in in C. unfold aged_profile.
  assert (NE : by_soc lo hi (charge_points type 0 data cycle) <> []) by (rewrite by_soc_mapped; destruct (charge_points type 0 data cycle); [destruct C|discriminate]).
  destruct (interp1d_total nothing (Some lower) (Some upper) _ NE) as (f & F). rewrite F. cbn [bind]. destruct (span_total nothing _ NE) as (a & b & SP). rewrite SP. cbn [bind].
  destruct (initial_inv _ _ _ _ _ _ _ H) as (c & pts & g & _ & P & SP' & L & G & E). pose proof (span_measured _ _ _ _ _ _ _ P SP' L) as CL.
  destruct (linspace_last 0 100 points points_2) as (x & X & X').
  assert (K : In (x, g x) (known_part l)).
  { apply known_in. split; [rewrite E; apply sample_in; auto|]. eapply inside_known; [|eapply (initial_reads nothing pts data0 type c lo hi g x); eauto; lra]. apply measured_known. }
  destruct (span_total nothing (known_part l)) as (a' & top & SP''); [intro N; rewrite N in K; destruct K|]. rewrite SP''. cbn [bind].
  pose proof (initial_top _ _ _ _ _ _ _ _ _ H SP'') as T. destruct (Qeq_bool top 0) eqn:Q0; [apply Qeq_bool_iff in Q0; lra|]. eauto.
Qed.

(** ** Two electrodes on one grid *)
Lemma rows_ok l : rows_1001 l = Ok tt <-> length l = points.
Proof. unfold rows_1001. destruct (Nat.eqb_spec (length l) points); split; intro; try congruence; discriminate. Qed.
Lemma overlay_inv nothing a b pe ne : overlay nothing a b = Ok (pe, ne) -> exists lo hi f g,
  length a = points /\ length b = points /\ interp1d nothing None None a = Ok f /\ interp1d nothing None None b = Ok g /\
  least (fun x => exists v, In (x, v) (a ++ b)) lo /\ greatest (fun x => exists v, In (x, v) (a ++ b)) hi /\
  pe = sample_on f (linspace lo hi points) /\ ne = sample_on g (linspace lo hi points).
Proof.
  unfold overlay. intro H. inv H p1 S1. destruct p1 as [a1 b1]. inv H p2 S2. destruct p2 as [a2 b2]. inv H f F. inv H g G. inv H u1 L1. inv H u2 L2.
  destruct u1, u2. apply rows_ok in L1, L2. exists (min_q a1 a2), (max_q b1 b2), f, g. repeat (split; [assumption|]).
  destruct (span_spec _ _ _ _ S1) as (((v1 & A1) & A2) & ((v2 & A3) & A4)). destruct (span_spec _ _ _ _ S2) as (((w1 & B1) & B2) & ((w2 & B3) & B4)).
  destruct (min_q_spec a1 a2) as (M1 & M2 & M3). destruct (max_q_spec b1 b2) as (N1 & N2 & N3). split; [|split; [|split; congruence]].
  - split.
    + destruct M1 as [-> | ->]; [exists v1|exists w1]; apply in_or_app; auto.
    + intros x (v & X). apply in_app_or in X as [X|X]; [assert (a1 <= x) by (apply A2; eauto)|assert (a2 <= x) by (apply B2; eauto)]; lra.
  - split.
    + destruct N1 as [-> | ->]; [exists v2|exists w2]; apply in_or_app; auto.
    + intros x (v & X). apply in_app_or in X as [X|X]; [assert (x <= b1) by (apply A4; eauto)|assert (x <= b2) by (apply B4; eauto)]; lra.
Qed.
Lemma overlay_total nothing a b : length a = points -> length b = points -> exists pe ne, overlay nothing a b = Ok (pe, ne).
Proof.
  intros L1 L2. unfold overlay.
  assert (N : forall l : curve, length l = points -> l <> []). { intros l L E. rewrite E in L. discriminate. }
  destruct (span_total nothing a (N a L1)) as (a1 & b1 & ->). destruct (span_total nothing b (N b L2)) as (a2 & b2 & ->). cbn [bind].
  destruct (interp1d_total nothing None None a (N a L1)) as (f & ->). destruct (interp1d_total nothing None None b (N b L2)) as (g & ->). cbn [bind].
  rewrite (proj2 (rows_ok a) L1), (proj2 (rows_ok b) L2). cbn [bind]. eauto.
Qed.
Lemma overlay_length nothing a b pe ne : overlay nothing a b = Ok (pe, ne) -> length pe = points /\ length ne = points /\ map fst pe = map fst ne.
Proof.
  intro H. destruct (overlay_inv _ _ _ _ _ H) as (lo & hi & f & g & _ & _ & _ & _ & _ & _ & -> & ->).
  unfold sample_on. rewrite !map_length, !linspace_length, !map_map. auto.
Qed.
Lemma affine_length k d l : length (affine k d l) = length l. Proof. apply map_length. Qed.

(** ** Matching the fresh cell *)
Lemma closest_row_spec v pe ne p : length pe = length ne -> closest_row v (cell_curve pe ne) = Ok p ->
  (exists i, closest_place pe ne v i (fst p)) \/ (forall i q a b, ~ electrodes_at pe ne i q a b).
Proof.
  intros L H. unfold closest_row in H. destruct (nearest v (map snd (cell_curve pe ne))) as [i|e] eqn:N.
  - left. exists i. destruct (nearest_spec _ _ _ N) as (x & X & M). apply cell_nth in X as (q & a & b & EL & ->).
    unfold row_at in H. destruct (nth_error (cell_curve pe ne) i) as [(q', w)|] eqn:R; [|discriminate]. injection H as <-. cbn [fst].
    destruct (cell_abscissa _ _ _ _ _ R) as (w' & R'). destruct EL as (E1 & E2). assert (q = q') by congruence. subst q'.
    exists a, b. split; [split; assumption|]. intros j q1 a1 b1 E. apply M with (k := j). apply cell_nth. eauto.
  - right. intros i q a b E. destruct (nearest_ok v (map snd (cell_curve pe ne)) i (a - b)) as (j & J); [apply cell_nth; eauto|congruence].
Qed.
Definition place (z m q : Q) : Q := (q - z) / m * 100.
Lemma percent_shift z m l : percent_of m (shift z l) = mapped (fun x => (x - z) / m * 100) l.
Proof. unfold percent_of, shift, mapped. rewrite map_map. reflexivity. Qed.
Lemma initial_matching_inv nothing quadratic pe ne real x pe' ne' r e : initial_matching nothing quadratic pe ne real x = Ok (pe', ne', r, e) ->
  exists k d pe1 ne1 p m f g, nth_error x 0 = Some k /\ nth_error x 1 = Some d /\
    overlay nothing (affine k d (as_curve pe)) (as_curve ne) = Ok (pe1, ne1) /\ closest_row lower (cell_curve pe1 ne1) = Ok p /\
    known_max (windowed (shift (fst p) (cell_curve pe1 ne1))) = Some m /\ ~ m == 0 /\
    quadratic (complete (percent_of m (windowed (shift (fst p) (cell_curve pe1 ne1))))) = Ok f /\ interp1d nothing (Some lower) (Some upper) real = Ok g /\
    pe' = percent_of m (shift (fst p) pe1) /\ ne' = percent_of m (shift (fst p) ne1) /\
    r = sample_on g (linspace 0 100 points) /\ e = sample_on f (linspace 0 100 points).
Proof.
  unfold initial_matching. intro H. inv H k K. inv H d D. inv H pn OV. destruct pn as [pe1 ne1]. inv H p P.
  destruct (known_max (windowed (shift (fst p) (cell_curve pe1 ne1)))) as [m|] eqn:M; [|discriminate]. destruct (Qeq_bool m 0) eqn:Z0; [discriminate|].
  inv H f F. inv H g G. unfold x_at in K, D. destruct (nth_error x 0) as [k'|] eqn:K'; [|discriminate]. destruct (nth_error x 1) as [d'|] eqn:D'; [|discriminate].
  injection K as ->. injection D as ->. exists k, d, pe1, ne1, p, m, f, g.
  assert (MZ : ~ m == 0) by (intro Q0; apply Qeq_bool_iff in Q0; congruence).
  split; [reflexivity|]. split; [reflexivity|]. split; [exact OV|]. split; [exact P|]. split; [exact M|]. split; [exact MZ|].
  split; [exact F|]. split; [exact G|]. split; [congruence|]. split; [congruence|]. split; congruence.
Qed.
Lemma matched_reading nothing a f lo hi z m s v : ~ m == 0 -> interp1d nothing None None a = Ok f -> In (s, v) (percent_of m (shift z (sample_on f (linspace lo hi points)))) ->
  reads (fun p => In p a) (z + s * m / 100) v.
Proof.
  intros M F I. rewrite percent_shift in I. apply mapped_in in I as ((q & w) & I & E). injection E as -> ->. cbn [fst snd] in *. apply sample_in in I as (G & ->).
  eapply reads_ext; [|apply (interp_reads nothing a f q F)]. field. exact M.
Qed.
Lemma percent_electrodes z m pe ne i s a b : electrodes_at (percent_of m (shift z pe)) (percent_of m (shift z ne)) i s a b <->
  exists q, electrodes_at pe ne i q a b /\ s = (q - z) / m * 100.
Proof.
  unfold electrodes_at. rewrite !percent_shift. unfold mapped. rewrite !nth_error_map.
  destruct (nth_error pe i) as [(q & w)|]; cbn [option_map fst snd]; [|split; [intros (A & _); discriminate|intros (q & (A & _) & _); discriminate]].
  destruct (nth_error ne i) as [(q' & w')|]; cbn [option_map fst snd]; [|split; [intros (_ & y & A); discriminate|intros (y & (_ & y' & A) & _); discriminate]].
  split.
  - intros (A & y & B). injection A as A1 A2. injection B as B1 B2. exists q. rewrite A2, B2. split; [split; [reflexivity|eauto]|auto].
  - intros (q0 & (A & y & B) & ->). injection A as -> ->. injection B as -> ->. split; [reflexivity|eauto].
Qed.
Lemma matched_spec nothing quadratic pe ne real x pe' ne' r e : initial_matching nothing quadratic pe ne real x = Ok (pe', ne', r, e) ->
  exists k d z m, nth_error x 0 = Some k /\ nth_error x 1 = Some d /\ ~ m == 0 /\ map fst pe' = map fst ne' /\ length pe' = points /\ length ne' = points /\
    (0 < k -> forall s v, In (s, v) pe' -> reads (fun p => In p (as_curve pe)) ((z + s * m / 100 - d) / k) v) /\
    (forall s v, In (s, v) ne' -> reads (fun p => In p (as_curve ne)) (z + s * m / 100) v) /\
    ((exists i s, closest_place pe' ne' (27 # 10) i s /\ s == 0) \/ forall i q a b, ~ electrodes_at pe' ne' i q a b) /\
    (0 < m -> exists top, greatest (fun s => exists v, cell_point pe' ne' (s, v)) top /\ top == 100).
Proof.
  intro H. destruct (initial_matching_inv _ _ _ _ _ _ _ _ _ _ H) as (k & d & pe1 & ne1 & p & m & f & g & K & D & O & P & M & MZ & F & G & -> & -> & _ & _).
  destruct (overlay_length _ _ _ _ _ O) as (L1 & L2 & LE). destruct (overlay_inv _ _ _ _ _ O) as (lo & hi & fp & fn & _ & _ & FP & FN & _ & _ & EP & EN).
  exists k, d, (fst p), m. split; [exact K|]. split; [exact D|]. split; [exact MZ|].
  split. { rewrite !percent_shift. unfold mapped. rewrite !map_map. cbn [fst]. rewrite <- (map_map fst (fun x => (x - fst p) / m * 100)), LE, map_map. reflexivity. }
  split; [rewrite percent_shift; unfold mapped; rewrite map_length; exact L1|]. split; [rewrite percent_shift; unfold mapped; rewrite map_length; exact L2|].
  split; [|split; [|split]].
  - intros KP s v I. rewrite EP in I. apply (matched_reading nothing _ _ _ _ _ _ _ _ MZ FP) in I. rewrite affine_mapped in I.
    apply (reads_mapped (fun x => x * k + d) k d _ _ _ KP) in I; [exact I|reflexivity].
  - intros s v I. rewrite EN in I. exact (matched_reading nothing _ _ _ _ _ _ _ _ MZ FN I).
  - destruct (closest_row_spec _ _ _ _ (eq_trans L1 (eq_sym L2)) P) as [(i & a & b & E & C)|N].
    + left. exists i, ((fst p - fst p) / m * 100). split; [|field; exact MZ]. exists a, b. split; [apply percent_electrodes; eauto|].
      intros j q' a' b' E'. apply percent_electrodes in E' as (q0 & E' & _). exact (C j q0 a' b' E').
    + right. intros i q a b E. apply percent_electrodes in E as (q0 & E & _). exact (N i q0 a b E).
  - intro MP. pose proof (known_max_spec (windowed (shift (fst p) (cell_curve pe1 ne1)))) as KM. rewrite M in KM. destruct KM as ((v & KM1) & KM2).
    apply windowed_in in KM1 as (KM1 & LIM). unfold shift in KM1. apply in_map_iff in KM1 as ((q & w) & E & I). injection E as E1 E2. cbn [fst snd] in E1, E2. subst w.
    apply cell_in in I as (i & a & b & EL & VE). exists ((q - fst p) / m * 100). split; [|rewrite E1; field; exact MZ]. split.
    + exists (Some v), i, a, b. rewrite <- VE. split; [apply percent_electrodes; eauto|]. split; [exact LIM|reflexivity].
    + intros s (w & j & a' & b' & EL' & LIM' & _). cbn [fst] in EL'. apply percent_electrodes in EL' as (q' & EL' & ->).
      assert (X : q' - fst p <= m).
      { apply KM2. exists (a' - b'). apply windowed_in. split; [|exact LIM']. unfold shift. apply in_map_iff. exists (q', Some (a' - b')). split; [reflexivity|]. apply cell_in. eauto. }
      rewrite E1. unfold Qdiv. assert (0 < / m) by (apply Qinv_lt_0_compat; exact MP). assert (m * / m == 1) by (apply Qmult_inv_r; exact MZ). nra.
Qed.

(** ** Degradation *)
Lemma combine_at {A B} (l : list A) (l' : list B) i x y : nth_error (combine l l') i = Some (x, y) <-> nth_error l i = Some x /\ nth_error l' i = Some y.
Proof.
  revert l' i. induction l as [|a l IH]; intros [|b l'] [|i]; cbn; try (split; [discriminate|intros (? & ?); discriminate]); [|apply IH].
  split; [intro H; injection H as -> ->; auto|intros (H1 & H2); injection H1 as ->; injection H2 as ->; reflexivity].
Qed.
Lemma upper_setpoint_spec pe ne q : upper_setpoint pe ne = Ok q -> exists i, closest_place pe ne (42 # 10) i q.
Proof.
  unfold upper_setpoint. intro H. inv H i NR. inv H p P. injection H as <-. destruct (nearest_spec _ _ _ NR) as (x & X & M). apply cell_nth in X as (q & a & b & EL & ->).
  unfold row_at in P. destruct EL as (E1 & E2). rewrite E1 in P. injection P as <-. cbn [fst]. exists i, a, b. split; [split; assumption|].
  intros j q1 a1 b1 E. apply M with (k := j). apply cell_nth. eauto.
Qed.
Lemma lower_setpoint_spec pe ne q : lower_setpoint pe ne = Ok q -> lowest_place pe ne q.
Proof.
  unfold lower_setpoint. intro H. destruct (lowest_spec _ _ H) as (v & I & M). apply in_map_iff in I as ((p & n) & E & I). cbn [fst snd] in E.
  apply In_nth_error in I as (i & I). apply combine_at in I as (C1 & C2). destruct p as (qp & [vp|]), n as (qn & [vn|]); cbn [fst snd nsub] in E; try discriminate. injection E as E1 E2. subst qn.
  exists i, qp, vp, vn. split; [split; [exact C1|eauto]|]. split; [exact C2|]. intros j q' a' b' (E1 & q2 & E3).
  assert (J : In (q2, Some (a' - b' - lower)) (map (fun p : Q * num * (Q * num) => (fst (snd p), nsub (nsub (snd (fst p)) (snd (snd p))) (Some lower))) (combine pe ne))).
  { apply in_map_iff. exists ((q', Some a'), (q2, Some b')). split; [reflexivity|]. apply (nth_error_In _ j). apply combine_at. split; assumption. }
  specialize (M _ _ J). rewrite <- E2 in M. unfold lower in M. lra.
Qed.
Lemma shrunk_reading nothing l f k sp d lo hi s v : k < 100 -> interp1d nothing None None (affine (1 - k / 100) (d + k * sp / 100) l) = Ok f -> In (s, v) (sample_on f (linspace lo hi points)) ->
  reads (fun p => In p l) (sp + (s - d - sp) / (1 - k / 100)) v.
Proof.
  intros K F I. apply sample_in in I as (G & ->). assert (KP : 0 < 1 - k / 100) by (unfold Qdiv; change (/ 100) with (1 # 100); lra).
  pose proof (interp_reads nothing _ f s F) as R. rewrite affine_mapped in R.
  apply (reads_mapped _ (1 - k / 100) (d + k * sp / 100) _ _ _ KP) in R; [|reflexivity].
  eapply reads_ext; [|exact R]. field. unfold Qdiv in KP. change (/ 100) with (1 # 100) in KP. lra.
Qed.
Lemma degrade_spec nothing pe ne y pe' ne' : degrade nothing pe ne y = Ok (pe', ne') -> exists i sp sn,
  closest_place pe ne (42 # 10) i sp /\ lowest_place pe ne sn /\ length pe = points /\ length ne = points /\
  length pe' = points /\ length ne' = points /\ map fst pe' = map fst ne' /\
  (l_pe y < 100 -> forall s v, In (s, v) pe' -> reads (fun p => In p pe) (sp + (s - sp) / (1 - l_pe y / 100)) v) /\
  (l_ne y < 100 -> forall s v, In (s, v) ne' -> reads (fun p => In p ne) (sn + (s - l_lli y - sn) / (1 - l_ne y / 100)) v).
Proof.
  unfold degrade. intro H. inv H sp SP. inv H sn SN. destruct (upper_setpoint_spec _ _ _ SP) as (i & CP). apply lower_setpoint_spec in SN.
  destruct (overlay_length _ _ _ _ _ H) as (L1 & L2 & LE). destruct (overlay_inv _ _ _ _ _ H) as (lo & hi & f & g & A1 & A2 & F & G & _ & _ & -> & ->).
  rewrite affine_length in A1, A2. exists i, sp, sn. repeat (split; [assumption|]). split.
  - intros K s v I. apply sample_in in I as (GI & ->). assert (KP : 0 < 1 - l_pe y / 100) by (unfold Qdiv; change (/ 100) with (1 # 100); lra).
    pose proof (interp_reads nothing _ f s F) as R. rewrite affine_mapped in R. apply (reads_mapped _ (1 - l_pe y / 100) (l_pe y * sp / 100) _ _ _ KP) in R; [|reflexivity].
    eapply reads_ext; [|exact R]. field. unfold Qdiv in KP. change (/ 100) with (1 # 100) in KP. lra.
  - intros K s v I. exact (shrunk_reading nothing ne g (l_ne y) sn (l_lli y) lo hi s v K G I).
Qed.
Lemma degrade_total nothing pe ne y i q a b : length pe = points -> length ne = points -> electrodes_at pe ne i q a b -> exists pe' ne', degrade nothing pe ne y = Ok (pe', ne').
Proof.
  intros L1 L2 E. unfold degrade, upper_setpoint. destruct (nearest_ok upper (map snd (cell_curve pe ne)) i (a - b)) as (j & J); [apply cell_nth; eauto|].
  rewrite J. cbn [bind]. destruct (nearest_spec _ _ _ J) as (x & X & _). apply cell_nth in X as (q1 & a1 & b1 & (E1 & _) & _).
  unfold row_at. rewrite E1. cbn [bind fst]. destruct E as (E2 & q2 & E3).
  destruct (lowest_ok (map (fun p : Q * num * (Q * num) => (fst (snd p), nsub (nsub (snd (fst p)) (snd (snd p))) (Some lower))) (combine pe ne)) q2 (a - b - lower)) as (z & Z0).
  { apply in_map_iff. exists ((q, Some a), (q2, Some b)). split; [reflexivity|]. apply (nth_error_In _ i). apply combine_at. split; assumption. }
  unfold lower_setpoint. rewrite Z0. cbn [bind]. apply overlay_total; rewrite affine_length; assumption.
Qed.
Lemma degrade_apart nothing pe ne y : (forall i q a b, ~ electrodes_at pe ne i q a b) -> degrade nothing pe ne y = Err KeyError.
Proof.
  intro N. unfold degrade, upper_setpoint. assert (E : nearest upper (map snd (cell_curve pe ne)) = Err KeyError).
  { destruct (nearest upper (map snd (cell_curve pe ne))) as [i|e] eqn:X.
    - destruct (nearest_spec _ _ _ X) as (x & X' & _). apply cell_nth in X' as (q & a & b & EL & _). destruct (N _ _ _ _ EL).
    - unfold nearest in X. generalize dependent 0%nat. induction (map snd (cell_curve pe ne)) as [|[w|] l IH]; intros j X; cbn [nearest_at] in *; [symmetry; exact X|discriminate|exact (IH _ X)]. }
  rewrite E. reflexivity.
Qed.

(** ** Matching the aged cell *)
Lemma aged_matching_inv nothing pe ne real x pe' ne' r e : aged_matching nothing pe ne real x = Ok (pe', ne', r, e) -> exists y pe1 ne1 z a b f g,
  loss_of x = Ok y /\ degrade nothing pe ne y = Ok (pe1, ne1) /\ known_min (cell_curve pe1 ne1) = Some z /\ span nothing (known_part real) = Ok (a, b) /\
  interp1d nothing None None (known_part (shift z (cell_curve pe1 ne1))) = Ok f /\ interp1d nothing None None (known_part real) = Ok g /\
  pe' = shift z pe1 /\ ne' = shift z ne1 /\ e = sample_on f (linspace a b points) /\ r = sample_on g (linspace a b points).
Proof.
  unfold aged_matching. intro H. inv H y Y. inv H pn D. destruct pn as [pe1 ne1]. destruct (known_min (cell_curve pe1 ne1)) as [z|] eqn:Z0; [|discriminate].
  inv H e1 E1. inv E1 ab SP. destruct ab as [a b]. inv H r1 R1. rewrite SP in R1. cbn [bind] in R1. unfold resample in E1, R1. inv E1 f F. inv R1 g G.
  exists y, pe1, ne1, z, a, b, f, g. repeat (split; [assumption|]). split; [congruence|]. split; [congruence|]. split; congruence.
Qed.
Lemma cell_min_spec pe ne z : known_min (cell_curve pe ne) = Some z -> least (cell_has_voltage pe ne) z.
Proof.
  intro M. pose proof (known_min_spec (cell_curve pe ne)) as K. rewrite M in K. destruct K as ((v & K1) & K2). split.
  - apply cell_in in K1 as (i & a & b & E & _). exists i, a, b. exact E.
  - intros q (i & a & b & E). apply K2. exists (a - b). apply cell_in. eauto.
Qed.
Lemma known_cell z pe ne p : In p (known_part (shift z (cell_curve pe ne))) <-> cell_any (shift z pe) (shift z ne) p.
Proof.
  rewrite known_in. unfold cell_any. split.
  - intros (I & K). destruct p as (q & [v|]); [|destruct (K eq_refl)]. unfold shift in I. apply in_map_iff in I as ((q0 & w) & E & I). injection E as <- ->.
    apply cell_in in I as (i & a & b & EL & ->). exists i, a, b. cbn [fst snd]. split; [apply shift_electrodes; eauto|reflexivity].
  - intros (i & a & b & EL & E). apply shift_electrodes in EL as (q0 & EL & Q0). split; [|congruence]. destruct p as (q & v). cbn [fst snd] in *. subst q v.
    unfold shift. apply in_map_iff. exists (q0, Some (a - b)). split; [reflexivity|]. apply cell_in. eauto.
Qed.
Lemma span_known nothing l a b : span nothing (known_part l) = Ok (a, b) -> least (has_voltage l) a /\ greatest (has_voltage l) b.
Proof.
  intro SP. destruct (span_spec _ _ _ _ SP) as (((v & A1) & A2) & ((w & B1) & B2)). split.
  - split; [apply known_value in A1 as (u & _ & A1); exists u; exact A1|]. intros x (u & X). apply A2. exists (Some u). apply known_in. split; [exact X|discriminate].
  - split; [apply known_value in B1 as (u & _ & B1); exists u; exact B1|]. intros x (u & X). apply B2. exists (Some u). apply known_in. split; [exact X|discriminate].
Qed.
Lemma aged_matching_spec nothing pe ne real x pe' ne' r e : aged_matching nothing pe ne real x = Ok (pe', ne', r, e) -> exists y pe1 ne1 z a b,
  loss_of x = Ok y /\ degrade nothing pe ne y = Ok (pe1, ne1) /\ least (cell_has_voltage pe1 ne1) z /\ moved z pe1 pe' /\ moved z ne1 ne' /\
  least (has_voltage real) a /\ greatest (has_voltage real) b /\ map fst r = map fst e /\ evenly a b points (map fst e) /\
  (forall s v, In (s, v) e -> reads (cell_any pe' ne') s v) /\ (forall s v, In (s, v) r -> inside (fun p => In p (known_part real)) s v).
Proof.
  intro H. destruct (aged_matching_inv _ _ _ _ _ _ _ _ _ H) as (y & pe1 & ne1 & z & a & b & f & g & Y & D & Z0 & SP & F & G & -> & -> & -> & ->).
  destruct (span_known _ _ _ _ SP) as (A & B). exists y, pe1, ne1, z, a, b. split; [exact Y|]. split; [exact D|]. split; [apply cell_min_spec, Z0|].
  split; [apply shift_moved|]. split; [apply shift_moved|]. split; [exact A|]. split; [exact B|]. unfold sample_on at 1 2 3. rewrite !map_map. cbn [fst]. rewrite !map_id.
  split; [reflexivity|]. split; [apply linspace_evenly, points_2|]. split.
  - intros s v I. apply sample_in in I as (_ & ->). eapply reads_iff; [|exact (interp_reads nothing _ f s F)]. intro p. apply known_cell.
  - intros s v I. apply sample_in in I as (GI & ->). exact (sampled_inside nothing _ g a b s G SP GI).
Qed.

(** ** The error of a guess *)
Lemma squares_sum (r e : curve) : map fst r = map fst e -> (forall p, In p r -> snd p <> None) -> exists ss,
  fold_right (fun p s => nadd (square_of p) s) (Some 0)
    (flat_map (fun p : Q * num * (Q * num) => [(Some (fst (fst p)), Some (fst (snd p))); (snd (fst p), snd (snd p))]) (filter (fun p => is_known (snd p)) (combine r e))) = Some ss /\ ss == squares r e.
Proof.
  revert e. induction r as [|(s & v) r IH]; intros [|(s' & w) e] E K; cbn [combine filter flat_map map] in *; try discriminate.
  - exists 0. split; reflexivity.
  - injection E as E0 E. destruct (IH e E) as (ss & A & B); [intros; apply K; right; assumption|].
    destruct v as [a|]; [|destruct (K (s, None) (or_introl eq_refl) eq_refl)].
    destruct w as [b|]; cbn [is_known snd].
    + cbn [flat_map app fold_right fst snd]. rewrite A. cbn [square_of nadd]. eexists. split; [reflexivity|]. cbn [squares]. rewrite B, E0. ring.
    + exists ss. split; [exact A|]. cbn [squares]. exact B.
Qed.
Lemma missing_spec l : exists n, unknown l n /\ missing l = inject_Z (Z.of_nat n).
Proof.
  eexists. split; [reflexivity|]. unfold missing. f_equal. f_equal. f_equal. apply filter_ext. intros (s & [v|]); reflexivity.
Qed.
Lemma profile_error_spec root (r e : curve) : map fst r = map fst e -> (forall p, In p r -> snd p <> None) -> exists ss n,
  profile_error root r e = Some (root ss + (1 # 1000) * inject_Z (Z.of_nat n)) /\ ss == squares r e /\ unknown e n.
Proof.
  intros E K. destruct (squares_sum r e E K) as (ss & A & B). destruct (missing_spec e) as (n & U & M). exists ss, n. split; [|split; [exact B|exact U]].
  unfold profile_error, euclidean. cbv zeta. match goal with |- context [fold_right ?f ?z ?l] => replace (fold_right f z l) with (Some ss) by (symmetry; exact A) end.
  rewrite M. reflexivity.
Qed.
Lemma v_over_soc_inv nothing pe ne real x pe' ne' r e : v_over_soc nothing pe ne real x = Ok (pe', ne', r, e) -> exists r0 e0 a b f g,
  aged_matching nothing pe ne real x = Ok (pe', ne', r0, e0) /\ span nothing (known_part r0) = Ok (a, b) /\ interp1d nothing None None (chosen_by r0 e0) = Ok f /\
  interp1d nothing None None (known_part r0) = Ok g /\ r = sample_on g (linspace a b points) /\ e = sample_on f (linspace a b points).
Proof.
  unfold v_over_soc. intro H. inv H q M. destruct q as (((pe1 & ne1) & r0) & e0). inv H ab SP. destruct ab as [a b]. unfold resample in H. inv H e1 E1. inv E1 f F. inv H r1 R1. inv R1 g G.
  exists r0, e0, a, b, f, g. assert (pe1 = pe') by congruence. assert (ne1 = ne') by congruence. subst pe1 ne1. repeat (split; [assumption|]). split; congruence.
Qed.
Lemma v_over_soc_known nothing pe ne real x pe' ne' r e : v_over_soc nothing pe ne real x = Ok (pe', ne', r, e) -> map fst r = map fst e /\ forall p, In p r -> snd p <> None.
Proof.
  intro H. destruct (v_over_soc_inv _ _ _ _ _ _ _ _ _ H) as (r0 & e0 & a & b & f & g & _ & SP & _ & G & -> & ->). split; [unfold sample_on; rewrite !map_map; reflexivity|].
  intros (s & v) I. apply sample_in in I as (GI & ->). cbn [snd]. eapply inside_known; [|exact (sampled_inside nothing _ g a b s G SP GI)]. apply known_points.
Qed.
Lemma all_known (l : curve) : (forall p, In p l -> snd p <> None) -> known_part l = l.
Proof.
  intro K. unfold known_part. induction l as [|(s & [v|]) l IH]; cbn [filter is_known snd]; [reflexivity| |destruct (K (s, None) (or_introl eq_refl) eq_refl)].
  f_equal. apply IH. intros. apply K. right. assumption.
Qed.
Lemma chosen_all (r e : curve) : length r = length e -> (forall p, In p r -> snd p <> None) -> chosen_by r e = e.
Proof.
  revert e. unfold chosen_by. induction r as [|(s & [v|]) r IH]; intros [|q e] L K; cbn [combine filter is_known fst snd map] in *; try discriminate; [reflexivity| |].
  - f_equal. apply IH; [cbn [length] in L; lia|]. intros. apply K. right. assumption.
  - destruct (K (s, None) (or_introl eq_refl) eq_refl).
Qed.
Lemma sample_span nothing f a b a' b' : a <= b -> span nothing (sample_on f (linspace a b points)) = Ok (a', b') -> a' == a /\ b' == b.
Proof.
  intros L SP. destruct (span_spec _ _ _ _ SP) as (((v & A1) & A2) & ((w & B1) & B2)). apply sample_in in A1 as (A1 & _). apply sample_in in B1 as (B1 & _).
  pose proof (linspace_range a b points a' points_2 L A1). pose proof (linspace_range a b points b' points_2 L B1).
  destruct (linspace_first a b points points_2) as (x & X & XE). destruct (linspace_last a b points points_2) as (y & Y & YE).
  assert (a' <= x) by (apply A2; exists (f x); apply sample_in; auto). assert (y <= b') by (apply B2; exists (f y); apply sample_in; auto). lra.
Qed.
Lemma span_sample nothing f g l : span nothing (sample_on f l) = span nothing (sample_on g l).
Proof. unfold span. assert (E : abscissas (sample_on f l) = abscissas (sample_on g l)) by (unfold abscissas, sample_on; rewrite !map_map; reflexivity). rewrite E. reflexivity. Qed.
(** Sampling the profiles a second time changes nothing. *)
Lemma v_over_soc_same nothing pe ne real x pe' ne' r e q q' : has_voltage real q -> has_voltage real q' -> q < q' -> v_over_soc nothing pe ne real x = Ok (pe', ne', r, e) -> exists r0 e0,
  aged_matching nothing pe ne real x = Ok (pe', ne', r0, e0) /\ Forall2 (fun p p' : Q * num => fst p' == fst p /\ snd p' = snd p) r0 r /\ Forall2 (fun p p' => fst p' == fst p /\ snd p' = snd p) e0 e.
Proof.
  intros Q1 Q2 L H. destruct (v_over_soc_inv _ _ _ _ _ _ _ _ _ H) as (r0 & e0 & a & b & f & g & M & SP & F & G & -> & ->). exists r0, e0. split; [exact M|].
  destruct (aged_matching_inv _ _ _ _ _ _ _ _ _ M) as (y & pe1 & ne1 & z & a0 & b0 & f0 & g0 & _ & _ & _ & SP0 & F0 & G0 & _ & _ & E0 & R0).
  destruct (span_known _ _ _ _ SP0) as ((_ & A) & (_ & B)). specialize (A q Q1). specialize (B q' Q2). assert (AB : a0 < b0) by lra.
  assert (K : forall p, In p r0 -> snd p <> None).
  { intros (s & v) I. rewrite R0 in I. apply sample_in in I as (GI & ->). cbn [snd]. eapply inside_known; [|exact (sampled_inside nothing _ g0 a0 b0 s G0 SP0 GI)]. apply known_points. }
  assert (LEN : length r0 = length e0) by (rewrite R0, E0; unfold sample_on; rewrite !map_length; reflexivity).
  rewrite (all_known r0 K) in SP, G. rewrite (chosen_all r0 e0 LEN K) in F. split.
  - rewrite R0 in SP, G |- *. exact (sample_again nothing _ g0 a0 b0 a b g AB G SP eq_refl).
  - assert (SPE : span nothing e0 = Ok (a, b)).
    { rewrite R0 in SP. rewrite E0, (span_sample nothing f0 g0). exact SP. }
    rewrite E0 in SPE, F |- *. exact (sample_again nothing _ f0 a0 b0 a b f AB F SPE eq_refl).
Qed.

(** ** The values of the half cells *)
Lemma find_at {A} (t : A -> bool) l i x : nth_error l i = Some x -> t x = true -> exists j y, find t l = Some y /\ nth_error l j = Some y /\ t y = true /\ (j <= i)%nat.
Proof.
  revert i. induction l as [|a l IH]; intros [|i] N T; cbn [nth_error find] in *; try discriminate.
  - injection N as ->. rewrite T. exists 0%nat, x. repeat split; auto.
  - destruct (t a) eqn:TA; [exists 0%nat, a; repeat split; auto; lia|]. destruct (IH i N T) as (j & y & A1 & A2 & A3 & A4). exists (S j), y. repeat split; auto. lia.
Qed.
Lemma voltage_at_spec l i s v : distinct_socs l -> nth_error l i = Some (s, v) -> voltage_at l s = Ok v.
Proof.
  intros D N. unfold voltage_at. destruct (find_at (fun p => Qeq_bool (fst p) s) l i (s, v) N) as (j & y & F & J & T & _); [apply Qeq_bool_iff; reflexivity|].
  rewrite F. apply Qeq_bool_iff in T. pose proof (D j i y (s, v) J N T). subst j. assert (y = (s, v)) by congruence. subst y. reflexivity.
Qed.
Lemma relative_spec l s : has_voltage l s -> exists lo hi, known_min l = Some lo /\ known_max l = Some hi /\ least (has_voltage l) lo /\ greatest (has_voltage l) hi.
Proof.
  intro V. pose proof (known_min_spec l) as A. pose proof (known_max_spec l) as B. destruct (known_min l) as [lo|]; [|destruct (A _ V)]. destruct (known_max l) as [hi|]; [|destruct (B _ V)].
  exists lo, hi. auto.
Qed.
Lemma soc_at_spec l i s v : nth_error l i = Some (s, Some v) -> exists j s' v', nth_error l j = Some (s', Some v') /\ (j <= i)%nat /\ v' == v /\ soc_at l (Some v) = Ok (relative l s').
Proof.
  intro N. unfold soc_at. destruct (find_at (fun p : Q * num => match snd p, Some v with Some a, Some b => Qeq_bool a b | _, _ => false end) l i (s, Some v) N) as (j & y & F & J & T & L).
  - cbn [snd]. apply Qeq_bool_iff. reflexivity.
  - match goal with |- context [find ?t l] => replace (find t l) with (Some y) by (symmetry; exact F) end. destruct y as (s' & [v'|]); cbn [snd] in T; [|discriminate]. apply Qeq_bool_iff in T. exists j, s', v'. auto.
Qed.
Lemma width_spec l s : has_voltage l s -> exists w, width l = Some w /\ range_of (has_voltage l) w.
Proof. intro V. destruct (relative_spec l s V) as (lo & hi & A & B & C & D). unfold width. rewrite A, B. eexists. split; [reflexivity|]. exists lo, hi. split; [exact C|]. split; [exact D|]. reflexivity. Qed.
Lemma cell_voltage pe ne q : has_voltage (cell_curve pe ne) q <-> cell_has_voltage pe ne q.
Proof.
  unfold has_voltage, cell_has_voltage. split; [intros (v & I); apply cell_in in I as (i & a & b & E & _); eauto|].
  intros (i & a & b & E). exists (a - b). apply cell_in. eauto.
Qed.
Lemma range_iff P P' w : (forall q, P q <-> P' q) -> range_of P w -> range_of P' w.
Proof. intros E (lo & hi & (A1 & A2) & (B1 & B2) & W). exists lo, hi. repeat split; [apply E, A1|intros; apply A2, E; assumption|apply E, B1|intros; apply B2, E; assumption|exact W]. Qed.
Lemma electrode_values_spec l up down i j vu vl : distinct_socs l -> nth_error l i = Some (up, Some vu) -> nth_error l j = Some (down, Some vl) ->
  exists xu xl w, electrode_values l up down = Ok [Some vu; Some vl; xu; xl; Some w] /\ range_of (has_voltage l) w /\
    (strictly l -> 0 < w -> exists a b, xu = Some a /\ xl = Some b /\ own_soc l up a /\ own_soc l down b).
Proof.
  intros D U L. unfold electrode_values. rewrite (voltage_at_spec l i up (Some vu) D U), (voltage_at_spec l j down (Some vl) D L). cbn [bind].
  destruct (soc_at_spec l i up vu U) as (iu & su & vu' & NU & _ & EU & ->). destruct (soc_at_spec l j down vl L) as (il & sl & vl' & NL & _ & EL & ->). cbn [bind].
  assert (V : has_voltage l up) by (exists vu; exact (nth_error_In _ _ U)). destruct (relative_spec l up V) as (lo & hi & MN & MX & LO & HI).
  destruct (width_spec l up V) as (w & W & R). rewrite W. exists (relative l su), (relative l sl), w. split; [reflexivity|]. split; [exact R|]. intros ST WP.
  assert (WE : w == hi - lo) by (unfold width in W; rewrite MN, MX in W; cbn in W; injection W as <-; reflexivity).
  assert (EA : forall s v s' v', In (s, Some v) l -> In (s', Some v') l -> v' == v -> exists a, relative l s' = Some a /\ own_soc l s a).
  { intros s v s' v' I I' E. pose proof (ST _ _ _ _ I' I E) as SE. unfold relative. rewrite MN, MX. cbn [nsub]. unfold ndiv.
    destruct (Qeq_bool (hi - lo) 0) eqn:Z0; [apply Qeq_bool_iff in Z0; lra|]. eexists. split; [reflexivity|]. exists lo, hi. split; [exact LO|]. split; [exact HI|].
    rewrite SE. field. lra. }
  destruct (EA up vu su vu' (nth_error_In _ _ U) (nth_error_In _ _ NU) EU) as (a & -> & A). destruct (EA down vl sl vl' (nth_error_In _ _ L) (nth_error_In _ _ NL) EL) as (b & -> & B).
  exists a, b. auto.
Qed.
Lemma same_soc pe ne i q a b : map fst pe = map fst ne -> electrodes_at pe ne i q a b -> nth_error pe i = Some (q, Some a) /\ nth_error ne i = Some (q, Some b).
Proof.
  intros E (A & q' & B). split; [exact A|]. rewrite B. pose proof (map_nth_error fst _ _ A) as A'. pose proof (map_nth_error fst _ _ B) as B'. rewrite E in A'. cbn in *. congruence.
Qed.
Lemma distinct_same pe ne : map fst pe = map fst ne -> distinct_socs pe -> distinct_socs ne.
Proof.
  intros E D i j p q I J Q0.
  assert (G : forall k r, nth_error ne k = Some r -> exists r', nth_error pe k = Some r' /\ fst r' = fst r).
  { intros k r K. pose proof (map_nth_error fst _ _ K) as K'. rewrite <- E, nth_error_map in K'. destruct (nth_error pe k) as [r'|]; [|discriminate]. cbn in K'. exists r'. split; [reflexivity|congruence]. }
  destruct (G i p I) as (p' & I' & P'). destruct (G j q J) as (q' & J' & Q'). apply (D i j p' q' I' J'). rewrite P', Q'. exact Q0.
Qed.
Lemma halfcell_values_spec pe ne i0 q0 a0 b0 : length pe = length ne -> map fst pe = map fst ne -> distinct_socs pe -> electrodes_at pe ne i0 q0 a0 b0 ->
  exists i j up down pu nu pl nl xu xl wp yu yl wn wc,
    halfcell_values pe ne = Ok [Some pu; Some pl; xu; xl; Some wp; Some nu; Some nl; yu; yl; Some wn; Some wc] /\
    closest_place pe ne (42 # 10) i up /\ electrodes_at pe ne i up pu nu /\ closest_place pe ne (27 # 10) j down /\ electrodes_at pe ne j down pl nl /\
    range_of (has_voltage pe) wp /\ range_of (has_voltage ne) wn /\ range_of (cell_has_voltage pe ne) wc /\
    (strictly pe -> 0 < wp -> exists a b, xu = Some a /\ xl = Some b /\ own_soc pe up a /\ own_soc pe down b) /\
    (strictly ne -> 0 < wn -> exists a b, yu = Some a /\ yl = Some b /\ own_soc ne up a /\ own_soc ne down b).
Proof.
  intros LN E D EL. unfold halfcell_values.
  assert (C : forall v, exists p i, closest_row v (cell_curve pe ne) = Ok p /\ closest_place pe ne v i (fst p)).
  { intro v. assert (N : exists p, closest_row v (cell_curve pe ne) = Ok p).
    { unfold closest_row. destruct (nearest_ok v (map snd (cell_curve pe ne)) i0 (a0 - b0)) as (k & K); [apply cell_nth; eauto|]. rewrite K.
      destruct (nearest_spec _ _ _ K) as (x & X & _). rewrite nth_error_map in X. unfold row_at. destruct (nth_error (cell_curve pe ne) k) as [p|]; [eauto|discriminate]. }
    destruct N as (p & P). destruct (closest_row_spec v pe ne p LN P) as [(i & CP)|NO]; [eauto|destruct (NO _ _ _ _ EL)]. }
  destruct (C upper) as (u & i & U & CU). destruct (C lower) as (d & j & DN & CD). rewrite U, DN. cbn [bind].
  pose proof CU as (pu & nu & EU & _). pose proof CD as (pl & nl & ED & _). destruct (same_soc _ _ _ _ _ _ E EU) as (PU & NU). destruct (same_soc _ _ _ _ _ _ E ED) as (PL & NL).
  destruct (electrode_values_spec pe (fst u) (fst d) i j pu pl D PU PL) as (xu & xl & wp & -> & RP & SP). cbn [bind].
  destruct (electrode_values_spec ne (fst u) (fst d) i j nu nl (distinct_same _ _ E D) NU NL) as (yu & yl & wn & -> & RN & SN). cbn [bind].
  assert (V : has_voltage (cell_curve pe ne) q0) by (apply cell_voltage; exists i0, a0, b0; exact EL). destruct (width_spec _ _ V) as (wc & -> & RC).
  exists i, j, (fst u), (fst d), pu, nu, pl, nl, xu, xl, wp, yu, yl, wn, wc. split; [reflexivity|]. split; [exact CU|]. split; [exact EU|]. split; [exact CD|]. split; [exact ED|].
  split; [exact RP|]. split; [exact RN|]. split; [|auto]. apply (range_iff (has_voltage (cell_curve pe ne))); [intro; apply cell_voltage|exact RC].
Qed.
(** The SOCs of the electrodes in a degraded cell are an even grid, distinct unless the whole grid is one SOC. *)
Lemma linspace_distinct a b n i j x y : (2 <= n)%nat -> ~ a == b -> nth_error (linspace a b n) i = Some x -> nth_error (linspace a b n) j = Some y -> x == y -> i = j.
Proof.
  intros N AB I J E. destruct (linspace_evenly a b n N) as (L & EV). pose proof (EV i x I) as EX. pose proof (EV j y J) as EY.
  assert (NZ : ~ inject_Z (Z.of_nat (n - 1)) == 0) by (change 0 with (inject_Z 0); rewrite inject_Z_injective; lia).
  set (k := inject_Z (Z.of_nat (n - 1))) in *. clearbody k. apply Nat2Z.inj, inject_Z_injective. set (u := inject_Z (Z.of_nat i)) in *. set (v := inject_Z (Z.of_nat j)) in *. clearbody u v.
  assert (H : (u - v) * ((b - a) / k) == 0) by lra. apply Qmult_integral in H as [H|H]; [lra|exfalso]. apply AB.
  assert (K : (b - a) / k * k == 0) by (rewrite H; ring). assert (K' : (b - a) / k * k == b - a) by (field; exact NZ). lra.
Qed.
Lemma aged_distinct nothing pe ne real x pe' ne' r e : aged_matching nothing pe ne real x = Ok (pe', ne', r, e) -> (exists p q, In p pe' /\ In q pe' /\ ~ fst p == fst q) -> distinct_socs pe'.
Proof.
  intros H (p & q & P & Q0 & NE). destruct (aged_matching_inv _ _ _ _ _ _ _ _ _ H) as (y & pe1 & ne1 & z & a & b & f & g & _ & D & _ & _ & _ & _ & -> & _ & _ & _).
  unfold degrade in D. inv D sp SP. inv D sn SN. destruct (overlay_inv _ _ _ _ _ D) as (lo & hi & f' & g' & _ & _ & _ & _ & LO & _ & -> & _).
  assert (AB : ~ lo == hi).
  { intro E. apply NE. rewrite shift_mapped in P, Q0. apply mapped_in in P as (p0 & P & ->). apply mapped_in in Q0 as (q0 & Q0 & ->). cbn [fst].
    destruct p0 as (p0 & v), q0 as (q0 & w). apply sample_in in P as (P & _). apply sample_in in Q0 as (Q0 & _). cbn [fst].
    pose proof (linspace_range lo hi points p0 points_2 ltac:(lra) P). pose proof (linspace_range lo hi points q0 points_2 ltac:(lra) Q0). lra. }
  intros i j u v I J E. rewrite shift_mapped in I, J. unfold mapped, sample_on in I, J. rewrite !nth_error_map in I, J.
  destruct (nth_error (linspace lo hi points) i) as [s|] eqn:A; [|discriminate]. destruct (nth_error (linspace lo hi points) j) as [t|] eqn:B; [|discriminate].
  cbn in I, J. injection I as <-. injection J as <-. cbn [fst] in E. apply (linspace_distinct lo hi points i j s t points_2 AB A B). lra.
Qed.
Lemma even_single (l : curve) a b : ~ a == b -> evenly a b points (map fst l) -> single_valued (fun p => In p l).
Proof.
  intros AB (L & EV) p q P P' E. apply In_nth_error in P as (i & I). apply In_nth_error in P' as (j & J).
  assert (I' := map_nth_error fst i l I). assert (J' := map_nth_error fst j l J). assert (i = j); [|congruence].
  pose proof (EV _ _ I') as EI. pose proof (EV _ _ J') as EJ. apply Nat2Z.inj, inject_Z_injective.
  assert (NZ : ~ inject_Z (Z.of_nat (points - 1)) == 0) by (vm_compute; discriminate).
  set (k := inject_Z (Z.of_nat (points - 1))) in *. clearbody k. set (u := inject_Z (Z.of_nat i)) in *. set (v := inject_Z (Z.of_nat j)) in *. clearbody u v.
  assert (H : (u - v) * ((b - a) / k) == 0) by lra. apply Qmult_integral in H as [H|H]; [lra|exfalso]. apply AB.
  assert (K : (b - a) / k * k == 0) by (rewrite H; ring). assert (K' : (b - a) / k * k == b - a) by (field; exact NZ). lra.
Qed.
Lemma even_ends (l : curve) a b : a < b -> evenly a b points (map fst l) -> (exists p, In p l /\ fst p == a) /\ (exists p, In p l /\ fst p == b) /\ forall p, In p l -> a <= fst p <= b.
Proof.
  intros AB (L & EV). rewrite map_length in L.
  assert (NZ : 0 < inject_Z (Z.of_nat (points - 1))) by reflexivity.
  assert (AT : forall i, (i < points)%nat -> exists p, nth_error l i = Some p /\ fst p == a + inject_Z (Z.of_nat i) * ((b - a) / inject_Z (Z.of_nat (points - 1)))).
  { intros i I. destruct (nth_error l i) as [p|] eqn:N; [|apply nth_error_None in N; lia]. exists p. split; [reflexivity|]. apply EV, (map_nth_error fst i l N). }
  split; [|split].
  - destruct (AT 0%nat) as (p & N & E); [unfold points; lia|]. exists p. split; [exact (nth_error_In _ _ N)|]. rewrite E. change (inject_Z (Z.of_nat 0)) with 0. ring.
  - destruct (AT (points - 1)%nat) as (p & N & E); [unfold points; lia|]. exists p. split; [exact (nth_error_In _ _ N)|]. rewrite E. set (k := inject_Z _) in *. clearbody k. field. lra.
  - intros p P. apply In_nth_error in P as (i & I). assert (IL : (i < points)%nat) by (rewrite <- L; apply nth_error_Some; congruence). destruct (AT i IL) as (p' & N & E). assert (p' = p) by congruence. subst p'.
    assert (I1 : 0 <= inject_Z (Z.of_nat i)) by (change 0 with (inject_Z 0); rewrite <- Zle_Qle; lia).
    assert (I2 : inject_Z (Z.of_nat i) <= inject_Z (Z.of_nat (points - 1))) by (rewrite <- Zle_Qle; lia).
    set (k := inject_Z (Z.of_nat (points - 1))) in *. set (u := inject_Z (Z.of_nat i)) in *. clearbody k u. rewrite E.
    assert (D : 0 <= (b - a) / k) by (apply Qle_shift_div_l; lra). assert (u * ((b - a) / k) <= k * ((b - a) / k)) by (apply Qmult_le_compat_r; assumption).
    assert (k * ((b - a) / k) == b - a) by (field; lra). assert (0 <= u * ((b - a) / k)) by (apply Qmult_le_0_compat; assumption). lra.
Qed.
(** Nothing lost, nothing changed. *)
Lemma degrade_none nothing pe ne a b pe' ne' : a < b -> evenly a b points (map fst pe) -> map fst pe = map fst ne ->
  degrade nothing pe ne {| l_lli := 0; l_pe := 0; l_ne := 0 |} = Ok (pe', ne') ->
  Forall2 (fun p p' : Q * num => fst p' == fst p /\ snd p' = snd p) pe pe' /\ Forall2 (fun p p' => fst p' == fst p /\ snd p' = snd p) ne ne'.
Proof.
  intros AB EV SAME H. assert (EV2 : evenly a b points (map fst ne)) by (rewrite <- SAME; exact EV).
  unfold degrade in H. inv H sp SP. inv H sn SN. cbn [l_lli l_pe l_ne] in H.
  destruct (overlay_inv _ _ _ _ _ H) as (lo & hi & f & g & L1 & L2 & F & G & (LO1 & LO2) & (HI1 & HI2) & -> & ->). rewrite affine_length in L1, L2.
  assert (EQ : forall s q, q * (1 - 0 / 100) + 0 * s / 100 == q) by (intros; field).
  assert (EQ' : forall s q, q * (1 - 0 / 100) + (0 + 0 * s / 100) == q) by (intros; field).
  destruct (even_ends pe a b AB EV) as ((pa & PA & EA) & (pb & PB & EB) & RP). destruct (even_ends ne a b AB EV2) as (_ & _ & RN).
  assert (MEM : forall x v, In (x, v) (affine (1 - 0 / 100) (0 * sp / 100) pe ++ affine (1 - 0 / 100) (0 + 0 * sn / 100) ne) -> a <= x <= b).
  { intros x v I. apply in_app_or in I as [I|I]; rewrite affine_mapped in I; apply mapped_in in I as (p & P & E); injection E as -> _; [rewrite EQ; apply RP, P|rewrite EQ'; apply RN, P]. }
  assert (LA : lo == a). { destruct LO1 as (v & I). pose proof (MEM _ _ I). assert (lo <= fst pa * (1 - 0 / 100) + 0 * sp / 100) by (apply LO2; exists (snd pa); apply in_or_app; left; rewrite affine_mapped; apply mapped_in; eauto). rewrite EQ in *. lra. }
  assert (HB : hi == b). { destruct HI1 as (v & I). pose proof (MEM _ _ I). assert (fst pb * (1 - 0 / 100) + 0 * sp / 100 <= hi) by (apply HI2; exists (snd pb); apply in_or_app; left; rewrite affine_mapped; apply mapped_in; eauto). rewrite EQ in *. lra. }
  assert (GEN : forall (l : curve) k h, length l = points -> evenly a b points (map fst l) -> interp1d nothing None None (affine (1 - 0 / 100) k l) = Ok h -> (forall q, q * (1 - 0 / 100) + k == q) ->
    Forall2 (fun p p' : Q * num => fst p' == fst p /\ snd p' = snd p) l (sample_on h (linspace lo hi points))).
  { clear - AB LA HB. intros l k h L EV I K. assert (LEN : length l = length (sample_on h (linspace lo hi points))) by (unfold sample_on; rewrite map_length, linspace_length; exact L).
    assert (PT : forall i p, nth_error l i = Some p -> exists p' : Q * num, nth_error (sample_on h (linspace lo hi points)) i = Some p' /\ fst p' == fst p /\ snd p' = snd p).
    { intros i p N. assert (IL : (i < points)%nat) by (rewrite <- L; apply nth_error_Some; congruence).
      unfold sample_on. rewrite nth_error_map, (linspace_nth lo hi points i points_2 IL). cbn [option_map]. set (s := lo + _). exists (s, h s). split; [reflexivity|]. cbn [fst snd].
      assert (S : s == fst p). { destruct EV as (_ & EV). rewrite (EV i (fst p) (map_nth_error fst i l N)). unfold s. rewrite LA, HB. reflexivity. }
      split; [exact S|]. pose proof (interp_reads nothing _ h s I) as R. rewrite affine_mapped in R. apply (reads_mapped _ 1 0 _ _ _ ltac:(lra)) in R; [|intro x; rewrite K; ring].
      apply (reads_at _ ((s - 0) / 1) _ p (even_single l a b ltac:(lra) EV) (nth_error_In _ _ N)); [|exact R]. rewrite S. field. }
    clear - LEN PT. revert PT LEN. generalize (sample_on h (linspace lo hi points)). clear. induction l as [|p l IH]; intros [|p' l'] PT LEN; try discriminate; constructor.
    - destruct (PT 0%nat p eq_refl) as (y & Y & C). injection Y as <-. exact C.
    - apply IH; [|cbn in LEN; congruence]. intros i q N. exact (PT (S i) q N). }
  split; [apply (GEN pe _ f L1 EV F); apply EQ|apply (GEN ne _ g L2 EV2 G); apply EQ'].
Qed.
Lemma both_squares (r e : curve) : length r = length e -> exists ss,
  fold_right (fun p s => nadd (square_of p) s) (Some 0)
    (map (fun p : Q * num * (Q * num) => (snd (fst p), snd (snd p))) (filter (fun p => is_known (fst p) && is_known (snd p)) (combine r e))) = Some ss /\ ss == squares r e.
Proof.
  revert e. induction r as [|(s & v) r IH]; intros [|(s' & w) e] E; cbn [combine filter map] in *; try discriminate.
  - exists 0. split; reflexivity.
  - injection E as E. destruct (IH e E) as (ss & A & B). destruct v as [a|], w as [b|]; cbn [is_known snd fst andb]; [|exists ss; split; [exact A|cbn [squares]; exact B]..].
    cbn [map fold_right fst snd]. rewrite A. cbn [square_of nadd]. eexists. split; [reflexivity|]. cbn [squares]. rewrite B. reflexivity.
Qed.
Lemma initial_error_spec nothing quadratic root pe ne real x v : initial_error nothing quadratic root pe ne real x = Ok v -> exists pe' ne' r e ss n,
  initial_matching nothing quadratic pe ne real x = Ok (pe', ne', r, e) /\ v = Some (root ss + (1 # 100) * inject_Z (Z.of_nat n)) /\ ss == squares r e /\ unknown e n.
Proof.
  unfold initial_error. intro H. inv H ms M. destruct ms as [[[pe' ne'] r] e].
  assert (LEN : length r = length e).
  { destruct (initial_matching_inv _ _ _ _ _ _ _ _ _ _ M) as (? & ? & ? & ? & ? & ? & ? & ? & _ & _ & _ & _ & _ & _ & _ & _ & _ & _ & -> & ->). unfold sample_on. rewrite !map_length. reflexivity. }
  destruct (both_squares r e LEN) as (ss & A & B). destruct (missing_spec e) as (n & U & MI). exists pe', ne', r, e, ss, n. split; [exact M|].
  unfold euclidean in H. match type of H with context [fold_right ?f ?z ?l] => replace (fold_right f z l) with (Some ss) in H by (symmetry; exact A) end.
  rewrite MI in H. cbn [nadd] in H. split; [congruence|]. split; [exact B|exact U].
Qed.
