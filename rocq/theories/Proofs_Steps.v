From Verif Require Import Py Num Model_Raw.

Lemma complement s b : step_is_chg_state s true b = negb (step_is_chg_state s false b).
Proof. unfold step_is_chg_state. destruct (is_charging s) as [[]|], b; reflexivity. Qed.

(** telescoping *)
Lemma diff_from_sum : forall (cs : list Q) p,
  qsum (dropna (diff_from (Some p) (map Some cs))) == last cs p - p.
Proof.
  induction cs as [|c cs IH]; intro p; simpl.
  - ring.
  - rewrite IH. destruct cs as [|c' cs']; simpl.
    + ring.
    + assert (E : last (c' :: cs') c = last (c' :: cs') p).
      { clear. revert c'. induction cs' as [|x l IH]; intro c'; simpl; auto. apply IH. }
      change (match cs' with [] => c' | _ :: _ => last cs' c end) with (last (c' :: cs') c).
      change (match cs' with [] => c' | _ :: _ => last cs' p end) with (last (c' :: cs') p).
      rewrite E. ring.
Qed.
Lemma diff_from_len : forall (cs : list Q) p,
  length (dropna (diff_from (Some p) (map Some cs))) = length cs.
Proof. induction cs as [|c cs IH]; intro p; simpl; auto. Qed.

Lemma dropna_some cs : dropna (map Some cs) = cs.
Proof. induction cs; simpl; congruence. Qed.
Lemma in_map_some (x : Q) cs : In (Some x) (map Some cs) <-> In x cs.
Proof. rewrite in_map_iff. split; [intros (y & E & H); injection E as ->; auto|eauto]. Qed.

Lemma total_some c cs : exists mx mn, col_max (map Some (c :: cs)) = Some mx /\ col_min (map Some (c :: cs)) = Some mn /\
  In mx (c :: cs) /\ In mn (c :: cs) /\ (forall x, In x (c :: cs) -> mn <= x <= mx).
Proof.
  pose proof (col_max_spec (map Some (c :: cs))) as M. pose proof (col_min_spec (map Some (c :: cs))) as N.
  destruct (col_max (map Some (c :: cs))) as [mx|]; [|exfalso; apply (M c); left; auto].
  destruct (col_min (map Some (c :: cs))) as [mn|]; [|exfalso; apply (N c); left; auto].
  exists mx, mn. destruct M as [M1 M2], N as [N1 N2]. rewrite !in_map_some in *.
  repeat split; auto; intros; [apply N2|apply M2]; apply in_map_some; auto.
Qed.

(** No consecutive increase exceeds 99% of the column's whole range. *)
Definition no_spike (cs : list Q) : Prop :=
  forall i a b, nth_error cs i = Some a -> nth_error cs (S i) = Some b ->
    exists hi lo, In hi cs /\ In lo cs /\ b - a <= (99 # 100) * (hi - lo).

Lemma flagged_false t d : 0 <= t -> d <= (99#100) * t -> flagged (Some t) (Some d) = false.
Proof.
  intros Ht Hd. unfold flagged. destruct (Qeq_bool t 0) eqn:E.
  - apply Qeq_bool_iff in E. apply Qlt_bool_false. rewrite E in Hd. lra.
  - apply Qlt_bool_false. assert (0 < t).
    { apply Qle_lteq in Ht as [|H]; auto. apply Qeq_bool_neq in E. symmetry in H. contradiction. }
    apply Qle_shift_div_r; auto.
Qed.

Lemma unflag_from t : 0 <= t -> forall cs p,
  (forall i a b, nth_error (p :: cs) i = Some a -> nth_error (p :: cs) (S i) = Some b -> b - a <= (99#100) * t) ->
  map (fun d => if flagged (Some t) d then None else d) (diff_from (Some p) (map Some cs)) =
  diff_from (Some p) (map Some cs).
Proof.
  intros Ht. induction cs as [|c cs IH]; intros p H; cbn [map diff_from]; auto.
  rewrite IH.
  - unfold nsub. rewrite flagged_false; auto. apply (H 0%nat); reflexivity.
  - intros i a b Ha Hb. apply (H (S i)); auto.
Qed.

Lemma last_cons_last (p c : Q) cs : last (c :: cs) p = last (p :: c :: cs) p.
Proof. reflexivity. Qed.

Lemma avg_delta_net c c' cs : no_spike (c :: c' :: cs) ->
  exists a, avg_delta (map Some (c :: c' :: cs)) = Some a /\
    a * inject_Z (Z.of_nat (S (length cs))) == last (c' :: cs) c - c.
Proof.
  intro NS. unfold avg_delta, total_diff.
  destruct (total_some c (c' :: cs)) as (mx & mn & -> & -> & Imx & Imn & B). cbn [nsub].
  assert (T : 0 <= mx - mn). { destruct (B mx Imx); lra. }
  cbn [map diff]. 
  replace (flagged (Some (mx - mn)) None) with false by reflexivity.
  unfold mean. cbn [dropna map].
  assert (E : map (fun d => if flagged (Some (mx - mn)) d then None else d)
             (diff_from (Some c) (Some c' :: map Some cs)) = diff_from (Some c) (map Some (c' :: cs))).
  { apply (unflag_from (mx - mn) T (c' :: cs) c). intros i a b Ha Hb.
    destruct (NS i a b Ha Hb) as (hi & lo & Hh & Hl & K).
    destruct (B hi Hh), (B lo Hl). nra. }
  rewrite E. clear E. pose proof (diff_from_len (c' :: cs) c) as L. pose proof (diff_from_sum (c' :: cs) c) as S.
  destruct (dropna _) as [|x xs] eqn:D; [discriminate|]. rewrite L.
  eexists. split; [reflexivity|]. rewrite S. cbn [length]. field.
  intro K. apply (eq_sym) in K || idtac. unfold Qeq in K; simpl in K. lia.
Qed.

Definition net (cs : list Q) : Q := match cs with [] => 0 | c :: r => last r c - c end.

Lemma classify_net s cc dc b :
  map charge_capacity s = map Some cc -> map discharge_capacity s = map Some dc ->
  (2 <= length s)%nat -> no_spike cc -> no_spike dc ->
  (net dc < net cc -> 0 < net cc -> step_is_chg_state s true b = true) /\
  (net cc < net dc -> 0 < net dc -> step_is_chg_state s false b = true) /\
  (net cc == net dc \/ (net cc <= 0 /\ net dc <= 0) -> forall chg, step_is_chg_state s chg b = Bool.eqb chg b).
Proof.
  intros Hc Hd L Nc Nd.
  assert (Lc : length cc = length s). { rewrite <- (map_length charge_capacity s), Hc, map_length; auto. }
  assert (Ld : length dc = length s). { rewrite <- (map_length discharge_capacity s), Hd, map_length; auto. }
  destruct cc as [|c [|c' cc]]; simpl in Lc; try lia.
  destruct dc as [|d [|d' dc]]; simpl in Ld; try lia.
  destruct (avg_delta_net c c' cc Nc) as (ac & Ec & Kc).
  destruct (avg_delta_net d d' dc Nd) as (ad & Ed & Kd).
  assert (EL : length dc = length cc) by lia. rewrite EL in Kd.
  set (k := inject_Z (Z.of_nat (S (length cc)))) in *.
  assert (Kpos : 0 < k). { unfold k. unfold Qlt; simpl. lia. }
  fold (net (c :: c' :: cc)) in Kc. fold (net (d :: d' :: dc)) in Kd.
  change (last (c' :: cc) c - c) with (net (c :: c' :: cc)) in Kc.
  change (last (d' :: dc) d - d) with (net (d :: d' :: dc)) in Kd.
  remember (net (c :: c' :: cc)) as nc. remember (net (d :: d' :: dc)) as nd.
  assert (CC : step_is_chg_state s = fun chg ind => match charging_of (Some ac) (Some ad) with
     | None => Bool.eqb chg ind | Some b => Bool.eqb chg b end).
  { unfold step_is_chg_state, is_charging. rewrite Hc, Hd, Ec, Ed. reflexivity. }
  rewrite CC. unfold charging_of.
  assert (P1 : forall x y z, x * k == y -> (y < z * k -> x < z)).
  { intros x y z E H. rewrite <- E in H. apply Qmult_lt_r in H; auto. }
  repeat split.
  - intros H1 H2. assert (ad < ac). { apply (P1 _ nd); auto. rewrite Kc. auto. }
    assert (0 < ac). { apply (P1 0 0); [ring|rewrite Kc; auto]. }
    apply Qlt_bool_iff in H, H0. rewrite H, H0. reflexivity.
  - intros H1 H2. assert (ac < ad). { apply (P1 _ nc); auto. rewrite Kd. auto. }
    assert (0 < ad). { apply (P1 0 0); [ring|rewrite Kd; auto]. }
    assert (Q : Qlt_bool ad ac = false) by (apply Qlt_bool_false; lra). rewrite Q.
    apply Qlt_bool_iff in H, H0. rewrite H, H0. reflexivity.
  - intros H chg.
    assert (Q1 : Qlt_bool ad ac && Qlt_bool 0 ac = false).
    { apply andb_false_iff. destruct H as [H|[H1 H2]].
      - left. apply Qlt_bool_false. apply Qnot_lt_le. intro K. apply (Qmult_lt_r _ _ k) in K; auto.
        rewrite Kc, Kd, H in K. lra.
      - right. apply Qlt_bool_false. apply Qnot_lt_le. intro K. apply (Qmult_lt_r _ _ k) in K; auto.
        rewrite Kc in K. lra. }
    assert (Q2 : Qlt_bool ac ad && Qlt_bool 0 ad = false).
    { apply andb_false_iff. destruct H as [H|[H1 H2]].
      - left. apply Qlt_bool_false. apply Qnot_lt_le. intro K. apply (Qmult_lt_r _ _ k) in K; auto.
        rewrite Kc, Kd, H in K. lra.
      - right. apply Qlt_bool_false. apply Qnot_lt_le. intro K. apply (Qmult_lt_r _ _ k) in K; auto.
        rewrite Kd in K. lra. }
    rewrite Q1, Q2. reflexivity.
Qed.
