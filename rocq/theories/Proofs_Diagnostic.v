(** Proofs about the diagnostic configuration model. *)
From Verif Require Import Py Model_Diagnostic.

Lemma mem_z_iff x l : mem_z x l = true <-> In x l.
Proof.
  induction l as [|y l IH]; simpl; [split; [discriminate|tauto]|].
  rewrite orb_true_iff, Z.eqb_eq, IH. intuition.
Qed.
Lemma mem_z_false x l : mem_z x l = false <-> ~ In x l.
Proof. rewrite <- mem_z_iff. destruct (mem_z x l); intuition; discriminate. Qed.
Lemma to_set_in x l : In x (to_set l) <-> In x l.
Proof.
  induction l as [|y l IH]; simpl; [tauto|].
  destruct (mem_z y l) eqn:E; simpl; rewrite IH; [|tauto].
  apply mem_z_iff in E. split; auto. intros [<-|]; auto.
Qed.
Lemma to_set_nodup l : NoDup (to_set l).
Proof.
  induction l as [|y l IH]; simpl; [constructor|].
  destruct (mem_z y l) eqn:E; auto. constructor; auto.
  rewrite to_set_in. apply mem_z_false; auto.
Qed.
Lemma to_set_length_le l : (length (to_set l) <= length l)%nat.
Proof. induction l as [|y l IH]; simpl; auto. destruct (mem_z y l); simpl; lia. Qed.
Lemma to_set_length l : length (to_set l) = length l <-> NoDup l.
Proof.
  induction l as [|y l IH]; simpl; [split; auto; constructor|].
  destruct (mem_z y l) eqn:E.
  - pose proof (to_set_length_le l). split; [lia|]. inversion 1; subst.
    apply mem_z_iff in E. tauto.
  - apply mem_z_false in E. simpl. rewrite NoDup_cons_iff, <- IH. split; [auto|lia].
Qed.

Lemma NoDup_app_iff {A} (l1 l2 : list A) :
  NoDup (l1 ++ l2) <-> NoDup l1 /\ NoDup l2 /\ forall x, In x l1 -> ~ In x l2.
Proof.
  induction l1 as [|a l1 IH]; simpl.
  - split; [repeat split; auto; constructor|tauto].
  - rewrite !NoDup_cons_iff, IH, in_app_iff. split.
    + intros (H1 & H2 & H3 & H4). repeat split; auto. intros x [<-|]; auto.
    + intros ((H1 & H2) & H3 & H4). repeat split; auto. intros [?|?]; [auto|]. eapply H4; eauto.
Qed.

Definition overlap (d : list (string * list Z)) : Prop :=
  exists i j ti tj ix li lj, i <> j /\
    nth_error d i = Some (ti, li) /\ nth_error d j = Some (tj, lj) /\ In ix li /\ In ix lj.

Lemma concat_nodup (cyc : list (string * list Z)) :
  (forall p, In p cyc -> NoDup (snd p)) ->
  (NoDup (concat (map snd cyc)) <-> ~ overlap cyc).
Proof.
  induction cyc as [|[t l] cyc IH]; intro H; simpl.
  - split; [|constructor]. intros _ (i & ? & ? & ? & ? & ? & ? & ? & K & _). destruct i; discriminate.
  - rewrite NoDup_app_iff, IH by (intros; apply H; right; auto). split.
    + intros (_ & H1 & H2) (i & j & ti & tj & ix & li & lj & N & Hi & Hj & Ii & Ij).
      destruct i as [|i], j as [|j]; simpl in *; try tauto.
      * injection Hi as -> ->. apply (H2 ix); auto. apply in_concat. exists lj. split; auto.
        apply in_map_iff. exists (tj, lj). split; auto. eapply nth_error_In; eauto.
      * injection Hj as -> ->. apply (H2 ix); auto. apply in_concat. exists li. split; auto.
        apply in_map_iff. exists (ti, li). split; auto. eapply nth_error_In; eauto.
      * apply H1. exists i, j, ti, tj, ix, li, lj. repeat split; auto.
    + intro N. split; [apply (H (t, l)); left; auto|]. split.
      * intros (i & j & ti & tj & ix & li & lj & Nij & K). apply N.
        exists (S i), (S j), ti, tj, ix, li, lj. split; [lia|auto].
      * intros x Hx Hc. apply N. apply in_concat in Hc as (l' & Hl' & Hx').
        apply in_map_iff in Hl' as ([t' l''] & <- & Hin). apply In_nth_error in Hin as [j Hj].
        exists 0%nat, (S j), t, t', x, l, l''. repeat split; auto.
Qed.

Lemma list_sum_concat {A} (ls : list (list A)) : list_sum (map (@length A) ls) = length (concat ls).
Proof. induction ls; simpl; auto. rewrite app_length. lia. Qed.

Definition setify (d : list (string * list Z)) := map (fun p => (fst p, to_set (snd p))) d.
Lemma setify_nodup d p : In p (setify d) -> NoDup (snd p).
Proof. unfold setify. rewrite in_map_iff. intros (q & <- & _). apply to_set_nodup. Qed.
Lemma overlap_setify d : overlap (setify d) <-> overlap d.
Proof.
  unfold overlap, setify. split.
  - intros (i & j & ti & tj & ix & li & lj & N & Hi & Hj & Ii & Ij).
    rewrite nth_error_map in Hi, Hj.
    destruct (nth_error d i) as [[a b]|] eqn:E1; [|discriminate].
    destruct (nth_error d j) as [[a' b']|] eqn:E2; [|discriminate].
    injection Hi as <- <-. injection Hj as <- <-. simpl in *. rewrite to_set_in in Ii, Ij.
    exists i, j, a, a', ix, b, b'. repeat split; auto.
  - intros (i & j & ti & tj & ix & li & lj & N & Hi & Hj & Ii & Ij).
    exists i, j, ti, tj, ix, (to_set li), (to_set lj).
    rewrite !nth_error_map, Hi, Hj, !to_set_in. repeat split; auto.
Qed.
Lemma unique_test d :
  Nat.eqb (list_sum (map (@length Z) (map snd (setify d)))) (length (to_set (concat (map snd (setify d))))) = true
  <-> ~ overlap d.
Proof.
  rewrite Nat.eqb_eq, list_sum_concat, <- overlap_setify, <- concat_nodup by apply setify_nodup.
  rewrite <- to_set_length. split; auto.
Qed.

Lemma make_config_ok_iff d kw :
  is_ok (make_config d kw) = true <->
  d <> [] /\ ~ overlap d /\ (forall k v, In (k, v) kw -> v <> KOther).
Proof.
  unfold make_config. destruct d as [|p d]; [split; [discriminate|intros [H _]; congruence]|].
  fold (setify (p :: d)). rewrite <- unique_test.
  destruct (Nat.eqb _ _) eqn:E; simpl negb; cbn [negb].
  - destruct (forallb _ kw) eqn:F.
    + split; auto. intros _. split; [discriminate|split; auto]. intros k v Hin ->.
      rewrite forallb_forall in F. specialize (F _ Hin). discriminate.
    + split; [discriminate|]. intros (_ & _ & H). assert (forallb (fun p => kw_allowed (snd p)) kw = true); [|congruence].
      apply forallb_forall. intros [k v] Hin. specialize (H _ _ Hin). destruct v; auto; congruence.
  - split; [discriminate|]. intros (_ & K & _). discriminate.
Qed.

(** *** dictionary of cycle index -> type *)
Lemma d_get_set {V} (d : list (Z * V)) k v k' :
  d_get Z.eqb (d_set Z.eqb d k v) k' = if Z.eqb k' k then Some v else d_get Z.eqb d k'.
Proof.
  induction d as [|[a b] d IH]; simpl.
  - reflexivity.
  - destruct (Z.eqb_spec k a); simpl.
    + subst. destruct (Z.eqb_spec k' a); auto.
    + destruct (Z.eqb_spec k' a); [|apply IH]. subst. destruct (Z.eqb_spec a k); [congruence|auto].
Qed.
Lemma d_get_none_in {V} (d : list (Z * V)) k : d_get Z.eqb d k = None <-> ~ In k (map fst d).
Proof.
  induction d as [|[a b] d IH]; simpl; [tauto|].
  destruct (Z.eqb_spec k a); [|rewrite IH; intuition]. split; [discriminate|]. subst. tauto.
Qed.

Definition put_all t (ixs : list Z) (acc : list (Z * string)) :=
  fold_left (fun acc ix => d_set Z.eqb acc ix t) ixs acc.
Lemma put_all_get t ixs acc k :
  d_get Z.eqb (put_all t ixs acc) k = if mem_z k ixs then Some t else d_get Z.eqb acc k.
Proof.
  unfold put_all. revert acc. induction ixs as [|i ixs IH]; intro acc; simpl; auto.
  rewrite IH, d_get_set. destruct (mem_z k ixs); [destruct (k =? i)%Z; auto|].
  destruct (k =? i)%Z; auto.
Qed.
Definition by_ix_of (cyc : list (string * list Z)) : list (Z * string) :=
  fold_left (fun acc p => put_all (fst p) (snd p) acc) cyc [].
Lemma by_ix_gen cyc : forall acc k,
  (forall p, In p cyc -> NoDup (snd p)) -> ~ overlap cyc ->
  (forall p, In p cyc -> In k (snd p) -> d_get Z.eqb acc k = None \/ True) ->
  forall t, d_get Z.eqb (fold_left (fun acc p => put_all (fst p) (snd p) acc) cyc acc) k = Some t <->
  (exists l, In (t, l) cyc /\ In k l) \/
  ((forall t' l', In (t', l') cyc -> ~ In k l') /\ d_get Z.eqb acc k = Some t).
Proof.
  induction cyc as [|[t0 l0] cyc IH]; intros acc k ND NO _ t; simpl.
  - split; [intro; right; split; auto|]. intros [(l & [] & _)|[_ H]]; auto.
  - rewrite IH.
    2:{ intros; apply ND; right; auto. }
    2:{ intros (i & j & ti & tj & ix & li & lj & N & K). apply NO.
        exists (S i), (S j), ti, tj, ix, li, lj. split; [lia|auto]. }
    2:{ auto. }
    rewrite put_all_get. cbn [fst snd].
    assert (U : forall t1 l1, In (t1, l1) cyc -> In k l0 -> In k l1 -> False).
    { intros t1 l1 H1 H2 H3. apply NO. apply In_nth_error in H1 as [j Hj].
      exists 0%nat, (S j), t0, t1, k, l0, l1. repeat split; auto. }
    split.
    + intros [(l & H1 & H2)|[H1 H2]].
      * left. exists l. auto.
      * destruct (mem_z k l0) eqn:E.
        -- injection H2 as ->. left. exists l0. apply mem_z_iff in E. auto.
        -- apply mem_z_false in E. right. split; auto. intros t' l' [K|K]; [injection K as -> ->; auto|eauto].
    + intros [(l & [H1|H1] & H2)|[H1 H2]].
      * injection H1 as -> ->. right. split; [intros t' l' Hin Hk; eapply U; eauto|].
        replace (mem_z k l) with true; auto. symmetry. apply mem_z_iff; auto.
      * left. eauto.
      * right. split; [intros; eapply H1; eauto|]. replace (mem_z k l0) with false; auto.
        symmetry. apply mem_z_false. eapply H1; eauto.
Qed.

Lemma make_config_inv d kw c : make_config d kw = Ok c ->
  d <> [] /\ ~ overlap d /\ g_cycles c = setify d /\ g_by_ix c = by_ix_of (setify d) /\
  g_hppc c = named_ix "hppc" (setify d) /\ g_rpt c = named_ix "rpt" (setify d) /\
  g_reset c = named_ix "reset" (setify d) /\ g_params c = kw /\ g_all_ix c = map fst (g_by_ix c).
Proof.
  intro H. assert (O : is_ok (make_config d kw) = true) by (rewrite H; auto).
  apply make_config_ok_iff in O as (O1 & O2 & _).
  unfold make_config in H. destruct d as [|p d]; [discriminate|].
  destruct (negb _); [discriminate|]. destruct (forallb _ kw); [|discriminate].
  injection H as <-. simpl. repeat split; auto.
Qed.

Lemma setify_in t l d : In (t, l) (setify d) <-> exists l0, In (t, l0) d /\ l = to_set l0.
Proof.
  unfold setify. rewrite in_map_iff. split.
  - intros ([a b] & E & H). injection E as <- <-. eauto.
  - intros (l0 & H & ->). exists (t, l0). auto.
Qed.

Lemma config_type_of d kw c ix t : make_config d kw = Ok c ->
  (d_get Z.eqb (g_by_ix c) ix = Some t <-> exists l, In (t, l) d /\ In ix l).
Proof.
  intro H. apply make_config_inv in H as (_ & NO & _ & -> & _).
  unfold by_ix_of. rewrite by_ix_gen; auto; [|apply setify_nodup|rewrite overlap_setify; auto].
  simpl. split.
  - intros [(l & H1 & H2)|[_ K]]; [|discriminate]. apply setify_in in H1 as (l0 & H1 & ->).
    rewrite to_set_in in H2. eauto.
  - intros (l & H1 & H2). left. exists (to_set l). rewrite to_set_in. split; auto. apply setify_in; eauto.
Qed.
Lemma config_all_ix d kw c ix : make_config d kw = Ok c ->
  (In ix (g_all_ix c) <-> exists t l, In (t, l) d /\ In ix l).
Proof.
  intro H. pose proof (config_type_of d kw c ix) as T. specialize (fun t => T t H).
  apply make_config_inv in H as (_ & _ & _ & _ & _ & _ & _ & _ & ->).
  destruct (d_get Z.eqb (g_by_ix c) ix) as [t|] eqn:E.
  - split; intros _.
    + destruct (proj1 (T t) eq_refl) as (l & K). eauto.
    + destruct (in_dec Z.eq_dec ix (map fst (g_by_ix c))) as [|N]; auto.
      apply d_get_none_in in N. congruence.
  - split.
    + intro K. apply d_get_none_in in E. tauto.
    + intros (t & l & K). assert (None = Some t) by (apply T; eauto). discriminate.
Qed.
Lemma named_ix_in w d ix : In ix (named_ix w (setify d)) <->
  exists t l, In (t, l) d /\ In ix l /\ contains w (lower t) = true.
Proof.
  unfold named_ix. rewrite to_set_in, in_concat. split.
  - intros (l & H1 & H2). apply in_map_iff in H1 as ([t l'] & <- & H1). apply filter_In in H1 as [H1 H3].
    apply setify_in in H1 as (l0 & H1 & ->). simpl in *. rewrite to_set_in in H2. eauto.
  - intros (t & l & H1 & H2 & H3). exists (to_set l). rewrite to_set_in. split; auto.
    apply in_map_iff. exists (t, to_set l). split; auto. apply filter_In. split; auto. apply setify_in; eauto.
Qed.
Lemma config_words d kw c : make_config d kw = Ok c ->
  forall ix,
  (In ix (g_hppc c) <-> exists t l, In (t, l) d /\ In ix l /\ contains "hppc" (lower t) = true) /\
  (In ix (g_rpt c) <-> exists t l, In (t, l) d /\ In ix l /\ contains "rpt" (lower t) = true) /\
  (In ix (g_reset c) <-> exists t l, In (t, l) d /\ In ix l /\ contains "reset" (lower t) = true).
Proof.
  intros H ix. apply make_config_inv in H as (_ & _ & _ & _ & -> & -> & -> & _).
  rewrite !named_ix_in. intuition.
Qed.
Lemma config_cycles d kw c : make_config d kw = Ok c ->
  map fst (g_cycles c) = map fst d /\
  forall i t l, nth_error d i = Some (t, l) ->
    exists l', nth_error (g_cycles c) i = Some (t, l') /\ NoDup l' /\ forall ix, In ix l' <-> In ix l.
Proof.
  intro H. apply make_config_inv in H as (_ & _ & -> & _). split.
  - unfold setify. rewrite map_map. apply map_ext. auto.
  - intros i t l Hi. exists (to_set l). unfold setify. rewrite nth_error_map, Hi. repeat split; auto.
    + apply to_set_nodup.
    + apply to_set_in.
    + apply to_set_in.
Qed.

(** [contains] is the substring relation. *)
Lemma prefix_iff p s : prefix p s = true <-> exists r, s = (p ++ r)%string.
Proof.
  revert s. induction p as [|a p IH]; intro s; simpl.
  - split; [intros _; exists s; reflexivity|intros _; destruct s; reflexivity].
  - destruct s as [|b s]; [split; [discriminate|intros [r K]; discriminate]|].
    cbn [prefix]; destruct (ascii_dec a b) as [->|N].
    + rewrite IH. split; intros [r K]; exists r; [congruence|injection K as ->; auto].
    + split; [discriminate|]. intros [r K]. injection K as -> _. congruence.
Qed.
Lemma contains_iff p s : contains p s = true <-> exists a b, s = (a ++ p ++ b)%string.
Proof.
  induction s as [|c s IH]; cbn [contains]; rewrite orb_true_iff, prefix_iff.
  - split.
    + intros [[r H]|H]; [|discriminate]. exists ""%string, r. auto.
    + intros (a & b & H). left. destruct a; [eauto|discriminate].
  - rewrite IH. split.
    + intros [[r H]|(a & b & ->)]; [exists ""%string, r; auto|exists (String c a), b; auto].
    + intros ([|c' a] & b & H); [left; eauto|]. injection H as -> ->. right; eauto.
Qed.

(** *** round trip *)
Lemma to_set_id l : NoDup l -> to_set l = l.
Proof.
  induction 1 as [|x l Hx Hl IH]; simpl; auto.
  apply mem_z_false in Hx. rewrite Hx, IH. auto.
Qed.
Lemma setify_idem d : setify (setify d) = setify d.
Proof.
  unfold setify. rewrite map_map. apply map_ext. intros [t l]. simpl. f_equal. apply to_set_id, to_set_nodup.
Qed.
Lemma round_trip d kw c : make_config d kw = Ok c -> from_dict (as_dict c) = Ok c.
Proof.
  intro H. pose proof H as H0. apply make_config_inv in H0 as (D & NO & C & _ & _ & _ & _ & P & _).
  unfold from_dict, as_dict; simpl. rewrite C, P.
  unfold make_config in *. destruct d as [|p d]; [congruence|].
  change (setify (p :: d)) with ((fst p, to_set (snd p)) :: setify d) at 1.
  cbv iota. fold (setify (setify (p :: d))). rewrite setify_idem.
  fold (setify (p :: d)) in H. exact H.
Qed.

(** *** from_step_numbers *)
Lemma uniq_aux_in seen l x : In x (uniq_aux seen l) <-> In x l /\ ~ In x seen.
Proof.
  revert seen. induction l as [|y l IH]; intro seen; simpl; [tauto|].
  destruct (mem_z y seen) eqn:E.
  - rewrite IH. apply mem_z_iff in E. split; [tauto|]. intros [[<-|?] ?]; tauto.
  - apply mem_z_false in E. simpl. rewrite IH. simpl. split.
    + intros [<-|[? ?]]; tauto.
    + intros [[<-|?] ?]; auto. destruct (Z.eq_dec y x); tauto.
Qed.
Lemma uniq_in l x : In x (uniq l) <-> In x l.
Proof. unfold uniq. rewrite uniq_aux_in. simpl. tauto. Qed.
Lemma uniq_aux_nodup seen l : NoDup (uniq_aux seen l).
Proof.
  revert seen. induction l as [|y l IH]; intro seen; simpl; [constructor|].
  destruct (mem_z y seen) eqn:E; auto. constructor; auto. rewrite uniq_aux_in. simpl. tauto.
Qed.
Lemma uniq_nodup l : NoDup (uniq l).
Proof. apply uniq_aux_nodup. Qed.

Definition steps_of (rows : list rawrow) (cix : Z) : list Z :=
  map w_step (filter (fun w => Z.eqb (w_cycle w) cix) rows).
Lemma steps_of_in rows cix s : In s (steps_of rows cix) <-> exists w, In w rows /\ w_cycle w = cix /\ w_step w = s.
Proof.
  unfold steps_of. rewrite in_map_iff. split.
  - intros (w & <- & H). apply filter_In in H as [H1 H2]. apply Z.eqb_eq in H2. eauto.
  - intros (w & H1 & H2 & H3). exists w. split; auto. apply filter_In. split; auto. apply Z.eqb_eq; auto.
Qed.

(** A cycle with step set [steps] matches pattern [pat] under [rule]. *)
Definition pattern_matches (rule : string) (steps pat : list Z) : Prop :=
  (rule = "contains"%string /\ forall s, In s pat -> In s steps) \/
  (rule = "exact"%string /\ forall s, In s pat <-> In s steps).

Lemma match_patterns_iff mt u pats : NoDup u -> str_in mt ["contains"; "exact"]%string = true ->
  (match_patterns mt u pats = true <-> exists pat, In pat pats /\ pattern_matches mt u pat).
Proof.
  intros ND V. induction pats as [|pat pats IH]; simpl.
  - split; [discriminate|]. intros (? & [] & _).
  - assert (AP : forallb (fun sn => mem_z sn u) pat = true <-> forall s, In s pat -> In s u).
    { rewrite forallb_forall. split; intros H s Hs; apply mem_z_iff; auto. }
    assert (EX : forallb (fun sn => mem_z sn u) pat && Nat.eqb (length u) (length (to_set pat)) = true
                 <-> forall s, In s pat <-> In s u).
    { rewrite andb_true_iff, AP, Nat.eqb_eq. split.
      - intros [H1 H2] s. split; auto. rewrite <- (to_set_in s pat).
        apply (NoDup_length_incl (to_set_nodup pat)); [lia|].
        intros x Hx. apply H1, to_set_in; auto.
      - intro H. split; [intros; apply H; auto|]. apply Nat.le_antisymm.
        + apply NoDup_incl_length; auto. intros x Hx. apply to_set_in, H; auto.
        + apply NoDup_incl_length; [apply to_set_nodup|]. intros x Hx. apply to_set_in, H in Hx. auto. }
    unfold str_in in V. simpl in V. rewrite orb_false_r in V.
    destruct (String.eqb_spec mt "contains") as [->|N1]; simpl.
    + destruct (forallb (fun sn => mem_z sn u) pat) eqn:E; simpl.
      * split; auto. intros _. exists pat. split; auto. left. split; auto. apply AP; auto.
      * rewrite IH. split; intros (q & H1 & H2); exists q; split; auto.
        destruct H1 as [<-|]; auto. exfalso. destruct H2 as [[_ H]|[K _]]; [|discriminate].
        apply AP in H. discriminate.
    + destruct (String.eqb_spec mt "exact") as [->|]; [|discriminate].
      destruct (_ && _) eqn:E.
      * split; auto. intros _. exists pat. split; auto. right. split; auto. apply EX; auto.
      * rewrite IH. split; intros (q & H1 & H2); exists q; split; auto.
        destruct H1 as [<-|]; auto. exfalso. destruct H2 as [[K _]|[_ H]]; [discriminate|].
        apply EX in H. discriminate.
Qed.

Lemma sget_in {V} (d : list (string * V)) k v : NoDup (map fst d) -> (sget d k = Some v <-> In (k, v) d).
Proof.
  unfold sget. induction d as [|[a b] d IH]; simpl; intro ND; [split; [discriminate|tauto]|].
  inversion ND; subst. destruct (String.eqb_spec k a).
  - subst. split; [intro H; injection H as ->; auto|]. intros [H|H]; [injection H as ->; auto|].
    exfalso. apply H1. apply in_map_iff. exists (a, v). auto.
  - rewrite IH by auto. split; auto. intros [H|H]; auto. congruence.
Qed.

Section Fold.
  Variables (rows : list rawrow) (crit : criteria).
  Hypothesis ND : NoDup (map fst crit).
  Definition hits (t : string) (cix : Z) : bool :=
    match sget crit t with
    | Some (mt, pats) => match_patterns mt (uniq (steps_of rows cix)) pats
    | None => false
    end.
  Lemma add_cycle_eq acc cix : add_cycle rows crit acc cix =
    map (fun e => (fst e, snd e ++ (if hits (fst e) cix then [cix] else []))) acc.
  Proof.
    unfold add_cycle, hits. apply map_ext. intros [t l]. simpl.
    destruct (sget crit t) as [[mt pats]|]; [|rewrite app_nil_r; auto].
    unfold steps_of. destruct (match_patterns _ _ _); auto. rewrite app_nil_r; auto.
  Qed.
  Lemma fold_add_cycle cixs : forall acc,
    fold_left (add_cycle rows crit) cixs acc =
    map (fun e => (fst e, snd e ++ filter (hits (fst e)) cixs)) acc.
  Proof.
    induction cixs as [|c cixs IH]; intro acc; simpl.
    - rewrite <- (map_id acc) at 1. apply map_ext. intros [t l]. simpl. rewrite app_nil_r; auto.
    - rewrite IH, add_cycle_eq, map_map. apply map_ext. intros [t l]. simpl. f_equal.
      rewrite <- app_assoc. f_equal. destruct (hits t c); auto.
  Qed.
  Definition detected : list (string * list Z) :=
    map (fun c => (fst c, filter (hits (fst c)) (uniq (map w_cycle rows)))) crit.
  Lemma detected_eq :
    fold_left (add_cycle rows crit) (uniq (map w_cycle rows)) (map (fun c => (fst c, @nil Z)) crit) = detected.
  Proof. rewrite fold_add_cycle, map_map. reflexivity. Qed.
End Fold.

(** Which cycles carry which type, declaratively. *)
Definition cycle_has_type (rows : list rawrow) (crit : criteria) (t : string) (cix : Z) : Prop :=
  exists mt pats pat,
    In (t, (mt, pats)) crit /\ In pat pats /\ In cix (map w_cycle rows) /\
    pattern_matches mt (map w_step (filter (fun w => Z.eqb (w_cycle w) cix) rows)) pat.

Lemma pattern_matches_uniq mt u pat : pattern_matches mt (uniq u) pat <-> pattern_matches mt u pat.
Proof.
  unfold pattern_matches. split; intros [[-> H]|[-> H]]; [left|right|left|right]; split; auto; intro s;
    specialize (H s); rewrite ?uniq_in in *; auto.
Qed.

Lemma detected_in rows crit t l cix :
  NoDup (map fst crit) -> forallb (fun c => str_in (fst (snd c)) ["contains"; "exact"]%string) crit = true ->
  In (t, l) (detected rows crit) ->
  (In cix l <-> cycle_has_type rows crit t cix).
Proof.
  intros ND V H. unfold detected in H. apply in_map_iff in H as ([t0 [mt pats]] & E & Hin).
  injection E as <- <-. rewrite filter_In, uniq_in. unfold hits. simpl.
  replace (sget crit t0) with (Some (mt, pats)) by (symmetry; apply sget_in; auto).
  rewrite match_patterns_iff; [|apply uniq_nodup|rewrite forallb_forall in V; apply (V _ Hin)].
  split.
  - intros [H1 (pat & H2 & H3)]. exists mt, pats, pat. apply (proj1 (pattern_matches_uniq _ _ _)) in H3. repeat split; auto.
  - intros (mt' & pats' & pat & H1 & H2 & H3 & H4). split; auto.
    assert (K : Some (mt', pats') = Some (mt, pats)).
    { rewrite <- (proj2 (sget_in crit t0 (mt', pats') ND) H1). apply sget_in; auto. }
    injection K as -> ->. exists pat. split; auto. apply pattern_matches_uniq; auto.
Qed.

Lemma from_step_numbers_types rows crit kw c :
  NoDup (map fst crit) -> from_step_numbers true rows crit kw = Ok c ->
  forall t cix, (d_get Z.eqb (g_by_ix c) cix = Some t <-> cycle_has_type rows crit t cix).
Proof.
  intros ND H t cix. unfold from_step_numbers in H. cbn [negb] in H.
  destruct (forallb _ crit) eqn:V; cbn [negb] in H; [|discriminate].
  rewrite detected_eq in H.
  rewrite (config_type_of _ _ _ _ _ H). split.
  - intros (l & H1 & H2). apply (detected_in _ _ _ _ _ ND V H1); auto.
  - intro K. pose proof K as (mt & pats & pat & K1 & _).
    exists (filter (hits rows crit t) (uniq (map w_cycle rows))).
    assert (In (t, filter (hits rows crit t) (uniq (map w_cycle rows))) (detected rows crit)).
    { unfold detected. apply in_map_iff. exists (t, (mt, pats)). auto. }
    split; auto. apply (detected_in _ _ _ _ _ ND V H0); auto.
Qed.

Lemma from_step_numbers_ok_iff has rows crit kw :
  NoDup (map fst crit) ->
  (is_ok (from_step_numbers has rows crit kw) = true <->
   has = true /\ crit <> [] /\
   (forall t mt pats, In (t, (mt, pats)) crit -> mt = "contains"%string \/ mt = "exact"%string) /\
   (forall t t' cix, cycle_has_type rows crit t cix -> cycle_has_type rows crit t' cix -> t = t') /\
   (forall k v, In (k, v) kw -> v <> KOther)).
Proof.
  intro ND. unfold from_step_numbers. destruct has; cbn [negb].
  2:{ split; [discriminate|]. intros [K _]; discriminate. }
  assert (R : forallb (fun c => str_in (fst (snd c)) ["contains"; "exact"]%string) crit = true <->
     (forall t mt pats, In (t, (mt, pats)) crit -> mt = "contains"%string \/ mt = "exact"%string)).
  { rewrite forallb_forall. split.
    - intros H t mt pats Hin. specialize (H _ Hin). unfold str_in in H. simpl in H.
      rewrite !orb_true_iff, !String.eqb_eq in H. intuition; discriminate.
    - intros H [t [mt pats]] Hin. destruct (H _ _ _ Hin) as [-> | ->]; reflexivity. }
  destruct (forallb _ crit) eqn:V; cbn [negb].
  2:{ split; [discriminate|]. intros (_ & _ & H & _). apply R in H. discriminate. }
  rewrite detected_eq, make_config_ok_iff.
  assert (E : detected rows crit <> [] <-> crit <> []).
  { unfold detected. destruct crit; simpl; split; congruence. }
  assert (O : ~ overlap (detected rows crit) <->
    (forall t t' cix, cycle_has_type rows crit t cix -> cycle_has_type rows crit t' cix -> t = t')).
  { split.
    - intros NO t t' cix H1 H2. destruct (String.string_dec t t') as [|N]; auto. exfalso. apply NO.
      pose proof H1 as (mt & pats & pat & K1 & _). pose proof H2 as (mt' & pats' & pat' & K1' & _).
      apply In_nth_error in K1 as [i Hi], K1' as [j Hj].
      assert (Di : nth_error (detected rows crit) i = Some (t, filter (hits rows crit t) (uniq (map w_cycle rows)))).
      { unfold detected. rewrite nth_error_map, Hi. reflexivity. }
      assert (Dj : nth_error (detected rows crit) j = Some (t', filter (hits rows crit t') (uniq (map w_cycle rows)))).
      { unfold detected. rewrite nth_error_map, Hj. reflexivity. }
      exists i, j, t, t', cix. eexists _, _. repeat split; eauto.
      + intros ->. congruence.
      + apply (detected_in _ _ _ _ _ ND V (nth_error_In _ _ Di)); auto.
      + apply (detected_in _ _ _ _ _ ND V (nth_error_In _ _ Dj)); auto.
    - intros U (i & j & ti & tj & ix & li & lj & N & Hi & Hj & Ii & Ij).
      assert (ti = tj).
      { apply (U ti tj ix).
        - apply (detected_in _ _ _ _ _ ND V (nth_error_In _ _ Hi)); auto.
        - apply (detected_in _ _ _ _ _ ND V (nth_error_In _ _ Hj)); auto. }
      subst tj. apply N. apply (NoDup_nth_error (map fst crit)); auto.
      + unfold detected in Hi. rewrite nth_error_map in Hi.
        rewrite map_length. apply nth_error_Some. destruct (nth_error crit i); [discriminate|discriminate].
      + unfold detected in Hi, Hj. rewrite nth_error_map in Hi, Hj. rewrite !nth_error_map.
        destruct (nth_error crit i) as [[? ?]|]; [|discriminate].
        destruct (nth_error crit j) as [[? ?]|]; [|discriminate]. injection Hi as ? ?; injection Hj as ? ?.
        simpl in *. congruence. }
  rewrite E, O, <- R. intuition.
Qed.

(** Only the set of (cycle, step) pairs matters. *)
Lemma cycle_has_type_set rows rows' crit t cix :
  (forall cy st, In {| w_cycle := cy; w_step := st |} rows <-> In {| w_cycle := cy; w_step := st |} rows') ->
  cycle_has_type rows crit t cix -> cycle_has_type rows' crit t cix.
Proof.
  intros S (mt & pats & pat & H1 & H2 & H3 & H4). exists mt, pats, pat. repeat split; auto.
  - apply in_map_iff in H3 as ([cy st] & <- & H3). apply in_map_iff. exists {| w_cycle := cy; w_step := st |}.
    split; auto. apply S; auto.
  - assert (Q : forall s, In s (steps_of rows cix) <-> In s (steps_of rows' cix)).
    { intro s. rewrite !steps_of_in. split; intros ([cy st] & K & E1 & E2); exists {| w_cycle := cy; w_step := st |};
        repeat split; auto; apply S; auto. }
    fold (steps_of rows cix) in H4. fold (steps_of rows' cix).
    destruct H4 as [[-> H]|[-> H]]; [left|right]; split; auto.
    + intros s Hs. apply Q; auto.
    + intro s. rewrite <- Q. apply H.
Qed.
