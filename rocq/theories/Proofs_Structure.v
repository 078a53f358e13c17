From Coq Require Import Permutation Sorted.
From Verif Require Import Py Num Model_Raw Model_Interp Spec_Interp Proofs_Interp
  Model_Diagnostic Proofs_Diagnostic Model_Structure Spec_Structure.

Lemma insert_z_perm x l : Permutation (insert_z x l) (x :: l).
Proof. induction l as [|y l IH]; simpl; auto. destruct (Z.leb x y); auto. rewrite IH. apply perm_swap. Qed.
Lemma sort_z_perm l : Permutation (sort_z l) l.
Proof. induction l as [|x l IH]; simpl; auto. rewrite insert_z_perm. auto. Qed.
Lemma sort_z_in x l : In x (sort_z l) <-> In x l.
Proof. split; apply Permutation_in; [apply sort_z_perm|apply Permutation_sym, sort_z_perm]. Qed.
Lemma insert_z_sorted x l : StronglySorted Z.le l -> StronglySorted Z.le (insert_z x l).
Proof.
  induction 1 as [|y l Hl IH Hy]; simpl; [repeat constructor|].
  destruct (Z.leb_spec x y).
  - constructor; [constructor; auto|]. constructor; auto. eapply Forall_impl; [|exact Hy]. simpl; intros; lia.
  - constructor; auto. apply Forall_forall. intros z Hz. apply (Permutation_in _ (insert_z_perm x l)) in Hz as [<-|Hz]; [lia|].
    rewrite Forall_forall in Hy; auto.
Qed.
Lemma sort_z_sorted l : StronglySorted Z.le (sort_z l).
Proof. induction l; simpl; [constructor|apply insert_z_sorted; auto]. Qed.
Lemma SS_le_nodup l : StronglySorted Z.le l -> NoDup l -> StronglySorted Z.lt l.
Proof.
  induction 1 as [|x l Hl IH Hx]; intro ND; inversion ND; subst; constructor; auto.
  rewrite Forall_forall in *. intros y Hy. specialize (Hx y Hy). assert (x <> y) by (intros ->; auto). lia.
Qed.
Lemma sort_z_strict l : NoDup l -> StronglySorted Z.lt (sort_z l).
Proof.
  intro ND. apply SS_le_nodup; [apply sort_z_sorted|]. eapply Permutation_NoDup; [apply Permutation_sym, sort_z_perm|auto].
Qed.
Lemma SS_lt_nodup l : StronglySorted Z.lt l -> NoDup l.
Proof.
  induction 1 as [|x l Hl IH Hx]; constructor; auto. intro H. rewrite Forall_forall in Hx. specialize (Hx _ H). lia.
Qed.

Lemma mapM_ok {A B} (f : A -> result B) l ys : mapM f l = Ok ys <-> Forall2 (fun x y => f x = Ok y) l ys.
Proof.
  revert ys. induction l as [|x l IH]; intro ys; simpl.
  - split; intro H; [injection H as <-; constructor|inversion H; auto].
  - destruct (f x) eqn:E; simpl.
    + destruct (mapM f l) eqn:M; simpl.
      * split; intro H.
        -- injection H as <-. constructor; auto. apply IH; auto.
        -- inversion H; subst. assert (K : Ok a0 = Ok l') by (apply IH; auto). congruence.
      * split; [discriminate|]. intro H. inversion H; subst. assert (K : Err e = Ok l') by (apply IH; auto). discriminate.
    + split; [discriminate|]. intro H. inversion H; subst. congruence.
Qed.

Lemma filter_filter {A} (p q : A -> bool) l : filter p (filter q l) = filter (fun x => q x && p x) l.
Proof. induction l as [|x l IH]; simpl; auto. destruct (q x); simpl; [destruct (p x); congruence|auto]. Qed.

(** The (cycle, step) groups that are interpolated. *)
Definition keys raw ind chg reg exclude : list (Z * (Z * list row)) :=
  flat_map (fun c => map (fun g => (c, g)) (iterate_steps raw ind c chg))
    (sort_z (filter (fun c => mem_z c reg && negb (mem_z c exclude)) (uniq (map cycle_index raw)))).

Lemma iterate_steps_in raw ind c chg s rows : In (s, rows) (iterate_steps raw ind c chg) <->
  rows = rows_of_step raw c s /\ rows <> [] /\ step_is_chg_state rows chg ind = true.
Proof.
  unfold iterate_steps, rows_of_step. rewrite filter_In, in_map_iff. simpl. split.
  - intros [(s' & E & H) T]. injection E as -> <-. rewrite filter_filter in *.
    apply sort_z_in, (proj1 (uniq_in _ _)), in_map_iff in H as (r & <- & H). repeat split; auto.
    intro K. apply filter_In in H as [H1 H2].
    assert (In r []); [|auto]. rewrite <- K. apply filter_In. rewrite H2, Z.eqb_refl. auto.
  - intros (-> & N & T). split; auto. exists s. rewrite filter_filter. split; auto.
    apply sort_z_in, uniq_in. destruct (filter _ raw) as [|r l] eqn:E; [congruence|].
    assert (H : In r (r :: l)) by (left; auto). rewrite <- E in H. apply filter_In in H as [H1 H2].
    apply andb_true_iff in H2 as [H2 H3]. apply Z.eqb_eq in H3. subst s. apply in_map. apply filter_In; auto.
Qed.

Lemma keys_in raw ind chg reg exclude c s rows : In (c, (s, rows)) (keys raw ind chg reg exclude) <->
  In c reg /\ ~ In c exclude /\ rows = rows_of_step raw c s /\ rows <> [] /\ step_is_chg_state rows chg ind = true.
Proof.
  unfold keys. rewrite in_flat_map. split.
  - intros (c' & H & K). apply in_map_iff in K as (g & E & K). injection E as -> ->. apply iterate_steps_in in K as (K1 & K2 & K3).
    apply sort_z_in, filter_In in H as [_ H]. apply andb_true_iff in H as [H1 H2].
    apply mem_z_iff in H1. apply negb_true_iff, mem_z_false in H2. auto.
  - intros (H1 & H2 & H3 & H4 & H5). exists c. split.
    + apply sort_z_in, filter_In. split.
      * apply uniq_in. subst rows. unfold rows_of_step in H4. destruct (filter _ raw) as [|r l] eqn:E; [congruence|].
        assert (H : In r (r :: l)) by (left; auto). rewrite <- E in H. apply filter_In in H as [H6 H7].
        apply andb_true_iff in H7 as [H7 _]. apply Z.eqb_eq in H7. subst c. apply in_map; auto.
      * apply andb_true_iff. split; [apply mem_z_iff; auto|apply negb_true_iff, mem_z_false; auto].
    + apply in_map_iff. exists (s, rows). split; auto. apply iterate_steps_in; auto.
Qed.

Lemma F2_impl {A B} (P P' : A -> B -> Prop) l m : (forall a b, P a b -> P' a b) -> Forall2 P l m -> Forall2 P' l m.
Proof. intros I. induction 1; constructor; auto. Qed.
Lemma F2_length {A B} (P : A -> B -> Prop) l m : Forall2 P l m -> length l = length m.
Proof. induction 1; simpl; auto. Qed.
(** lexicographic order of (cycle, step) *)
Definition lex (a b : Z * Z) : Prop := (fst a < fst b)%Z \/ (fst a = fst b /\ (snd a < snd b)%Z).
Lemma SS_appI {A} (R : A -> A -> Prop) l1 l2 : StronglySorted R l1 -> StronglySorted R l2 ->
  (forall a b, In a l1 -> In b l2 -> R a b) -> StronglySorted R (l1 ++ l2).
Proof.
  induction 1 as [|x l Hl IH Hx]; simpl; auto. intros S2 H. constructor.
  - apply IH; auto.
  - apply Forall_app. split; auto. apply Forall_forall. intros; apply H; auto.
Qed.
Lemma SS_weak {A} (R R' : A -> A -> Prop) l : (forall a b, R a b -> R' a b) -> StronglySorted R l -> StronglySorted R' l.
Proof. intros I. induction 1 as [|x l Hl IH Hx]; constructor; auto. eapply Forall_impl; [|exact Hx]. auto. Qed.

Lemma iterate_steps_sorted raw ind c chg :
  StronglySorted (fun a b : Z * list row => (fst a < fst b)%Z) (iterate_steps raw ind c chg).
Proof.
  unfold iterate_steps. apply SS_filter.
  apply (proj1 (SS_map (fun s => (s, filter (fun r => Z.eqb (step_index r) s) (filter (fun r => Z.eqb (cycle_index r) c) raw)))
     (fun a b : Z * list row => (fst a < fst b)%Z) _)).
  simpl. apply sort_z_strict, uniq_nodup.
Qed.
Lemma keys_sorted raw ind chg reg exclude :
  StronglySorted (fun a b : Z * (Z * list row) => lex (fst a, fst (snd a)) (fst b, fst (snd b)))
    (keys raw ind chg reg exclude).
Proof.
  unfold keys.
  assert (ND : NoDup (filter (fun c => mem_z c reg && negb (mem_z c exclude)) (uniq (map cycle_index raw))))
    by apply NoDup_filter, uniq_nodup.
  apply sort_z_strict in ND. revert ND. generalize (sort_z (filter (fun c => mem_z c reg && negb (mem_z c exclude)) (uniq (map cycle_index raw)))).
  induction l as [|c l IH]; simpl; intro S; [constructor|]. inversion S; subst.
  apply SS_appI; auto.
  - apply (proj1 (SS_map (fun g => (c, g)) _ _)). simpl. eapply SS_weak; [|apply iterate_steps_sorted].
    simpl. intros a b H. right. auto.
  - intros a b Ha Hb. apply in_map_iff in Ha as (g & <- & _). apply in_flat_map in Hb as (c' & Hc & Hb).
    apply in_map_iff in Hb as (g' & <- & _). left. simpl. rewrite Forall_forall in H2. auto.
Qed.
Lemma lex_irrefl a : ~ lex a a.
Proof. unfold lex. lia. Qed.

(** A block of the output belongs to its key. *)
Lemma one_key raw v n ax col chg c s rows out r :
  interpolate_one raw v n ax col chg c s rows = Ok out -> In r out ->
  i_cycle r = c /\ i_step r = s /\ i_chg r = chg /\ (2 <= length rows)%nat.
Proof.
  unfold interpolate_one. destruct (length rows <? 2)%nat eqn:L; [intro H; injection H as <-; intros []|].
  apply Nat.ltb_ge in L.
  destruct (axis_range _ _ _ _) as [[[a|] [b|]]|]; cbn [bind]; try discriminate.
  destruct (axis_samples _ _ _); cbn [bind]; try discriminate.
  destruct (interpolate_df _ _ _); cbn [bind]; try discriminate. intros H Hr. injection H as <-.
  apply in_map_iff in Hr as (p & <- & _). auto.
Qed.

Definition is_key (c s : Z) (r : irow) : bool := Z.eqb (i_cycle r) c && Z.eqb (i_step r) s.

Section Step.
  Variables (raw : list row) (ind : bool) (v : Q * Q) (n : nat) (chg : bool) (reg : list Z) (ax : axis)
    (exclude : list Z) (col : row -> num).
  Let f := fun k : Z * (Z * list row) => interpolate_one raw v n ax col chg (fst k) (fst (snd k)) (snd (snd k)).

  Lemma step_inv out : interpolate_step raw ind v n chg reg ax exclude col = Ok out ->
    exists blocks, Forall2 (fun k b => f k = Ok b) (keys raw ind chg reg exclude) blocks /\ out = concat blocks.
  Proof.
    unfold interpolate_step. fold (keys raw ind chg reg exclude). fold f.
    destruct (mapM f _) as [bs|] eqn:M; cbn [bind]; [|discriminate]. intro H. injection H as <-.
    exists bs. split; auto. apply mapM_ok; auto.
  Qed.

  Lemma step_only out r : interpolate_step raw ind v n chg reg ax exclude col = Ok out -> In r out ->
    In (i_cycle r) reg /\ ~ In (i_cycle r) exclude /\ i_chg r = chg /\
    (2 <= length (rows_of_step raw (i_cycle r) (i_step r)))%nat /\
    step_is_chg_state (rows_of_step raw (i_cycle r) (i_step r)) chg ind = true.
  Proof.
    intros H Hr. apply step_inv in H as (blocks & F & ->). apply in_concat in Hr as (b & Hb & Hr).
    assert (exists k, In k (keys raw ind chg reg exclude) /\ f k = Ok b) as (k & Hk & E).
    { clear Hr. revert Hb. induction F; simpl; [tauto|]. intros [<-|H1]; [eauto|].
      destruct (IHF H1) as (k & ? & ?). eauto. }
    destruct k as (c & s & rows). unfold f in E. simpl in E.
    destruct (one_key _ _ _ _ _ _ _ _ _ _ _ E Hr) as (-> & -> & -> & L).
    apply keys_in in Hk as (K1 & K2 & -> & _ & K3). auto.
  Qed.

  Lemma concat_select c s : forall ks blocks, Forall2 (fun k b => f k = Ok b) ks blocks ->
    StronglySorted (fun a b : Z * (Z * list row) => lex (fst a, fst (snd a)) (fst b, fst (snd b))) ks ->
    (forall rows, In (c, (s, rows)) ks -> exists b, f (c, (s, rows)) = Ok b /\ filter (is_key c s) (concat blocks) = b) /\
    ((forall rows, ~ In (c, (s, rows)) ks) -> filter (is_key c s) (concat blocks) = []).
  Proof.
    assert (OWN : forall c' s' rows b, f (c', (s', rows)) = Ok b ->
      filter (is_key c s) b = if (Z.eqb c' c && Z.eqb s' s)%bool then b else []).
    { intros c' s' rows b H. assert (A : forall r, In r b -> i_cycle r = c' /\ i_step r = s').
      { intros r Hr. unfold f in H; simpl in H. destruct (one_key _ _ _ _ _ _ _ _ _ _ _ H Hr) as (? & ? & _). auto. }
      clear H. induction b as [|r b IH]; simpl; [destruct (_ && _)%bool; auto|].
      destruct (A r (or_introl eq_refl)) as [E1 E2]. unfold is_key at 1. rewrite E1, E2.
      rewrite IH by (intros; apply A; right; auto). destruct (_ && _)%bool; auto. }
    induction 1 as [|[c' [s' rows']] b ks blocks Hb F IH]; intro S; simpl.
    - split; auto. intros ? [].
    - inversion S; subst. destruct (IH H1) as [IH1 IH2]. clear IH. rewrite filter_app, (OWN _ _ _ _ Hb).
      rewrite Forall_forall in H2.
      split.
      + intros rows [E|Hin].
        * injection E as -> -> ->. exists b. split; auto. rewrite !Z.eqb_refl. simpl.
          rewrite IH2, app_nil_r; auto. intros r0 Hr0. specialize (H2 _ Hr0). simpl in H2. eapply lex_irrefl; eauto.
        * destruct (IH1 _ Hin) as (b' & E1 & E2). exists b'. split; auto.
          specialize (H2 _ Hin). simpl in H2.
          destruct (Z.eqb_spec c' c), (Z.eqb_spec s' s); simpl; auto. subst. exfalso. eapply lex_irrefl; eauto.
      + intro N. rewrite IH2 by (intros rows Hr; apply (N rows); right; auto).
        destruct (Z.eqb_spec c' c), (Z.eqb_spec s' s); simpl; auto. subst. exfalso. apply (N rows'). left; auto.
  Qed.

  Lemma step_block out c s : interpolate_step raw ind v n chg reg ax exclude col = Ok out ->
    In c reg -> ~ In c exclude -> (2 <= length (rows_of_step raw c s))%nat ->
    step_is_chg_state (rows_of_step raw c s) chg ind = true ->
    exists a b smp,
      axis_range raw (rows_of_step raw c s) ax v = Ok (Some a, Some b) /\
      Forall2 (fun r p => axis_val ax r = Some (fst p) /\ col r = snd p) (rows_of_step raw c s) smp /\
      map (fun r => (i_x r, i_y r)) (filter (is_key c s) out) = interp_rows smp a b n.
  Proof.
    intros H Hc He L T. apply step_inv in H as (blocks & F & ->).
    destruct (concat_select c s _ _ F (keys_sorted _ _ _ _ _)) as [SEL _].
    destruct (SEL (rows_of_step raw c s)) as (b & E & ->).
    { apply keys_in. repeat split; auto. intro K. rewrite K in L. simpl in L. lia. }
    unfold f in E. cbn [fst snd] in E. unfold interpolate_one in E.
    replace (length (rows_of_step raw c s) <? 2)%nat with false in E by (symmetry; apply Nat.ltb_ge; auto).
    destruct (axis_range raw (rows_of_step raw c s) ax v) as [[[lo|] [hi|]]|]; cbn [bind] in E; try discriminate.
    destruct (axis_samples ax col (rows_of_step raw c s)) as [smp|] eqn:SM; cbn [bind] in E; try discriminate.
    cbn [interpolate_df bind] in E. injection E as <-.
    exists lo, hi, smp. split; auto. split.
    - unfold axis_samples in SM. apply mapM_ok in SM. eapply F2_impl; [|exact SM]. simpl.
      intros r p K. destruct (axis_val ax r); [|discriminate]. injection K as <-. auto.
    - rewrite map_map. simpl. unfold interp_rows. erewrite map_ext; [apply map_id|]. intros []; auto.
  Qed.

  Lemma step_sorted out : interpolate_step raw ind v n chg reg ax exclude col = Ok out ->
    StronglySorted (fun a b => i_cycle a <= i_cycle b)%Z out.
  Proof.
    intro H. apply step_inv in H as (blocks & F & ->). pose proof (keys_sorted raw ind chg reg exclude) as S.
    revert S. induction F as [|[c [s rows]] b ks blocks Hb F IH]; simpl; intro S; [constructor|]. inversion S; subst.
    assert (A : forall r, In r b -> i_cycle r = c).
    { intros r Hr. unfold f in Hb; simpl in Hb. destruct (one_key _ _ _ _ _ _ _ _ _ _ _ Hb Hr) as (? & ? & _). auto. }
    apply SS_appI; auto.
    - clear Hb F IH S. induction b as [|r b IH]; constructor; [apply IH; intros; apply A; right; auto|].
      apply Forall_forall. intros r' Hr'. rewrite (A r), (A r'); try lia; [right; auto|left; auto].
    - intros r r' Hr Hr'. rewrite (A r Hr). apply in_concat in Hr' as (b' & Hb' & Hr').
      assert (exists k, In k ks /\ f k = Ok b') as (k & Hk & E).
      { clear - F Hb'. induction F; simpl in *; [tauto|]. destruct Hb' as [<-|H1]; [eauto|].
        destruct (IHF H1) as (k & ? & ?). eauto. }
      destruct k as (c' & s' & rows'). unfold f in E; simpl in E.
      destruct (one_key _ _ _ _ _ _ _ _ _ _ _ E Hr') as (-> & _).
      rewrite Forall_forall in H2. specialize (H2 _ Hk). unfold lex in H2. simpl in H2. lia.
  Qed.
End Step.

Lemma reg_cycles_in raw diag c : In c (uniq (map cycle_index (reg_rows raw diag))) <->
  (exists r, In r raw /\ cycle_index r = c) /\ regular diag c.
Proof.
  rewrite uniq_in, in_map_iff. unfold reg_rows, regular. destruct diag as [ix|].
  - split.
    + intros (r & <- & H). apply filter_In in H as [H K]. apply negb_true_iff, mem_z_false in K. eauto.
    + intros [(r & H & <-) N]. exists r. split; auto. apply filter_In. split; auto. apply negb_true_iff, mem_z_false; auto.
  - split; [intros (r & <- & H); eauto|intros [(r & H & <-) _]; eauto].
Qed.


Lemma cycles_inv raw ind has_wf diag v n ca da exclude col out :
  interpolate_cycles raw ind has_wf diag v n ca da exclude col = Ok out ->
  exists d c, out = d ++ c /\
    interpolate_step raw ind (range_given v) n false (uniq (map cycle_index (reg_rows raw diag)))
       (axis_used raw has_wf diag ca da false) exclude col = Ok d /\
    interpolate_step raw ind (range_given v) n true (uniq (map cycle_index (reg_rows raw diag)))
       (axis_used raw has_wf diag ca da true) exclude col = Ok c.
Proof.
  unfold interpolate_cycles, axis_used. fold (reg_rows raw diag). fold (range_given v).
  destruct (interpolate_step _ _ _ _ false _ _ _ _) as [d|] eqn:E1; cbn [bind]; [|discriminate].
  destruct (interpolate_step _ _ _ _ true _ _ _ _) as [c|] eqn:E2; cbn [bind]; [|discriminate].
  intro H. injection H as <-. eauto.
Qed.

Lemma cycles_only raw ind has_wf diag v n ca da exclude col out r :
  interpolate_cycles raw ind has_wf diag v n ca da exclude col = Ok out -> In r out ->
  (exists w, In w raw /\ cycle_index w = i_cycle r) /\ regular diag (i_cycle r) /\ ~ In (i_cycle r) exclude /\
  (2 <= length (rows_of_step raw (i_cycle r) (i_step r)))%nat /\
  step_is_chg_state (rows_of_step raw (i_cycle r) (i_step r)) (i_chg r) ind = true.
Proof.
  intros H Hr. apply cycles_inv in H as (d & c & -> & Hd & Hc).
  apply in_app_or in Hr as [Hr|Hr];
  [destruct (step_only _ _ _ _ _ _ _ _ _ _ _ Hd Hr) as (A & B & C & D & E)|
   destruct (step_only _ _ _ _ _ _ _ _ _ _ _ Hc Hr) as (A & B & C & D & E)];
  apply reg_cycles_in in A as [A1 A2]; rewrite C; auto.
Qed.


Lemma filter_ext_in' {A} (p q : A -> bool) l : (forall x, In x l -> p x = q x) -> filter p l = filter q l.
Proof. induction l as [|x l IH]; simpl; intro H; auto. rewrite (H x), IH; auto. Qed.

Lemma cycles_block raw ind has_wf diag v n ca da exclude col out c s chg :
  interpolate_cycles raw ind has_wf diag v n ca da exclude col = Ok out ->
  regular diag c -> ~ In c exclude -> (2 <= length (rows_of_step raw c s))%nat ->
  step_is_chg_state (rows_of_step raw c s) chg ind = true ->
  exists a b smp,
    axis_range raw (rows_of_step raw c s) (axis_used raw has_wf diag ca da chg) (range_given v) = Ok (Some a, Some b) /\
    Forall2 (fun r p => axis_val (axis_used raw has_wf diag ca da chg) r = Some (fst p) /\ col r = snd p)
            (rows_of_step raw c s) smp /\
    map (fun r => (i_x r, i_y r)) (filter (is_key3 c s chg) out) = interp_rows smp a b n.
Proof.
  intros H HR HE L T. apply cycles_inv in H as (d & ch & -> & Hd & Hc).
  assert (RC : In c (uniq (map cycle_index (reg_rows raw diag)))).
  { apply reg_cycles_in. split; auto. destruct (rows_of_step raw c s) as [|r l] eqn:E; [simpl in L; lia|].
    assert (Hr : In r (r :: l)) by (left; auto). rewrite <- E in Hr. apply filter_In in Hr as [Hr K].
    apply andb_true_iff in K as [K _]. apply Z.eqb_eq in K. eauto. }
  rewrite filter_app.
  assert (FD : filter (is_key3 c s chg) d = if chg then [] else filter (is_key c s) d).
  { destruct chg.
    - rewrite (filter_ext_in' _ (fun _ => false)); [clear; induction d; auto|].
      intros r Hr. destruct (step_only _ _ _ _ _ _ _ _ _ _ _ Hd Hr) as (_ & _ & C & _).
      unfold is_key3. rewrite C. rewrite andb_false_r. auto.
    - apply filter_ext_in'. intros r Hr. destruct (step_only _ _ _ _ _ _ _ _ _ _ _ Hd Hr) as (_ & _ & C & _).
      unfold is_key3, is_key. rewrite C. simpl. rewrite andb_true_r. auto. }
  assert (FC : filter (is_key3 c s chg) ch = if chg then filter (is_key c s) ch else []).
  { destruct chg.
    - apply filter_ext_in'. intros r Hr. destruct (step_only _ _ _ _ _ _ _ _ _ _ _ Hc Hr) as (_ & _ & C & _).
      unfold is_key3, is_key. rewrite C. simpl. rewrite andb_true_r. auto.
    - rewrite (filter_ext_in' _ (fun _ => false)); [clear; induction ch; auto|].
      intros r Hr. destruct (step_only _ _ _ _ _ _ _ _ _ _ _ Hc Hr) as (_ & _ & C & _).
      unfold is_key3. rewrite C. rewrite andb_false_r. auto. }
  rewrite FD, FC. destruct chg.
  - simpl. eapply step_block; eauto.
  - rewrite app_nil_r. eapply step_block; eauto.
Qed.

Lemma cycles_block_full raw ind has_wf diag v n ca da exclude col out c s chg a b :
  interpolate_cycles raw ind has_wf diag v n ca da exclude col = Ok out ->
  regular diag c -> ~ In c exclude -> (2 <= length (rows_of_step raw c s))%nat ->
  step_is_chg_state (rows_of_step raw c s) chg ind = true ->
  axis_range raw (rows_of_step raw c s) (axis_used raw has_wf diag ca da chg) (range_given v) = Ok (Some a, Some b) ->
  a < b ->
  ForallOrdPairs (fun r1 r2 => forall x1 x2, axis_val (axis_used raw has_wf diag ca da chg) r1 = Some x1 ->
      axis_val (axis_used raw has_wf diag ca da chg) r2 = Some x2 -> ~ x1 == x2) (rows_of_step raw c s) ->
  let block := filter (is_key3 c s chg) out in
  let samples := map (fun r => (match axis_val (axis_used raw has_wf diag ca da chg) r with Some x => x | None => 0 end, col r))
                     (rows_of_step raw c s) in
  length block = n /\ Forall2 Qeq (map i_x block) (linspace a b n) /\
  forall r, In r block -> interpolant samples (i_x r) (i_y r).
Proof.
  intros H HR HE L T AR AB D block samples.
  destruct (cycles_block _ _ _ _ _ _ _ _ _ _ _ _ _ _ H HR HE L T) as (a' & b' & smp & AR' & F & M).
  rewrite AR in AR'. injection AR' as <- <-. fold block in M.
  assert (SM : smp = samples).
  { unfold samples. clear - F. induction F as [|r p l l' [E1 E2] F IH]; simpl; auto.
    rewrite E1, E2, IH. destruct p; auto. }
  assert (DX : distinct_axis samples).
  { rewrite <- SM. clear - F D. revert D. induction F as [|r p l l' [E1 E2] F IH]; intro D; constructor; inversion D; subst; auto.
    - apply Forall_forall. intros q Hq. rewrite Forall_forall in H1.
      assert (exists r', In r' l /\ axis_val (axis_used raw has_wf diag ca da chg) r' = Some (fst q)) as (r' & Hr & E).
      { clear - F Hq. induction F as [|r0 q0 l0 l0' [G1 G2] F IH]; simpl in *; [tauto|].
        destruct Hq as [<-|Hq]; [eauto|]. destruct (IH Hq) as (r' & ? & ?). eauto. }
      eapply H1; eauto.
    - apply IH; auto. }
  subst smp.
  destruct (out_grid samples a b n DX) as [G _]. specialize (G AB).
  assert (MX : map i_x block = map fst (interp_rows samples a b n)).
  { rewrite <- M, map_map. reflexivity. }
  rewrite <- MX in G. split; [|split]; auto.
  - apply F2_length in G as G'. rewrite map_length in G'. rewrite G'.
    destruct n as [|[|m]]; simpl; auto. rewrite map_length, seq_length. auto.
  - intros r Hr. apply (out_interpolant samples a b n); auto.
    rewrite <- M. apply in_map_iff. eauto.
Qed.

Lemma cycles_order raw ind has_wf diag v n ca da exclude col out :
  interpolate_cycles raw ind has_wf diag v n ca da exclude col = Ok out ->
  exists d c, out = d ++ c /\ (forall r, In r d -> i_chg r = false) /\ (forall r, In r c -> i_chg r = true) /\
    StronglySorted (fun a b => i_cycle a <= i_cycle b)%Z d /\ StronglySorted (fun a b => i_cycle a <= i_cycle b)%Z c.
Proof.
  intro H. apply cycles_inv in H as (d & c & -> & Hd & Hc). exists d, c. repeat split.
  - intros r Hr. destruct (step_only _ _ _ _ _ _ _ _ _ _ _ Hd Hr) as (_ & _ & C & _). auto.
  - intros r Hr. destruct (step_only _ _ _ _ _ _ _ _ _ _ _ Hc Hr) as (_ & _ & C & _). auto.
  - eapply step_sorted; eauto.
  - eapply step_sorted; eauto.
Qed.
