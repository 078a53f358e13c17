(** Proofs about images and trajectories. *)
From Coq Require Import Psatz Lqa.
From Verif Require Import Py Num Model_Text Model_Diagnostic Model_Summary Model_Features Model_Stats Model_Degrade Model_Lookup Model_Hppc Spec_Hppc Model_Image Spec_Image Proofs_Stats Proofs_Life.
From Verif Require Proofs_Structure.

(** ** Filling *)
Lemma ffill_len p l : length (ffill_from p l) = length l.
Proof. revert p. induction l as [|[x|] l IH]; intro p; cbn; auto. Qed.
Lemma bfill_len l : length (bfill l) = length l.
Proof.
  induction l as [|[x|] l IH]; cbn; auto. destruct (bfill l) eqn:E; cbn in *; [|auto]. destruct l; [reflexivity|discriminate].
Qed.
Lemma ffill_at p l : forall k x, nth_error (ffill_from p l) k = Some x ->
  (exists j v, (j <= k)%nat /\ nth_error l j = Some (Some v) /\ (forall m, (j < m <= k)%nat -> nth_error l m = Some None) /\ x = Some v) \/
  ((forall j, (j <= k)%nat -> nth_error l j = Some None) /\ x = p).
Proof.
  revert p. induction l as [|[y|] l IH]; intros p k x N; [destruct k; discriminate| |].
  - destruct k as [|k]; cbn in N.
    + left. exists 0%nat, y. repeat split; auto; [intros; lia|congruence].
    + destruct (IH _ _ _ N) as [(j & v & J & E & M & X)|[M X]].
      * left. exists (S j), v. repeat split; auto; [lia|]. intros [|m] ?; [lia|]. apply M. lia.
      * left. exists 0%nat, y. repeat split; auto; [lia|]. intros [|m] ?; [lia|]. apply M. lia.
  - destruct k as [|k]; cbn in N.
    + right. split; [|congruence]. intros [|j] ?; [reflexivity|lia].
    + destruct (IH _ _ _ N) as [(j & v & J & E & M & X)|[M X]].
      * left. exists (S j), v. repeat split; auto; [lia|]. intros [|m] ?; [lia|]. apply M. lia.
      * right. split; [|exact X]. intros [|j] ?; [reflexivity|]. apply M. lia.
Qed.
Lemma bfill_hd l : match bfill l with
  | [] => l = []
  | x :: _ => (exists j v, nth_error l j = Some (Some v) /\ (forall m, (m < j)%nat -> nth_error l m = Some None) /\ x = Some v) \/
              ((forall v, ~ In (Some v) l) /\ x = None)
  end.
Proof.
  induction l as [|[y|] l IH]; cbn; [reflexivity| |].
  - left. exists 0%nat, y. repeat split. intros; lia.
  - destruct (bfill l) as [|x t].
    + subst l. right. split; [|reflexivity]. intros v [|[]]. discriminate.
    + destruct IH as [(j & v & E & M & X)|[M X]].
      * left. exists (S j), v. repeat split; auto. intros [|m] ?; [reflexivity|]. cbn. apply M. lia.
      * right. split; [|exact X]. intros v [V|V]; [discriminate|]. exact (M v V).
Qed.
Lemma bfill_skip l k : skipn k (bfill l) = bfill (skipn k l).
Proof.
  revert k. induction l as [|[y|] l IH]; intros [|k]; try reflexivity.
  - cbn [bfill skipn]. apply IH.
  - cbn [bfill skipn]. rewrite <- IH. destruct (bfill l) eqn:E; [|reflexivity]. destruct k; reflexivity.
Qed.
Lemma nth_skip {A} (l : list A) k j : nth_error (skipn k l) j = nth_error l (k + j).
Proof. revert l. induction k as [|k IH]; intros [|x l]; cbn; auto. destruct j; reflexivity. Qed.
Lemma bfill_at l k x : nth_error (bfill l) k = Some x ->
  (exists j v, (k <= j)%nat /\ nth_error l j = Some (Some v) /\ (forall m, (k <= m < j)%nat -> nth_error l m = Some None) /\ x = Some v) \/
  ((forall j v, (k <= j)%nat -> nth_error l j <> Some (Some v)) /\ x = None).
Proof.
  intro N. assert (H : nth_error (bfill (skipn k l)) 0 = Some x) by (rewrite <- bfill_skip, nth_skip, Nat.add_0_r; exact N).
  pose proof (bfill_hd (skipn k l)) as B. destruct (bfill (skipn k l)) as [|y t]; [discriminate|]. injection H as ->.
  destruct B as [(j & v & E & M & X)|[M X]].
  - left. exists (k + j)%nat, v. rewrite nth_skip in E. repeat split; auto; [lia|]. intros m L. replace m with (k + (m - k))%nat by lia. rewrite <- nth_skip. apply M. lia.
  - right. split; [|exact X]. intros j v L F. apply (M v). apply (nth_error_In _ (j - k)). rewrite nth_skip. replace (k + (j - k))%nat with j by lia. exact F.
Qed.
Lemma ffill_known p l j v : nth_error l j = Some (Some v) -> nth_error (ffill_from p l) j = Some (Some v).
Proof. revert p j. induction l as [|[y|] l IH]; intros p [|j] E; cbn in *; try discriminate; auto. Qed.
Lemma filling l : filled l (bfill (ffill l)).
Proof.
  split; [rewrite bfill_len; apply ffill_len|]. intros k x N. unfold ffill in N. destruct (bfill_at _ _ _ N) as [(j & v & J & E & M & X)|[M X]].
  - destruct (ffill_at _ _ _ _ E) as [(i & w & I & F & G & W)|[_ W]]; [|discriminate]. injection W as <-.
    destruct (le_lt_dec i k) as [L|L].
    + assert (j = k) as ->. { destruct (Nat.eq_dec j k) as [|D]; [assumption|]. exfalso.
        assert (C : nth_error (ffill_from None l) k = Some None) by (apply M; lia).
        destruct (ffill_at _ _ _ _ C) as [(? & ? & ? & ? & ? & ?)|[C1 _]]; [discriminate|]. rewrite (C1 i L) in F. discriminate. }
      left. exists i, v. auto.
    + assert (i = j) as ->. { destruct (Nat.eq_dec i j) as [|D]; [assumption|]. exfalso. apply ffill_known with (p := None) in F. rewrite M in F; [discriminate|lia]. }
      right; left. assert (C : nth_error (ffill_from None l) k = Some None) by (apply M; lia).
      destruct (ffill_at _ _ _ _ C) as [(? & ? & ? & ? & ? & ?)|[C1 _]]; [discriminate|]. split; [exact C1|].
      exists j, v. repeat split; auto. intros m D. destruct (le_lt_dec m k); [auto|].
      assert (C' : nth_error (ffill_from None l) m = Some None) by (apply M; lia).
      destruct (ffill_at _ _ _ _ C') as [(? & ? & ? & ? & ? & ?)|[C2 _]]; [discriminate|]. apply C2. lia.
  - right; right. split; [|exact X]. intros v V. apply In_nth_error in V as (j & V). apply ffill_known with (p := None) in V.
    destruct (le_lt_dec k j) as [L|L]; [exact (M j v L V)|].
    assert (KL : (k < length (ffill_from None l))%nat) by (rewrite <- (bfill_len (ffill_from None l)); apply nth_error_Some; congruence).
    apply nth_error_Some in KL. destruct (nth_error (ffill_from None l) k) as [[w|]|] eqn:F; [exact (M k w (le_n k) F)| |congruence].
    destruct (ffill_at _ _ _ _ F) as [(? & ? & ? & ? & ? & ?)|[C _]]; [discriminate|].
    destruct (ffill_at _ _ _ _ V) as [(i & w & I & E & _ & _)|[_ ?]]; [|discriminate]. rewrite C in E; [discriminate|lia].
Qed.
Lemma filled_complete l l' v : filled l l' -> In (Some v) l -> ~ In None l'.
Proof.
  intros [_ F] V N. apply In_nth_error in N as (k & N). destruct (F k _ N) as [(? & ? & ? & ? & ? & ?)|[(? & ? & ? & ? & ? & ? & ?)|[H _]]]; try discriminate.
  exact (H v V).
Qed.

(** ** Images *)
Lemma F2_map_r {A B} (R : A -> B -> Prop) (f : A -> B) l : (forall x, R x (f x)) -> Forall2 R l (map f l).
Proof. intro H. induction l; cbn; constructor; auto. Qed.
Lemma top_is l : top_of l (col_max l).
Proof. pose proof (col_max_spec l) as H. unfold top_of. destruct (col_max l); exact H. Qed.
Lemma bottom_is l : bottom_of l (col_min l).
Proof. pose proof (col_min_spec l) as H. unfold bottom_of. destruct (col_min l); exact H. Qed.
Lemma state_is t c d : charge_state t c d (nmin c (nsub t d)).
Proof.
  destruct t as [t|], c as [c|], d as [d|]; cbn; try reflexivity. destruct (Qle_bool c (t - d)) eqn:E.
  - apply Qle_bool_iff in E. exists c. repeat split; auto; lra.
  - assert (~ c <= t - d) by (intro K; apply Qle_bool_iff in K; congruence). exists (t - d). repeat split; auto; lra.
Qed.
Lemma difference_is a b : difference a b (nsub a b).
Proof. destruct a, b; cbn; try reflexivity. eexists; split; reflexivity. Qed.
Lemma total_is a b : total a b (nplus a b).
Proof. destruct a, b; cbn; try reflexivity. eexists; split; reflexivity. Qed.
Lemma zeroed_is l : zeroed l (map nan_to_num l).
Proof. apply F2_map_r. intros [x|]; reflexivity. Qed.
Ltac eqs := repeat match goal with |- context [String.eqb ?a ?b] => destruct (String.eqb_spec a b) as [->|?]; try discriminate end.
Lemma image_is impute metric l v : image impute metric l = Ok v -> is_image impute metric l v.
Proof.
  unfold image, is_image, quantities, plain, data_column. cbn [sget]. intro E.
  destruct (String.eqb_spec metric "capacity") as [->|N1].
  { cbn in E. injection E as <-. cbn. eexists. eexists. split; [apply top_is|]. split; [apply F2_map_r; intro; apply state_is|]. destruct impute; cbn; [apply filling|reflexivity]. }
  destruct (String.eqb_spec metric "energy") as [->|N2].
  { cbn in E. injection E as <-. cbn. eexists. eexists. split; [apply top_is|]. split; [apply F2_map_r; intro; apply state_is|]. destruct impute; cbn; [apply filling|reflexivity]. }
  destruct (String.eqb_spec metric "test_time") as [->|N3].
  { cbn in E. injection E as <-. eexists. eexists. split; [apply bottom_is|]. split; [apply F2_map_r; intro; apply difference_is|]. destruct impute; cbn; [apply zeroed_is|reflexivity]. }
  destruct (String.eqb_spec metric "dQdV") as [->|N4].
  { cbn in E. injection E as <-. cbn. eexists. split; [apply F2_map_r; intro; apply total_is|]. destruct impute; cbn; [apply zeroed_is|reflexivity]. }
  cbn [orb] in E. apply String.eqb_neq in N1, N2, N3, N4. unfold sget, d_get in E |- *. cbn [find fst snd] in E |- *. rewrite ?(String.eqb_sym _ metric) in *. rewrite ?N1, ?N2, ?N3, ?N4 in *.
  repeat match type of E with context [String.eqb metric ?b] => destruct (String.eqb metric b) end; cbn in E; try discriminate; injection E as <-; do 2 eexists; repeat split; reflexivity.
Qed.
Lemma image_runs impute metric l : usable metric -> exists v, image impute metric l = Ok v.
Proof.
  unfold usable, quantities, plain. intro U. unfold image, data_column.
  destruct (String.eqb_spec metric "capacity") as [->|N1]; [eexists; reflexivity|].
  destruct (String.eqb_spec metric "energy") as [->|N2]; [eexists; reflexivity|].
  destruct (String.eqb_spec metric "test_time") as [->|N3]; [eexists; reflexivity|].
  destruct (String.eqb_spec metric "dQdV") as [->|N4]; [eexists; reflexivity|].
  cbn [orb]. apply String.eqb_neq in N1, N2, N4. unfold sget, d_get in U |- *. cbn [find fst snd] in U |- *. rewrite ?(String.eqb_sym _ metric) in *. rewrite ?N1, ?N2, ?N4 in *.
  destruct U as [U|[U|U]]; [congruence|congruence|].
  repeat match goal with |- context [String.eqb metric ?b] => destruct (String.eqb metric b); [eexists; reflexivity|] end. congruence.
Qed.

(** ** Channels *)
Lemma mapM_concat {A B C} (f : A -> result (list B)) (g : A -> list C) (R : C -> B -> Prop) l r :
  (forall x y, In x l -> f x = Ok y -> Forall2 R (g x) y) -> mapM f l = Ok r -> Forall2 R (flat_map g l) (concat r).
Proof.
  revert r. induction l as [|a l IH]; intros r H E; cbn in E; [injection E as <-; constructor|].
  destruct (f a) as [y|] eqn:F; [|discriminate]. cbn in E. destruct (mapM f l) as [r'|]; [|discriminate]. injection E as <-. cbn.
  apply Forall2_app; [apply H; [left; reflexivity|exact F]|]. apply IH; [|reflexivity]. intros x z I. apply H. right. exact I.
Qed.
Lemma mapM_F2 {A B C} (f : A -> result B) (g : A -> C) (R : C -> B -> Prop) l r :
  (forall x y, In x l -> f x = Ok y -> R (g x) y) -> mapM f l = Ok r -> Forall2 R (map g l) r.
Proof.
  revert r. induction l as [|a l IH]; intros r H E; cbn in E; [injection E as <-; constructor|].
  destruct (f a) as [y|] eqn:F; [|discriminate]. cbn in E. destruct (mapM f l) as [r'|]; [|discriminate]. injection E as <-. cbn.
  constructor; [apply H; [left; reflexivity|exact F]|]. apply IH; [|reflexivity]. intros x z I. apply H. right. exact I.
Qed.
Lemma mapM_all {A B} (f : A -> result B) l : (forall x, In x l -> exists y, f x = Ok y) -> exists r, mapM f l = Ok r.
Proof.
  induction l as [|a l IH]; intro H; [eexists; reflexivity|]. destruct (H a (or_introl eq_refl)) as (y & Y). destruct IH as (r & R); [intros; apply H; right; assumption|].
  exists (y :: r). cbn. rewrite Y. cbn. rewrite R. reflexivity.
Qed.
Lemma cycle_of_is type c data : in_cycle c (of_type type data) = cycle_of type c data.
Proof. unfold in_cycle, of_type, cycle_of. apply filter_filter. Qed.
Lemma py_nth_nat {A} (l : list A) i : py_nth l (Z.of_nat i) = nth_error l i.
Proof. unfold py_nth. destruct (Z.leb_spec 0 (Z.of_nat i)); [rewrite Nat2Z.id; reflexivity|lia]. Qed.
Lemma channel_rows_is data type pos i l :
  channel_rows (of_type type data) (uniq (map q_cycle (of_type type data))) pos i = Ok l <-> step_at data type pos i l.
Proof.
  unfold channel_rows, step_at, occurrence, at_pos. change (filter (fun r => String.eqb (q_type r) type) data) with (of_type type data). split.
  - destruct (py_nth _ pos) as [c|] eqn:C; [|discriminate]. cbn [bind]. rewrite py_nth_nat, cycle_of_is. destruct (nth_error _ i) as [s|] eqn:S; [|discriminate]. cbn [bind]. intros [= <-].
    exists c, s. auto.
  - intros (c & s & -> & S & ->). cbn [bind]. rewrite py_nth_nat, cycle_of_is, S. reflexivity.
Qed.
Lemma flat_filter {A B} (f : A -> list B) p l : flat_map f (filter p l) = flat_map (fun x => if p x then f x else []) l.
Proof. induction l as [|a l IH]; cbn; [reflexivity|]. destruct (p a); cbn; rewrite IH; reflexivity. Qed.
Lemma flat_one {A B} (f : A -> list B) x : flat_map f [x] = f x.
Proof. apply app_nil_r. Qed.
Definition shows (impute : bool) (data : list drec) (ch : string * string * nat * Z) (cv : string * list num) : Prop :=
  let '(t, m, i, p) := ch in
  fst cv = channel_name ch /\ exists l, step_at data t p i l /\ is_image impute m l (snd cv).
Lemma type_channels_are metrics positions impute data t cs : type_channels metrics positions impute data t = Ok cs ->
  Forall2 (shows impute data) (if two_steps data t then channels metrics [t] positions else []) cs.
Proof.
  unfold type_channels. intro T. unfold two_steps, typed. change (filter (fun r => String.eqb (q_type r) t) data) with (of_type t data). cbv zeta in T.
  destruct (uniq (map q_cycle (of_type t data))) as [|c0 cs0] eqn:U; [discriminate|]. cbn [bind at_pos py_nth Z.leb Z.compare Z.to_nat nth_error] in T. rewrite cycle_of_is in T.
  destruct (Nat.eqb_spec (length (uniq (map q_step (cycle_of t c0 data)))) 2) as [L|L]; cbn [negb] in T; [|injection T as <-; constructor].
  rewrite L in T. rewrite <- U in T. clear U L. destruct mapM as [pm|] eqn:M in T; [|discriminate]. injection T as <-. unfold channels. rewrite flat_one.
  refine (mapM_concat _ _ _ _ _ _ M). intros m y _ T. clear M. destruct mapM as [ps|] eqn:M in T; [|discriminate]. injection T as <-.
  refine (mapM_concat _ _ _ _ _ _ M). intros i y _ T. clear M. refine (mapM_F2 _ _ _ _ _ _ T). intros p z _ Z.
  destruct channel_rows as [df|] eqn:R in Z; [|discriminate]. cbn [bind] in Z. destruct image as [v|] eqn:V in Z; [|discriminate]. injection Z as <-.
  cbn. split; [reflexivity|]. exists df. split; [apply channel_rows_is; exact R|apply image_is; exact V].
Qed.
Lemma parts_are metrics types positions impute data parts : mapM (type_channels metrics positions impute data) types = Ok parts ->
  Forall2 (shows impute data) (channels metrics (filter (two_steps data) types) positions) (concat parts).
Proof.
  intro M. unfold channels. rewrite flat_filter. refine (mapM_concat _ _ _ _ _ _ M). intros t y _ T. apply type_channels_are in T.
  destruct (two_steps data t); [|exact T]. unfold channels in T. rewrite flat_one in T. exact T.
Qed.
Lemma images_are metrics types positions impute data cs :
  images metrics types positions impute data = Ok cs ->
  Forall2 (shows impute data) (channels metrics (filter (two_steps data) types) positions) cs.
Proof.
  unfold images. intro E. destruct mapM as [parts|] eqn:M in E; [|discriminate]. cbn [bind] in E. apply parts_are in M.
  destruct (concat parts); [discriminate|]. injection E as <-. exact M.
Qed.
Lemma images_run metrics types positions impute data :
  (forall t, In t types -> typed t data <> []) ->
  (forall m, In m metrics -> usable m) ->
  (forall t p i, In t types -> two_steps data t = true -> In p positions -> (i < 2)%nat -> exists l, step_at data t p i l) ->
  channels metrics (filter (two_steps data) types) positions <> [] ->
  exists cs, images metrics types positions impute data = Ok cs.
Proof.
  intros P U S NE.
  destruct (mapM_all (type_channels metrics positions impute data) types) as (parts & R).
  { intros t T. specialize (P t T). unfold type_channels. cbv zeta. specialize (S t). unfold two_steps in S.
    unfold typed in P, S. change (filter (fun r => String.eqb (q_type r) t) data) with (of_type t data) in P, S.
    destruct (of_type t data) as [|r0 rs] eqn:D; [congruence|].
    destruct (uniq (map q_cycle (r0 :: rs))) as [|c0 cs0] eqn:Q; [discriminate Q|].
    cbn [at_pos py_nth Z.leb Z.compare Z.to_nat nth_error bind]. rewrite <- Q. rewrite <- D in *. rewrite cycle_of_is.
    destruct (Nat.eqb_spec (length (uniq (map q_step (cycle_of t c0 data)))) 2) as [L|L]; cbn [negb]; [|eexists; reflexivity]. rewrite L.
    match goal with |- exists y, bind (mapM ?f metrics) _ = _ => destruct (mapM_all f metrics) as (r & R) end.
    - intros m Mm. match goal with |- exists y, bind (mapM ?f (seq 0 2)) _ = _ => destruct (mapM_all f (seq 0 2)) as (r & R) end.
      + intros i I. apply in_seq in I. apply mapM_all. intros p Pp. destruct (S p i T eq_refl Pp) as (l & X); [lia|]. apply channel_rows_is in X. rewrite X. cbn [bind].
        destruct (image_runs impute m l (U m Mm)) as (v & V). rewrite V. eexists; reflexivity.
      + rewrite R. eexists; reflexivity.
    - rewrite R. eexists; reflexivity. }
  unfold images. rewrite R. cbn [bind]. apply parts_are in R. destruct (concat parts) as [|x xs] eqn:C; [|eexists; reflexivity].
  exfalso. inversion R. congruence.
Qed.

(** ** Thresholds *)
Lemma rhe_near q : inject_Z (round_half_even q) <= q + (1 # 2) /\ q - (1 # 2) <= inject_Z (round_half_even q).
Proof.
  destruct (floor_bounds q) as [A B]. unfold round_half_even. cbv zeta.
  destruct (Qlt_bool (q - inject_Z (Qfloor q)) (1 # 2)) eqn:C; [apply Qlt_bool_iff in C; split; lra|]. apply Qlt_bool_false in C.
  destruct (Qlt_bool (1 # 2) (q - inject_Z (Qfloor q))) eqn:D.
  - rewrite inject_Z_plus. change (inject_Z 1) with 1. split; lra.
  - apply Qlt_bool_false in D. destruct (Z.even _); [|rewrite inject_Z_plus; change (inject_Z 1) with 1]; split; lra.
Qed.
Lemma around2_near x : nearest_hundredth x (around2 x).
Proof.
  unfold around2. pose proof (rhe_near (x * 100)) as [A B]. split; [eexists; reflexivity|].
  assert (E : inject_Z (round_half_even (x * 100)) / 100 == inject_Z (round_half_even (x * 100)) * (1 # 100)) by field. rewrite E. split; lra.
Qed.
Lemma lt_ceiling z x : (z < Qceiling x)%Z <-> inject_Z z < x.
Proof.
  split; intro H.
  - pose proof (Qceiling_lt x) as L. assert (inject_Z z <= inject_Z (Qceiling x - 1)) by (rewrite <- Zle_Qle; lia). lra.
  - pose proof (Qle_ceiling x) as L. rewrite Zlt_Qlt. lra.
Qed.
Lemma arange_count tmax tmin interval i : 0 < interval ->
  (i < Z.to_nat (Qceiling ((tmin - tmax) / - interval)))%nat <-> tmin < tmax - inject_Z (Z.of_nat i) * interval.
Proof.
  intro P. assert (E : (tmin - tmax) / - interval == (tmax - tmin) / interval) by (field; lra).
  assert (D : inject_Z (Z.of_nat i) < (tmin - tmax) / - interval <-> tmin < tmax - inject_Z (Z.of_nat i) * interval).
  { rewrite E. split; intro H.
    - assert (inject_Z (Z.of_nat i) * interval < (tmax - tmin) / interval * interval) by (apply Qmult_lt_compat_r; assumption).
      assert (X : (tmax - tmin) / interval * interval == tmax - tmin) by (field; lra). rewrite X in H0. lra.
    - apply Qlt_shift_div_l; [assumption|]. lra. }
  rewrite <- D, <- lt_ceiling. lia.
Qed.
Lemma thresholds_are tmax tmin interval : 0 < interval -> exists n,
  (forall i, (i < n)%nat <-> tmin < tmax - inject_Z (Z.of_nat i) * interval) /\
  Forall2 (fun i t => nearest_hundredth (tmax - inject_Z (Z.of_nat i) * interval) t) (seq 0 n) (thresholds tmax tmin interval).
Proof.
  intro P. eexists. split; [intro i; apply arange_count; exact P|]. unfold thresholds, arange. rewrite map_map. apply F2_map_r. intro i.
  pose proof (around2_near (tmax + inject_Z (Z.of_nat i) * - interval)) as [A [B C]]. split; [exact A|]. split; lra.
Qed.
Lemma ratio_lt_iff lo hi k : 0 < hi -> ratio_lt (Some lo) (Some hi) k = true <-> lo < k * hi.
Proof.
  intro P. unfold ratio_lt. destruct (Qeq_bool hi 0) eqn:Z; [apply Qeq_bool_iff in Z; lra|]. rewrite Qlt_bool_iff. split; intro H.
  - assert (lo / hi * hi < k * hi) by (apply Qmult_lt_compat_r; assumption). assert (E : lo / hi * hi == lo) by (field; lra). rewrite E in H0. exact H0.
  - apply Qlt_shift_div_r; assumption.
Qed.
