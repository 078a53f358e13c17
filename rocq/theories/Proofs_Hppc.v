(** Lemmas about the features of diagnostic cycles. *)
From Coq Require Import Sorting.Permutation Sorting.Sorted Psatz Lqa Qabs.
From Verif Require Import Py Num Model_Text Model_Diagnostic Model_Summary Model_Features Model_Stats Model_Degrade Model_Lookup Spec_Stats Proofs_Stats Model_Hppc Spec_Hppc Proofs_Life.
From Verif Require Proofs_Diagnostic Proofs_Lookup Proofs_Structure.

(** ** The records that are left *)
Lemma late_iff tf cf r : is (Qlt_bool tf) (q_time r) && (q_cycle r <? cf)%Z = true <-> late tf cf r.
Proof.
  unfold late, is. rewrite andb_true_iff, Z.ltb_lt. destruct (q_time r) as [t|].
  - rewrite Qlt_bool_iff. split; [intros [A B]; eauto|intros (A & t' & E & B)]. injection E as <-. auto.
  - split; [intros [A _]; discriminate|intros (_ & t & E & _); discriminate].
Qed.
Lemma same_group_iff a b : same_group a b = true <-> same_run_of_step a b.
Proof. unfold same_group, same_run_of_step. rewrite !andb_true_iff, !Z.eqb_eq. tauto. Qed.
Lemma clean_kept tf cf r : what_is_kept tf cf (run_data r) (run_data (clean tf cf r)).
Proof.
  unfold what_is_kept, clean, drop_untimed, drop_final. cbn [run_data]. set (d := filter _ (run_data r)).
  exists (fun x => negb (is (Qlt_bool tf) (q_time x) && (q_cycle x <? cf)%Z) && existsb (fun s => same_group x s && match q_time s with Some _ => true | None => false end) d).
  split; [unfold d at 2; apply filter_filter|]. intros x X. unfold kept. rewrite andb_true_iff, negb_true_iff, <- not_true_iff_false, late_iff, existsb_exists.
  split; intros [A (s & S)]; split; try exact A; exists s.
  - destruct S as [S T]. apply filter_In in S as [S L]. rewrite negb_true_iff, <- not_true_iff_false, late_iff in L. apply andb_true_iff in T as [T U].
    apply same_group_iff in T. split; [exact S|]. split; [exact L|]. split; [exact T|]. destruct (q_time s); [discriminate|discriminate U].
  - destruct S as (S & L & T & U). split.
    + apply filter_In. split; [exact S|]. rewrite negb_true_iff, <- not_true_iff_false, late_iff. exact L.
    + apply same_group_iff in T. rewrite T. destruct (q_time s); [reflexivity|congruence].
Qed.
Lemma filter_true {A} (f : A -> bool) l : (forall x, In x l -> f x = true) -> filter f l = l.
Proof. induction l as [|x l IH]; intro H; [reflexivity|]. cbn. rewrite (H x (or_introl eq_refl)), IH; [reflexivity|]. intros y Y. apply H. right. exact Y. Qed.
Lemma clean_clean tf cf r : clean tf cf (clean tf cf r) = clean tf cf r.
Proof.
  destruct (clean_kept tf cf r) as (keep & E & K). set (d := run_data (clean tf cf r)) in *.
  assert (F : drop_final tf cf d = d).
  { apply filter_true. intros x X. rewrite E in X. apply filter_In in X as [X Y]. apply (K x X) in Y. rewrite negb_true_iff, <- not_true_iff_false, late_iff. apply Y. }
  assert (U : drop_untimed d = d).
  { unfold drop_untimed. apply filter_true. intros x X. apply existsb_exists. rewrite E in X. apply filter_In in X as [X Y]. apply (K x X) in Y as (L & s & S & L' & G & T).
    exists s. split.
    - rewrite E. apply filter_In. split; [exact S|]. apply (K s S). split; [exact L'|]. exists s. unfold same_run_of_step. repeat split; assumption.
    - apply same_group_iff in G. rewrite G. destruct (q_time s); [reflexivity|congruence]. }
  unfold clean at 1. fold d. rewrite F, U. reflexivity.
Qed.

(** ** Quotients *)
Lemma relative_is a b : relative_change a b (relative a b).
Proof.
  unfold relative_change, relative, ndiv, nsub. destruct a as [a|]; [|destruct b; reflexivity]. destruct b as [b|]; [|reflexivity].
  destruct (Qeq_bool a 0) eqn:E.
  - apply Qeq_bool_iff in E. split; [reflexivity|contradiction].
  - apply Qeq_bool_neq in E. split; [contradiction|]. intros _. eexists. split; [reflexivity|reflexivity].
Qed.
Lemma np_ok a b : length a = length b -> exists d, np_sub a b = Ok d /\ dropna d = change a b.
Proof. intro L. rewrite (np_sub_same _ _ L). eexists. split; [reflexivity|]. apply dropna_change. Qed.

(** ** Order in time *)
Definition le_t (a b : drec) : Prop := time_le (q_time a) (q_time b) = true.
Lemma time_le_total a b : time_le a b = false -> time_le b a = true.
Proof.
  unfold time_le. destruct a as [a|], b as [b|]; intro H; try discriminate; try reflexivity. apply Qle_bool_iff.
  destruct (Qlt_le_dec a b) as [L|L]; [|exact L]. exfalso. assert (T : Qle_bool a b = true) by (apply Qle_bool_iff; lra). congruence.
Qed.
Lemma time_le_trans a b c : time_le a b = true -> time_le b c = true -> time_le a c = true.
Proof.
  unfold time_le. destruct a as [a|], b as [b|], c as [c|]; intros H K; try discriminate; try reflexivity.
  apply Qle_bool_iff in H, K. apply Qle_bool_iff. lra.
Qed.
Lemma insert_perm r l : Permutation (r :: l) (insert_t r l).
Proof.
  induction l as [|s l IH]; cbn; [reflexivity|]. destruct time_le; [reflexivity|].
  etransitivity; [apply perm_swap|]. constructor. exact IH.
Qed.
Lemma by_time_perm l : Permutation l (by_time l).
Proof. induction l as [|r l IH]; cbn; [constructor|]. etransitivity; [|apply insert_perm]. constructor. exact IH. Qed.
Lemma insert_sorted r l : StronglySorted le_t l -> StronglySorted le_t (insert_t r l).
Proof.
  induction 1 as [|s l S IH F]; cbn; [repeat constructor|]. destruct (time_le (q_time r) (q_time s)) eqn:E.
  - constructor; [constructor; assumption|]. constructor; [exact E|]. eapply Forall_impl; [|exact F]. intros a A. exact (time_le_trans _ _ _ E A).
  - constructor; [exact IH|]. rewrite Forall_forall in *. intros a A. apply (Permutation_in a (Permutation_sym (insert_perm r l))) in A.
    destruct A as [<-|A]; [apply time_le_total; exact E|apply F; exact A].
Qed.
Lemma by_time_sorted l : StronglySorted le_t (by_time l).
Proof. induction l as [|r l IH]; cbn; [constructor|]. apply insert_sorted. exact IH. Qed.
Lemma before_not_le a b : before a b -> le_t b a -> False.
Proof. intros (s & t & S & T & L) K. unfold le_t, time_le in K. rewrite S, T in K. apply Qle_bool_iff in K. lra. Qed.
Lemma sorted_unique a b : Permutation a b -> StronglySorted le_t a -> StronglySorted before b -> a = b.
Proof.
  revert a. induction b as [|x b IH]; intros a P SA SB; [apply Permutation_sym, Permutation_nil in P; exact P|].
  destruct a as [|y a]; [apply Permutation_nil in P; discriminate|]. inversion SA as [|? ? SA' FA]; subst. inversion SB as [|? ? SB' FB]; subst.
  rewrite Forall_forall in FA, FB.
  assert (Y : In y (x :: b)) by (apply (Permutation_in _ P); left; reflexivity).
  assert (X : In x (y :: a)) by (apply (Permutation_in _ (Permutation_sym P)); left; reflexivity).
  assert (E : x = y).
  { destruct Y as [Y|Y]; [exact Y|]. destruct X as [X|X]; [auto|]. destruct (before_not_le x y (FB y Y) (FA x X)). }
  subst y. f_equal. apply IH; try assumption. exact (Permutation_cons_inv P).
Qed.
Lemma by_time_chrono l l' : chronological l l' -> by_time l = l'.
Proof. intros [P S]. apply sorted_unique; [|apply by_time_sorted|exact S]. etransitivity; [apply Permutation_sym, by_time_perm|exact P]. Qed.
Lemma last_app {A} (l : list A) x : last_error (l ++ [x]) = Some x.
Proof. induction l as [|a l IH]; [reflexivity|]. cbn [app last_error]. rewrite IH. destruct (l ++ [x]) eqn:E; [destruct l; discriminate|reflexivity]. Qed.
Lemma last_some {A} (l : list A) x : last_error l = Some x -> exists a, l = a ++ [x].
Proof.
  induction l as [|a l IH]; [discriminate|]. destruct l as [|b l]; [injection 1 as ->; exists []; reflexivity|].
  intro H. destruct IH as (m & E); [exact H|]. exists (a :: m). rewrite E. reflexivity.
Qed.
Lemma SS_before_app a b : StronglySorted before (a ++ b) -> StronglySorted before a /\ StronglySorted before b /\ forall x y, In x a -> In y b -> before x y.
Proof.
  induction a as [|x a IH]; cbn; intro S; [repeat split; [constructor|exact S|intros ? ? []]|].
  inversion S as [|? ? S' F]; subst. destruct (IH S') as (A & B & C). rewrite Forall_forall in F. repeat split.
  - constructor; [exact A|]. rewrite Forall_forall. intros y Y. apply F. apply in_or_app. left. exact Y.
  - exact B.
  - intros u y [<-|U] Y; [apply F, in_or_app; right; exact Y|exact (C u y U Y)].
Qed.
Lemma chrono_last l l' r : chronological l l' -> last_error l' = Some r -> latest l r.
Proof.
  intros [P S] L. apply last_some in L as (a & ->). apply SS_before_app in S as (_ & _ & C).
  split; [apply (Permutation_in _ (Permutation_sym P)), in_or_app; right; left; reflexivity|].
  intros s I. apply (Permutation_in _ P) in I. apply in_app_or in I as [I|[I|[]]]; [right; apply C; [exact I|left; reflexivity]|left; auto].
Qed.
Lemma chrono_filter f l l' : chronological l l' -> chronological (filter f l) (filter f l').
Proof.
  intros [P S]. split.
  - clear S. induction P as [|x m m' P IH|x y m|m m' m'' P1 IH1 P2 IH2]; cbn; try constructor.
    + destruct (f x); [constructor|]; exact IH.
    + destruct (f x), (f y); try reflexivity. apply perm_swap.
    + etransitivity; eassumption.
  - clear P. induction S as [|x m S IH F]; cbn; [constructor|]. destruct (f x); [|exact IH]. constructor; [exact IH|].
    rewrite Forall_forall in *. intros y Y. apply filter_In in Y as [Y _]. apply F. exact Y.
Qed.
Lemma chrono_some l l' : chronological l l' -> l <> [] -> exists r, last_error l' = Some r.
Proof.
  intros [P _] N. destruct (last_error l') as [r|] eqn:E; [eauto|]. destruct l' as [|x l'].
  - apply Permutation_sym, Permutation_nil in P. congruence.
  - exfalso. clear - E. revert x E. induction l' as [|y l' IH]; intros x E; [discriminate|]. exact (IH y E).
Qed.

(** ** Resistances *)
Lemma dropna_known l : Forall known l -> map Some (dropna l) = l.
Proof. induction 1 as [|[x|] l X F IH]; cbn; [reflexivity|rewrite IH; reflexivity|congruence]. Qed.
Lemma mean_average l : dropna l <> [] -> exists m, mean l = Some m /\ m == average (dropna l).
Proof. intro N. unfold mean, average. destruct (dropna l) as [|x r] eqn:E; [congruence|]. eexists. split; reflexivity. Qed.
Lemma tail5_spec {A} (l : list A) : l = firstn (length l - 5) l ++ tail5 l /\ (length (tail5 l) <= 5)%nat /\ (length (tail5 l) = 5%nat \/ firstn (length l - 5) l = []).
Proof.
  unfold tail5. split; [symmetry; apply firstn_skipn|]. rewrite skipn_length. split; [lia|].
  destruct (Nat.le_gt_cases 5 (length l)); [left; lia|right]. replace (length l - 5)%nat with 0%nat by lia. reflexivity.
Qed.
Definition positive (t : scale) : Prop := match t with At x => 0 <= x | End => True end.
Lemma well_chrono l : measured_well l -> chronological l (by_time l).
Proof. intros [_ (l' & C)]. rewrite (by_time_chrono _ _ C). exact C. Qed.
Lemma well_in l r : measured_well l -> In r l -> exists t v i, q_time r = Some t /\ q_voltage r = Some v /\ q_current r = Some i.
Proof.
  intros [F _] I. rewrite Forall_forall in F. destruct (F r I) as (T & V & C). unfold known in *.
  destruct (q_time r) as [t|], (q_voltage r) as [v|], (q_current r) as [i|]; try congruence. eauto 6.
Qed.
Lemma start_time pulse : measured_well pulse -> pulse <> [] -> exists first start, In first pulse /\ q_time first = Some start /\
  (forall s, In s pulse -> s = first \/ before first s) /\ col_min (map q_time pulse) = Some start.
Proof.
  intros W N. pose proof (well_chrono _ W) as [P S]. destruct (by_time pulse) as [|first l'] eqn:B; [apply Permutation_sym, Permutation_nil in P; congruence|].
  assert (I : In first pulse) by (apply (Permutation_in _ (Permutation_sym P)); left; reflexivity).
  assert (F : forall s, In s pulse -> s = first \/ before first s).
  { intros s J. apply (Permutation_in _ P) in J. destruct J as [J|J]; [auto|]. inversion S as [|? ? S' F]; subst. rewrite Forall_forall in F. right. apply F. exact J. }
  destruct (well_in _ _ W I) as (t & v & i & T & _). exists first, t. repeat split; try assumption.
  pose proof (col_min_spec (map q_time pulse)) as M. destruct (col_min (map q_time pulse)) as [m|].
  - destruct M as [M1 M2]. apply in_map_iff in M1 as (s & E & J). destruct (F s J) as [->|(a & b & A & E' & L)]; [congruence|].
    assert (K : In (Some t) (map q_time pulse)) by (rewrite <- T; apply in_map; exact I). apply M2 in K. rewrite T in A. injection A as <-. rewrite E in E'. injection E' as <-. lra.
  - destruct (M t). rewrite <- T. apply in_map. exact I.
Qed.
Lemma in_counter_step cycle s j k : nth_error (uniq (map q_counter (in_step s cycle))) j = Some k -> in_counter k cycle <> [].
Proof.
  intros N E. apply nth_error_In in N. rewrite Proofs_Diagnostic.uniq_in in N. apply in_map_iff in N as (r & K & I). apply filter_In in I as [I _].
  assert (J : In r (in_counter k cycle)) by (apply filter_In; split; [exact I|apply Z.eqb_eq; exact K]). rewrite E in J. destruct J.
Qed.
(** what res_calc does with the rest and the pulse *)
Definition drop_over (rest pulse : list drec) (t : scale) : result num :=
  let rest := by_time rest in
  let pulse := by_time pulse in
  let! r := last_row rest in
  let i_ocv := mean (map q_current (tail5 rest)) in
  let! p := match t with
            | End => last_row pulse
            | At x => last_row (filter (fun s => is (fun d => Qle_bool d x) (nsub (q_time s) (col_min (map q_time pulse)))) pulse)
            end in
  Ok (ndiv (nsub (q_voltage p) (q_voltage r)) (nsub (q_current p) i_ocv)).
Lemma col_min_perm l l' : Permutation l l' -> measured_well l -> col_min (map q_time l') = col_min (map q_time l).
Proof.
  intros P W. assert (W' : measured_well l').
  { destruct W as [F (m & C)]. split; [rewrite Forall_forall in *; intros x X; apply F, (Permutation_in _ (Permutation_sym P)), X|].
    exists m. destruct C as [C S]. split; [|exact S]. etransitivity; [apply Permutation_sym; exact P|exact C]. }
  destruct l as [|a l].
  - apply Permutation_nil in P. subst. reflexivity.
  - destruct (start_time _ W) as (f & s & I & T & F & ->); [discriminate|]. destruct (start_time _ W') as (f' & s' & I' & T' & F' & ->).
    { intro E. subst. apply Permutation_sym, Permutation_nil in P. discriminate. }
    apply (Permutation_in _ P), F' in I. apply (Permutation_in _ (Permutation_sym P)), F in I'.
    destruct I as [->|(x & y & X & Y & L)]; [congruence|]. destruct I' as [->|(x' & y' & X' & Y' & L')]; [congruence|].
    rewrite T in Y, X'. rewrite T' in X, Y'. injection X as ->. injection Y as ->. injection X' as ->. injection Y' as ->. lra.
Qed.
Lemma drop_over_is rest pulse t : measured_well rest -> measured_well pulse -> rest <> [] -> pulse <> [] -> positive t ->
  exists v, drop_over rest pulse t = Ok v /\ is_resistance rest pulse t v.
Proof.
  intros WR WP NR NP PT. pose proof (well_chrono _ WR) as CR. pose proof (well_chrono _ WP) as CP.
  destruct (chrono_some _ _ CR NR) as (r & R).
  assert (M : exists p, match t with
            | End => last_row (by_time pulse)
            | At x => last_row (filter (fun s => is (fun d => Qle_bool d x) (nsub (q_time s) (col_min (map q_time (by_time pulse))))) (by_time pulse))
            end = Ok p /\ moment pulse t p /\ In p pulse).
  { destruct t as [x|].
    - destruct (start_time _ WP NP) as (first & start & I & T & F & M). rewrite (col_min_perm _ _ (proj1 CP) WP), M.
      set (g := fun s : drec => match q_time s with Some t => Qle_bool (t - start) x | None => false end).
      assert (G : forall s, is (fun d => Qle_bool d x) (nsub (q_time s) (Some start)) = g s) by (intro s; unfold g; destruct (q_time s); reflexivity).
      rewrite (filter_ext _ _ G). pose proof (chrono_filter g _ _ CP) as CF.
      assert (NE : filter g pulse <> []).
      { intro E. assert (J : In first (filter g pulse)); [|rewrite E in J; destruct J]. apply filter_In. split; [exact I|]. unfold g. rewrite T. apply Qle_bool_iff. cbn in PT. lra. }
      destruct (chrono_some _ _ CF NE) as (p & L). exists p. unfold last_row. rewrite L. pose proof (chrono_last _ _ _ CF L) as LA. split; [reflexivity|].
      split; [|apply proj1, filter_In in LA; apply LA]. exists first, start. auto.
    - destruct (chrono_some _ _ CP NP) as (p & L). exists p. unfold last_row. rewrite L. pose proof (chrono_last _ _ _ CP L) as LA. split; [reflexivity|]. split; [exact LA|apply LA]. }
  destruct M as (p & MP & MO & IP). destruct (well_in _ _ WP IP) as (tp & vp & ip & _ & VP & CPU).
  pose proof (chrono_last _ _ _ CR R) as LR. destruct (well_in _ _ WR (proj1 LR)) as (tr & vr & ir & _ & VR & CRU).
  destruct (tail5_spec (by_time rest)) as (T1 & T2 & T3). set (five := tail5 (by_time rest)) in *.
  assert (FK : Forall known (map q_current five)).
  { rewrite Forall_forall. intros c C. apply in_map_iff in C as (s & <- & S). assert (J : In s rest).
    { apply (Permutation_in _ (Permutation_sym (proj1 CR))). rewrite T1. apply in_or_app. right. exact S. }
    destruct (well_in _ _ WR J) as (? & ? & c & _ & _ & ->). discriminate. }
  assert (NE : dropna (map q_current five) <> []).
  { intro E. pose proof (dropna_known _ FK) as D. rewrite E in D. destruct five as [|f five]; [|discriminate].
    destruct T3 as [T3|T3]; [discriminate|]. rewrite T3 in T1. rewrite T1 in R. discriminate. }
  destruct (mean_average _ NE) as (i & MI & AI).
  eexists. split.
  - unfold drop_over. cbv zeta. unfold last_row at 1. rewrite R. cbn [bind]. fold five. rewrite MI. rewrite MP. cbn [bind]. reflexivity.
  - exists r, p, five, i, vr, vp, ip. repeat split; try assumption; try apply LR.
    + exists (by_time rest), (firstn (length (by_time rest) - 5) (by_time rest)). auto.
    + intro E. rewrite VP, VR, CPU. cbn. assert (Z : Qeq_bool (ip - i) 0 = true) by (apply Qeq_bool_iff; lra). rewrite Z. reflexivity.
    + intro E. rewrite VP, VR, CPU. cbn. destruct (Qeq_bool (ip - i) 0) eqn:Z; [apply Qeq_bool_iff in Z; destruct E; lra|]. eexists. split; reflexivity.
Qed.
Lemma res_calc_runs chosen soc charge t first rest discharge short chg more :
  uniq (map q_step chosen) = first :: rest :: discharge :: short :: chg :: more ->
  res_calc chosen soc charge t =
    match nth_error (uniq (map q_counter (in_step (if charge then short else rest) chosen))) soc,
          nth_error (uniq (map q_counter (in_step (if charge then chg else discharge) chosen))) soc with
    | Some a, Some b => drop_over (in_counter a chosen) (in_counter b chosen) t
    | _, _ => Ok None
    end.
Proof. intro U. unfold res_calc. rewrite U. cbn zeta. cbn [tl firstn map nth_error]. destruct charge; destruct more; reflexivity. Qed.

(** ** Lists of named values *)
Lemma mapM_in {A B} (f : A -> result B) l r x : mapM f l = Ok r -> In x l -> exists y, In y r /\ f x = Ok y.
Proof.
  revert r. induction l as [|a l IH]; intros r E I; [destruct I|]. cbn in E. destruct (f a) as [y|] eqn:F; [|discriminate]. cbn in E.
  destruct (mapM f l) as [r'|]; [|discriminate]. injection E as <-. destruct I as [<-|I]; [exists y; split; [left; reflexivity|exact F]|].
  destruct (IH r' eq_refl I) as (z & Z & G). exists z. split; [right; exact Z|exact G].
Qed.
Lemma mapM_fst {A B} (f : A -> result (string * B)) (n : A -> string) l r : (forall x y, f x = Ok y -> fst y = n x) -> mapM f l = Ok r -> map fst r = map n l.
Proof.
  intro H. revert r. induction l as [|a l IH]; intros r E; cbn in E; [injection E as <-; reflexivity|].
  destruct (f a) as [y|] eqn:F; [|discriminate]. cbn in E. destruct (mapM f l) as [r'|]; [|discriminate]. injection E as <-. cbn. rewrite (H _ _ F), (IH r' eq_refl). reflexivity.
Qed.
Lemma mapM_concat_fst {A B} (f : A -> result (list (string * B))) (n : A -> list string) l r :
  (forall x y, f x = Ok y -> map fst y = n x) -> mapM f l = Ok r -> map fst (concat r) = flat_map n l.
Proof.
  intro H. revert r. induction l as [|a l IH]; intros r E; cbn in E; [injection E as <-; reflexivity|].
  destruct (f a) as [y|] eqn:F; [|discriminate]. cbn in E. destruct (mapM f l) as [r'|]; [|discriminate]. injection E as <-. cbn. rewrite map_app, (H _ _ F), (IH r' eq_refl). reflexivity.
Qed.
Lemma sget_nodup {B} (l : list (string * B)) k v : NoDup (map fst l) -> In (k, v) l -> sget l k = Some v.
Proof.
  induction l as [|[k' v'] l IH]; intros N I; [destruct I|]. cbn in *. inversion N as [|? ? N1 N2]; subst. destruct I as [E|I].
  - injection E as -> ->. rewrite String.eqb_refl. reflexivity.
  - destruct (String.eqb_spec k k') as [<-|]; [|apply IH; assumption]. destruct N1. apply in_map_iff. exists (k, v). auto.
Qed.

Lemma sget_keys {B} (l : list (string * B)) k v : sget l k = Some v -> In k (map fst l).
Proof. induction l as [|[k' v'] l IH]; [discriminate|]. cbn. destruct (String.eqb_spec k k') as [->|]; [left; reflexivity|]. intro E. right. apply IH. exact E. Qed.

(** ** A different origin of time *)
Definition shift_row (d : Q) (r : drec) : drec :=
  {| q_base := {| h_cycle := q_cycle r; h_type := q_type r; h_step := q_step r; h_counter := q_counter r; h_current := q_current r; h_time := option_map (fun t => t + d) (q_time r) |};
     q_voltage := q_voltage r; q_qc := q_qc r; q_qd := q_qd r; q_ec := q_ec r; q_ed := q_ed r; q_dqc := q_dqc r; q_dqd := q_dqd r |}.
Lemma Qle_shift a b d : Qle_bool (a + d) (b + d) = Qle_bool a b.
Proof.
  destruct (Qle_bool a b) eqn:E.
  - apply Qle_bool_iff in E. apply Qle_bool_iff. lra.
  - apply not_true_iff_false. intro K. apply Qle_bool_iff in K. apply not_true_iff_false in E. apply E. apply Qle_bool_iff. lra.
Qed.
Lemma insert_shift d r l : map (shift_row d) (insert_t r l) = insert_t (shift_row d r) (map (shift_row d) l).
Proof.
  induction l as [|s l IH]; [reflexivity|]. cbn [insert_t map].
  assert (E : time_le (q_time (shift_row d r)) (q_time (shift_row d s)) = time_le (q_time r) (q_time s)).
  { change (q_time (shift_row d r)) with (option_map (fun t => t + d) (q_time r)). change (q_time (shift_row d s)) with (option_map (fun t => t + d) (q_time s)).
    destruct (q_time r), (q_time s); cbn; try reflexivity. apply Qle_shift. }
  rewrite E. destruct (time_le (q_time r) (q_time s)); cbn [map]; [reflexivity|]. rewrite IH. reflexivity.
Qed.
Lemma by_time_shift d l : by_time (map (shift_row d) l) = map (shift_row d) (by_time l).
Proof. induction l as [|r l IH]; [reflexivity|]. cbn [map by_time]. rewrite IH, insert_shift. reflexivity. Qed.
Lemma col_min_shift d l : col_min (map (option_map (fun t => t + d)) l) = option_map (fun t => t + d) (col_min l).
Proof.
  induction l as [|[x|] l IH]; [reflexivity| |exact IH]. cbn [map option_map col_min]. rewrite IH. destruct (col_min l) as [m|]; [|reflexivity].
  cbn [option_map]. rewrite Qle_shift. destruct (Qle_bool m x); reflexivity.
Qed.
Lemma filter_map {A B} (f : B -> bool) (g : A -> B) l : filter f (map g l) = map g (filter (fun x => f (g x)) l).
Proof. induction l as [|x l IH]; [reflexivity|]. cbn. rewrite IH. destruct (f (g x)); reflexivity. Qed.
Lemma last_map {A B} (g : A -> B) l : last_error (map g l) = option_map g (last_error l).
Proof. induction l as [|x l IH]; [reflexivity|]. destruct l; [reflexivity|exact IH]. Qed.
Lemma skipn_map' {A B} (g : A -> B) n l : skipn n (map g l) = map g (skipn n l).
Proof. revert l. induction n as [|n IH]; intros [|x l]; try reflexivity. apply IH. Qed.
Lemma in_counter_shift d k l : in_counter k (map (shift_row d) l) = map (shift_row d) (in_counter k l).
Proof. unfold in_counter. rewrite filter_map. reflexivity. Qed.
Lemma in_step_shift d s l : in_step s (map (shift_row d) l) = map (shift_row d) (in_step s l).
Proof. unfold in_step. rewrite filter_map. reflexivity. Qed.
Lemma drop_over_shift d rest pulse t : drop_over (map (shift_row d) rest) (map (shift_row d) pulse) t = drop_over rest pulse t.
Proof.
  unfold drop_over. cbv zeta. rewrite !by_time_shift. set (R := by_time rest). set (P := by_time pulse). unfold last_row. rewrite last_map.
  destruct (last_error R) as [r|]; [|reflexivity]. cbn [option_map bind].
  assert (T : map q_current (tail5 (map (shift_row d) R)) = map q_current (tail5 R)).
  { unfold tail5. rewrite map_length, skipn_map', map_map. reflexivity. }
  rewrite T. destruct t as [x|].
  - assert (M : map q_time (map (shift_row d) P) = map (option_map (fun t => t + d)) (map q_time P)) by (rewrite !map_map; reflexivity).
    rewrite M, col_min_shift, filter_map, last_map.
    assert (F : filter (fun s => is (fun d0 => Qle_bool d0 x) (nsub (q_time (shift_row d s)) (option_map (fun t => t + d) (col_min (map q_time P))))) P =
                filter (fun s => is (fun d0 => Qle_bool d0 x) (nsub (q_time s) (col_min (map q_time P)))) P).
    { apply filter_ext. intro s. change (q_time (shift_row d s)) with (option_map (fun t => t + d) (q_time s)). destruct (q_time s) as [a|], (col_min (map q_time P)) as [m|]; cbn; try reflexivity.
      destruct (Qle_bool (a - m) x) eqn:E.
      - apply Qle_bool_iff in E. apply Qle_bool_iff. lra.
      - apply not_true_iff_false. intro K. apply Qle_bool_iff in K. apply not_true_iff_false in E. apply E. apply Qle_bool_iff. lra. }
    rewrite F. destruct last_error as [p|]; reflexivity.
  - rewrite last_map. destruct (last_error P); reflexivity.
Qed.
Lemma res_calc_shift d chosen soc charge t : res_calc (map (shift_row d) chosen) soc charge t = res_calc chosen soc charge t.
Proof.
  unfold res_calc. cbv zeta.
  assert (S : map q_step (map (shift_row d) chosen) = map q_step chosen) by (rewrite map_map; reflexivity). rewrite S.
  assert (C : map (fun s => uniq (map q_counter (in_step s (map (shift_row d) chosen)))) (firstn 5 (tl (uniq (map q_step chosen)))) =
              map (fun s => uniq (map q_counter (in_step s chosen))) (firstn 5 (tl (uniq (map q_step chosen))))).
  { apply map_ext. intro s. rewrite in_step_shift, map_map. reflexivity. }
  rewrite C. set (ks := map _ _). destruct (match nth_error ks _ with Some k => _ | None => None end) as [a|]; [|reflexivity].
  destruct (match nth_error ks (if charge then 3%nat else 1%nat) with Some k => _ | None => None end) as [b|]; [|reflexivity].
  rewrite !in_counter_shift. apply drop_over_shift.
Qed.
(** ** The tenth value from the end *)
Lemma tenth {A} (l : list A) v : py_nth l (-10) = Some v <-> exists a b, l = a ++ v :: b /\ length b = 9%nat.
Proof.
  unfold py_nth. change (0 <=? -10)%Z with false. cbv iota. destruct (Z.leb_spec 0 (Z.of_nat (length l) + -10)) as [L|L].
  - split.
    + intro N. apply nth_error_split in N as (a & b & E & LA). exists a, b. split; [exact E|].
      assert (LL : length l = (length a + S (length b))%nat) by (rewrite E, app_length; reflexivity). lia.
    + intros (a & b & -> & LB). rewrite app_length. cbn [length]. rewrite LB. replace (Z.to_nat _) with (length a) by lia.
      rewrite nth_error_app2 by lia. rewrite Nat.sub_diag. reflexivity.
  - split; [discriminate|]. intros (a & b & -> & LB). rewrite app_length in L. cbn [length] in L. lia.
Qed.
Lemma mapM_F2 {A B} (f : A -> result B) l r : mapM f l = Ok r -> Forall2 (fun x y => f x = Ok y) l r.
Proof.
  revert r. induction l as [|a l IH]; intros r E; cbn in E; [injection E as <-; constructor|].
  destruct (f a) as [y|] eqn:F; [|discriminate]. cbn in E. destruct (mapM f l) as [r'|]; [|discriminate]. injection E as <-. constructor; auto.
Qed.
Lemma ocv_helper_is cycle s vs : ocv_helper cycle s = Ok vs -> rest_voltages cycle s vs.
Proof.
  unfold ocv_helper, rest_voltages. cbv zeta. intro E. apply mapM_F2 in E. unfold in_step in E at 2.
  eapply Proofs_Structure.F2_impl; [|exact E]. intros k v H. cbn in H. unfold at_pos in H. destruct py_nth as [w|] eqn:N in H; [|discriminate]. injection H as ->.
  exists (map q_voltage (filter (fun r => Z.eqb (q_step r) s && Z.eqb (q_counter r) k) cycle)). split; [reflexivity|].
  unfold in_counter, in_step in N. rewrite filter_filter in N. apply tenth. exact N.
Qed.
Lemma list_minus_change a b : Forall known a -> Forall known b -> list_minus a b = map Some (change a b).
Proof.
  unfold list_minus, change. intro A. revert b. induction A as [|[x|] a X A IH]; intros b B; [reflexivity| |congruence].
  inversion B as [|[y|] b' Y B']; subst; [reflexivity| |congruence]. cbn. rewrite IH by assumption. reflexivity.
Qed.
Lemma all_some_map {A} (l : list A) : all_some (map Some l) = Some l.
Proof. apply all_some_iff. reflexivity. Qed.
Lemma min_from_least l : forall m, exists x, min_from (Some m) (map Some l) = Some x /\ In x (m :: l) /\ forall y, In y (m :: l) -> x <= y.
Proof.
  induction l as [|a l IH]; intro m; cbn [map min_from].
  - exists m. split; [reflexivity|]. split; [left; reflexivity|]. intros y [<-|[]]. apply Qle_refl.
  - destruct (Qlt_bool a m) eqn:E.
    + apply Qlt_bool_iff in E. destruct (IH a) as (x & X & I & L). exists x. split; [exact X|]. split; [right; exact I|]. intros y [<-|Y]; [|apply L; exact Y].
      specialize (L a (or_introl eq_refl)). lra.
    + apply Qlt_bool_false in E. destruct (IH m) as (x & X & I & L). exists x. split; [exact X|]. split; [destruct I as [<-|I]; [left; reflexivity|right; right; exact I]|].
      intros y [<-|[<-|Y]]; [apply L; left; reflexivity| |apply L; right; exact Y]. specialize (L m (or_introl eq_refl)). lra.
Qed.
Lemma seven_describes suffix l skew kurtosis fs : seven_features skew kurtosis suffix (map Some l) = Ok fs -> describes suffix l skew kurtosis fs.
Proof.
  unfold seven_features, py_min. destruct l as [|x l]; [discriminate|]. cbn [map bind]. change (Some x :: map Some l) with (map Some (x :: l)).
  destruct (min_from_least l x) as (m & -> & I & L). cbn [bind]. unfold np_var, np_mean, np_sum. rewrite all_some_map.
  assert (D : forall k : list Q, dropna (map Some k) = k) by (induction k as [|a k IH]; [reflexivity|]; cbn [map dropna]; rewrite IH; reflexivity).
  assert (ME : forall k : list Q, k <> [] -> mean (map Some k) = Some (average k)) by (intros k N; unfold mean, average; rewrite D; destruct k; [congruence|reflexivity]).
  unfold variance. rewrite (ME (x :: l)) by discriminate. rewrite <- (map_map (fun y => (y - average (x :: l)) * (y - average (x :: l))) Some), ME by discriminate. intro E. injection E as <-.
  do 5 eexists. split; [reflexivity|]. split; [reflexivity|]. split; [reflexivity|]. split; [exact I|]. split; [exact L|]. split; reflexivity.
Qed.
Definition before_b (a b : drec) : bool := match q_time a, q_time b with Some s, Some t => Qlt_bool s t | _, _ => false end.
Fixpoint chron (l : list drec) : bool := match l with [] => true | x :: r => forallb (before_b x) r && chron r end.
Lemma chron_sorted l : chron l = true -> StronglySorted before l.
Proof.
  induction l as [|x l IH]; cbn; [constructor|]. intro E. apply andb_true_iff in E as [A B]. constructor; [apply IH; exact B|].
  rewrite Forall_forall. intros y Y. rewrite forallb_forall in A. specialize (A y Y). unfold before_b in A. unfold before. destruct (q_time x) as [s|], (q_time y) as [t|]; try discriminate.
  apply Qlt_bool_iff in A. eauto.
Qed.
Lemma chron_well l : forallb (fun r => match q_time r, q_voltage r, q_current r with Some _, Some _, Some _ => true | _, _, _ => false end) l && chron l = true ->
  forall f, measured_well (filter f l).
Proof.
  intros E f. apply andb_true_iff in E as [A B]. apply chron_sorted in B. split.
  - rewrite Forall_forall. intros x X. apply filter_In in X as [X _]. rewrite forallb_forall in A. specialize (A x X). unfold known. destruct (q_time x), (q_voltage x), (q_current x); try discriminate A. repeat split; discriminate.
  - exists (filter f l). apply chrono_filter. split; [reflexivity|exact B].
Qed.
