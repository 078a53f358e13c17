From Verif Require Import Py Num Model_Text Proofs_Text Model_Interp Model_Waveform Spec_Waveform.
From Coq Require Import Lqa.

(** ** Runs *)
Definition unroll (gs : list (nat * num)) : list num := flat_map (fun g => repeat (snd g) (fst g)) gs.
Definition same (x : Q) (v : num) : Prop := exists y, v = Some y /\ y == x.
Definition rows_from (c : nat) (x : Q) (r : list Q) (ts : list num) : list (nat * (num * num)) :=
  combine (c :: counters_from c (map changed (diff_from (Some x) (map Some r)))) (combine ts (map Some (x :: r))).
Definition last_from (c : nat) (x : Q) (r : list Q) : nat := last (c :: counters_from c (map changed (diff_from (Some x) (map Some r)))) 0%nat.
Lemma counters_ge l : forall c n, In n (counters_from c l) -> (c <= n)%nat.
Proof.
  induction l as [|b l IH]; intros c n; cbn [counters_from]; [intros []|]. intros [<-|I]; [destruct b; lia|]. apply IH in I. destruct b; lia.
Qed.
Lemma in_combine_fst {A B} (l : list A) : forall (m : list B) p, In p (combine l m) -> In (fst p) l.
Proof. intros m [a b] I. eapply in_combine_l. exact I. Qed.
Lemma rows_ge c x r ts p : In p (rows_from c x r ts) -> (c <= fst p)%nat.
Proof. intros I. apply in_combine_fst in I. destruct I as [<-|I]; [lia | apply counters_ge in I; exact I]. Qed.
Lemma agg_skip p rows k : fst p <> k -> agg (p :: rows) k = agg rows k.
Proof. intros N. unfold agg. cbn [filter]. apply Nat.eqb_neq in N. rewrite N. reflexivity. Qed.
Lemma agg_take t v rows k : t <> None -> agg ((k, (t, Some v)) :: rows) k = (S (fst (agg rows k)), Some v).
Proof. intros T. unfold agg. cbn [filter fst]. rewrite Nat.eqb_refl. cbn [map fst snd first_present dropna]. destruct t; [reflexivity | congruence]. Qed.
Lemma agg_none rows k : (forall p, In p rows -> fst p <> k) -> agg rows k = (0%nat, None).
Proof.
  intros H. unfold agg. assert (E : filter (fun r => (fst r =? k)%nat) rows = []).
  { induction rows as [|p rows IH]; [reflexivity|]. cbn [filter]. assert (X : (fst p =? k)%nat = false) by (apply Nat.eqb_neq, H; left; reflexivity). rewrite X. apply IH. intros q I. apply H. right. exact I. }
  rewrite E. reflexivity.
Qed.
Lemma map_ext_seq {B} (f g : nat -> B) n c : (forall k, (c <= k)%nat -> f k = g k) -> map f (seq c n) = map g (seq c n).
Proof. intros H. apply map_ext_in. intros k I. apply in_seq in I. apply H. lia. Qed.
Lemma last_ge c x r : (c <= last_from c x r)%nat.
Proof.
  unfold last_from. generalize (map changed (diff_from (Some x) (map Some r))). intros l. assert (H : In (last (c :: counters_from c l) 0%nat) (c :: counters_from c l)).
  { generalize (counters_from c l). intros m. revert c. induction m as [|a m IH]; intros c; [left; reflexivity|]. right. exact (IH a). }
  destruct H as [<-|H]; [lia | apply counters_ge in H; exact H].
Qed.
Lemma runs r : forall c x ts, length ts = S (length r) -> (forall t, In t ts -> t <> None) ->
  exists d tl, map (agg (rows_from c x r ts)) (seq c (S (last_from c x r - c))) = (S d, Some x) :: tl /\
    Forall2 same (x :: r) (unroll ((S d, Some x) :: tl)) /\ length tl = changes (x :: r) /\ Forall (fun g => (1 <= fst g)%nat) tl.
Proof.
  induction r as [|y r IH]; intros c x ts L P.
  - destruct ts as [|t [|t2 ts]]; try discriminate. exists 0%nat, []. unfold rows_from, last_from. cbn [diff_from map counters_from combine last]. rewrite Nat.sub_diag.
    cbn [seq map]. rewrite agg_take by (apply P; left; reflexivity). cbn. split; [reflexivity|]. split; [|split; [reflexivity | constructor]].
    constructor; [exists x; split; [reflexivity | apply Qeq_refl] | constructor].
  - destruct ts as [|t ts]; [discriminate|]. assert (T : t <> None) by (apply P; left; reflexivity).
    assert (L' : length ts = S (length r)) by (cbn in L; injection L as L; exact L). assert (P' : forall u, In u ts -> u <> None) by (intros u I; apply P; right; exact I).
    set (c' := if changed (nsub (Some y) (Some x)) then S c else c).
    assert (RW : rows_from c x (y :: r) (t :: ts) = (c, (t, Some x)) :: rows_from c' y r ts) by reflexivity.
    assert (LS : last_from c x (y :: r) = last_from c' y r) by reflexivity.
    destruct (IH c' y ts L' P') as (d & tl & E & F & N & G). pose proof (last_ge c' y r) as LG.
    assert (CH : changes (x :: y :: r) = ((if changed (nsub (Some y) (Some x)) then 1 else 0) + changes (y :: r))%nat).
    { cbn [changes nsub changed]. f_equal. destruct (Qeq_bool x y) eqn:E1; destruct (Qeq_bool (y - x) 0) eqn:E2; try reflexivity; exfalso.
      - apply Qeq_bool_neq in E2. apply E2. apply Qeq_bool_iff in E1. rewrite E1. ring.
      - apply Qeq_bool_neq in E1. apply E1. apply Qeq_bool_iff in E2. lra. }
    rewrite CH. unfold c' in *. destruct (changed (nsub (Some y) (Some x))) eqn:D.
    + (* a new run *)
      exists 0%nat, ((S d, Some y) :: tl). rewrite RW, LS. replace (S (last_from (S c) y r - c))%nat with (S (S (last_from (S c) y r - S c))) by lia.
      rewrite <- cons_seq. cbn [map]. rewrite agg_take by exact T. rewrite agg_none by (intros p I; apply rows_ge in I; lia). cbn [fst].
      split; [f_equal; rewrite <- E; apply map_ext_seq; intros k K; apply agg_skip; cbn; lia|]. split; [|split].
      * cbn [unroll flat_map fst snd repeat app]. constructor; [exists x; split; [reflexivity | apply Qeq_refl] | exact F].
      * cbn [length]. rewrite N. reflexivity.
      * constructor; [cbn; lia | exact G].
    + (* the run goes on *)
      exists (S d), tl. rewrite RW, LS. rewrite <- cons_seq in E |- *. cbn [map] in E |- *. assert (E1 : agg (rows_from c y r ts) c = (S d, Some y)) by congruence. assert (E2 : map (agg (rows_from c y r ts)) (seq (S c) (last_from c y r - c)) = tl) by congruence.
      rewrite agg_take by exact T. rewrite E1. cbn [fst].
      split; [f_equal; rewrite <- E2; apply map_ext_seq; intros k K; apply agg_skip; cbn; lia|]. split; [|split; [exact N | exact G]].
      assert (X : y == x).
      { cbn [changed nsub] in D. apply negb_false_iff, Qeq_bool_iff in D. lra. }
      assert (Y : forall m l rest, Forall2 same l (repeat (Some y) m ++ rest) -> Forall2 same l (repeat (Some x) m ++ rest)).
      { induction m as [|m IHm]; intros l rest H; cbn [repeat app] in *; [exact H|]. inversion H as [|a b l' r' S' R' EL ER]; subst. constructor; [|apply IHm; exact R'].
        destruct S' as (z & [= <-] & Z). exists x. split; [reflexivity|]. rewrite <- X. exact Z. }
      unfold unroll in *. cbn [flat_map fst snd] in *. constructor; [exists x; split; [reflexivity | apply Qeq_refl]|]. exact (Y (S d) _ _ F).
Qed.
Lemma groups_runs times l : length times = length l -> l <> [] -> (forall t, In t times -> t <> None) ->
  exists gs, groups times (map Some l) = gs /\ Forall2 same l (unroll gs) /\ length gs = S (changes l) /\ Forall (fun g => (1 <= fst g)%nat) gs.
Proof.
  intros L N P. destruct l as [|x r]; [congruence|]. destruct (runs r 0 x times L P) as (d & tl & E & F & C & G).
  rewrite Nat.sub_0_r in E. exists ((S d, Some x) :: tl). split; [exact E|].
  split; [exact F|]. split; [change (S (length tl) = S (changes (x :: r))); congruence | constructor; [cbn; lia | exact G]].
Qed.

(** ** The peak *)
Lemma largest_spec l : forall m, m <= largest m l /\ (forall x, In x l -> x <= largest m l) /\ (largest m l = m \/ In (largest m l) l).
Proof.
  induction l as [|y l IH]; intros m; cbn [largest]; [split; [apply Qle_refl|]; split; [intros x [] | left; reflexivity]|].
  destruct (Qlt_bool m y) eqn:E.
  - apply Qlt_bool_iff in E. destruct (IH y) as (A & B & C). split; [lra|]. split.
    + intros x [<-|I]; [exact A | apply B; exact I].
    + destruct C as [C|C]; [right; left; symmetry; exact C | right; right; exact C].
  - apply Qlt_bool_false in E. destruct (IH m) as (A & B & C). split; [exact A|]. split.
    + intros x [<-|I]; [lra | apply B; exact I].
    + destruct C as [C|C]; [left; exact C | right; right; exact C].
Qed.
Lemma peak_spec l p : peak_of l = Ok p -> is_peak p l.
Proof.
  unfold peak_of. destruct l as [|x r]; [discriminate|]. cbn [map]. intros [= <-]. destruct (largest_spec (map Qabs r) (Qabs x)) as (A & B & C). split.
  - destruct C as [C|C]; [exists x; split; [left; reflexivity | rewrite C; apply Qeq_refl]|]. apply in_map_iff in C as (y & E & I). exists y. split; [right; exact I | rewrite E; apply Qeq_refl].
  - intros y [<-|I]; [exact A | apply B, in_map; exact I].
Qed.
Lemma peak_pos l p : is_peak p l -> (exists x, In x l /\ ~ x == 0) -> 0 < p.
Proof.
  intros (_ & H) (x & I & N). specialize (H x I). destruct (Qlt_le_dec 0 p) as [|Z]; [assumption|]. exfalso. apply N. pose proof (Qabs_nonneg x).
  assert (E : Qabs x == 0) by lra. destruct (Qlt_le_dec x 0) as [B|B]; [rewrite Qabs_neg in E by lra; lra | rewrite Qabs_pos in E by lra; exact E].
Qed.

(** ** Segments *)
Lemma expand_segments cfg b gs : expand (map (to_segment cfg b) gs) = flat_map (fun g => repeat (to_segment cfg b g) (fst g)) gs.
Proof. unfold expand. induction gs as [|[d v] gs IH]; [reflexivity|]. cbn [map flat_map fst to_segment sg_duration]. rewrite IH. reflexivity. Qed.
(** all groups of a list give the same relation to samples *)
Lemma unroll_rel (R : Q -> segment -> Prop) cfg b : forall gs l, (forall x v d, same x v -> R x (to_segment cfg b (d, v))) ->
  Forall2 same l (unroll gs) -> Forall2 R l (expand (map (to_segment cfg b) gs)).
Proof.
  intros gs l H F. rewrite expand_segments. revert l F. induction gs as [|[d v] gs IH]; intros l F; cbn [unroll flat_map fst snd] in *; [inversion F; constructor|].
  apply Forall2_app_inv_r in F as (l1 & l2 & F1 & F2 & ->). apply Forall2_app; [|apply IH; exact F2].
  revert H F1. clear. intros H. generalize d at 1 3. intros k. revert l1. induction k as [|k IH]; intros l1 F; cbn [repeat] in *; [inversion F; constructor|].
  inversion F; subst. constructor; [apply H; assumption | apply IH; assumption].
Qed.
Lemma scaled_sign p s x v : 0 < p -> 0 < s -> v == x / p * s -> (0 < x -> Qle_bool v 0 = false) /\ (x <= 0 -> Qle_bool v 0 = true).
Proof.
  intros P S E. assert (K : 0 < s / p) by (apply Qlt_shift_div_l; lra). assert (E' : v == x * (s / p)) by (rewrite E; field; lra). split; intros X.
  - apply not_true_is_false. intros T. apply Qle_bool_iff in T. rewrite E' in T. assert (0 < x * (s / p)) by (apply Qmult_lt_0_compat; assumption). lra.
  - apply Qle_bool_iff. rewrite E'. assert (0 <= - x * (s / p)) by (apply Qmult_le_0_compat; lra). lra.
Qed.
Lemma magnitude_near v m : magnitude (Some v) = Some m -> Qabs (m - Qabs v) <= 5 # 1000000.
Proof.
  cbn [magnitude]. change (inject_Z (10 ^ 5)) with (100000 # 1). intros H. pose proof (round_even_near (Qabs v * (100000 # 1))) as N.
  set (z := inject_Z (round_even (Qabs v * (100000 # 1)))) in *. assert (E : m == z * (1 # 100000)) by (injection H as <-; field).
  apply Qabs_Qle_condition in N as (A & B). apply Qabs_Qle_condition. split; lra.
Qed.
Lemma segment_carries cfg b p x v d : 0 < p -> 0 < value_scale cfg -> same (x / p * value_scale cfg) v -> carries p (value_scale cfg) x (to_segment cfg b (d, v)).
Proof.
  intros P S (y & -> & E). destruct (scaled_sign p _ x y P S E) as (A & B). split; [|split].
  - intros X. cbn [to_segment sg_state]. rewrite (A X). reflexivity.
  - intros X. cbn [to_segment sg_state]. rewrite (B X). reflexivity.
  - cbn [to_segment sg_value]. destruct (magnitude (Some y)) as [m|] eqn:M; [|discriminate]. exists m. split; [reflexivity|].
    apply magnitude_near in M. assert (Z : Qabs y == Qabs x * value_scale cfg / p).
    { rewrite E. unfold Qdiv. rewrite !Qabs_Qmult. rewrite (Qabs_pos (value_scale cfg)) by lra. assert (0 < / p) by (apply Qinv_lt_0_compat; exact P).
      rewrite (Qabs_pos (/ p)) by lra. ring. }
    rewrite Z in M. exact M.
Qed.
Lemma changes_scaled p s l : 0 < p -> 0 < s -> changes (map (fun x => x / p * s) l) = changes l.
Proof.
  intros P S. induction l as [|x [|y l] IH]; [reflexivity | reflexivity|]. cbn [map] in *. change (changes (x :: y :: l)) with ((if Qeq_bool x y then 0 else 1) + changes (y :: l))%nat.
  rewrite <- IH. cbn [changes]. f_equal. assert (K : 0 < s / p) by (apply Qlt_shift_div_l; lra).
  assert (EX : forall z, z / p * s == z * (s / p)) by (intros z; field; lra).
  destruct (Qeq_bool x y) eqn:E.
  - apply Qeq_bool_iff in E. assert (X : Qeq_bool (x / p * s) (y / p * s) = true) by (apply Qeq_bool_iff; rewrite E; reflexivity). rewrite X. reflexivity.
  - apply Qeq_bool_neq in E. destruct (Qeq_bool (x / p * s) (y / p * s)) eqn:X; [|reflexivity]. exfalso. apply E. apply Qeq_bool_iff in X. rewrite !EX in X.
    apply (Qmult_inj_r x y (s / p)); [lra | exact X].
Qed.
Lemma segments_ok cfg b times l segs : segments_of cfg b times l = Ok segs -> length times = length l -> (forall t, In t times -> t <> None) ->
  (exists x, In x l /\ ~ x == 0) -> 0 < value_scale cfg ->
  exists p, is_peak p l /\ Forall2 (carries p (value_scale cfg)) l (expand segs) /\ length segs = S (changes l) /\ Forall (fun s => (1 <= sg_duration s)%nat) segs.
Proof.
  unfold segments_of. destruct (peak_of l) as [p|] eqn:PK; [|discriminate]. cbn [bind]. intros [= <-] L T NZ S. apply peak_spec in PK. pose proof (peak_pos _ _ PK NZ) as P.
  exists p. split; [exact PK|].
  assert (E : map (scaled p (value_scale cfg)) l = map Some (map (fun x => x / p * value_scale cfg) l)).
  { rewrite map_map. apply map_ext. intros x. unfold scaled. destruct (Qeq_bool p 0) eqn:Z; [apply Qeq_bool_iff in Z; lra | reflexivity]. }
  rewrite E. destruct (groups_runs times (map (fun x => x / p * value_scale cfg) l)) as (gs & G & F & N & D); [rewrite map_length; exact L | destruct NZ as (x & I & _); destruct l; [destruct I | discriminate] | exact T|].
  rewrite G. rewrite changes_scaled in N by assumption. split; [|split].
  - assert (X : Forall2 (fun x v => same (x / p * value_scale cfg) v) l (unroll gs)).
    { revert F. generalize (unroll gs). clear. intros m. revert m. induction l as [|x l IH]; intros m F; inversion F; subst; constructor; auto. }
    clear - X P S. rewrite expand_segments. revert l X. induction gs as [|[d v] gs IH]; intros l X; cbn [unroll flat_map fst snd] in *; [inversion X; constructor|].
    apply Forall2_app_inv_r in X as (l1 & l2 & X1 & X2 & ->). apply Forall2_app; [|apply IH; exact X2].
    assert (Y : forall k l1, Forall2 (fun x v => same (x / p * value_scale cfg) v) l1 (repeat v k) -> Forall2 (carries p (value_scale cfg)) l1 (repeat (to_segment cfg b (d, v)) k)).
    { clear - P S. induction k as [|k IH]; intros l1 X; cbn [repeat] in *; inversion X; subst; constructor; [apply segment_carries; assumption | apply IH; assumption]. }
    apply Y. exact X1.
  - rewrite map_length. exact N.
  - rewrite Forall_forall in *. intros s I. apply in_map_iff in I as ([d v] & <- & I). exact (D _ I).
Qed.
Lemma segments_limits cfg b times l segs : segments_of cfg b times l = Ok segs -> Forall (limits_kept cfg) segs.
Proof.
  unfold segments_of. destruct (peak_of l) as [p|]; [|discriminate]. cbn [bind]. intros [= <-]. apply Forall_forall. intros s I. apply in_map_iff in I as ([d v] & <- & _).
  unfold limits_kept. cbn [to_segment sg_state sg_limit_mode sg_limit_value sg_end_mode sg_operation sg_end_value sg_report_mode sg_report_value sg_range].
  destruct (match v with Some x => Qle_bool x 0 | None => false end); repeat split; intros; try discriminate; auto.
Qed.
Lemma expand_length segs : length (expand segs) = list_sum (map sg_duration segs).
Proof. unfold expand. induction segs as [|s segs IH]; [reflexivity|]. cbn [flat_map map list_sum fold_right]. rewrite app_length, repeat_length, IH. reflexivity. Qed.
Lemma F2_len {A B} (R : A -> B -> Prop) l m : Forall2 R l m -> length l = length m.
Proof. induction 1; cbn; congruence. Qed.

(** ** Driving profiles *)
Lemma times_over_concat {A} (l : list A) k : times_over l k = concat (repeat l k).
Proof. induction k as [|k IH]; [reflexivity|]. cbn [times_over repeat concat]. rewrite IH. reflexivity. Qed.
Lemma times_over_length {A} (l : list A) k : length (times_over l k) = (k * length l)%nat.
Proof. induction k as [|k IH]; [reflexivity|]. cbn [times_over]. rewrite app_length, IH. reflexivity. Qed.
Lemma time_axis_length base k : forall acc, length (time_axis base acc k) = (length acc + k * length base)%nat.
Proof. induction k as [|k IH]; intros acc; cbn [time_axis]; [lia|]. rewrite IH, app_length, map_length. lia. Qed.
Lemma driving_call g profile d : (1 <= n_repeats d)%Z ->
  snd (insert_driving_parametersv1 g profile d) =
  segments_of (driving_config g d) true (map Some (time_axis (map fst profile) (map fst profile) (Z.to_nat (n_repeats d - 1)))) (concat (repeat (map snd profile) (Z.to_nat (n_repeats d)))).
Proof.
  intros N. unfold insert_driving_parametersv1. cbn [snd]. rewrite time_axis_length, times_over_length, !map_length.
  assert (E : (length profile + Z.to_nat (n_repeats d - 1) * length profile = Z.to_nat (n_repeats d) * length profile)%nat).
  { replace (Z.to_nat (n_repeats d)) with (S (Z.to_nat (n_repeats d - 1))) by lia. reflexivity. }
  rewrite E, Nat.eqb_refl. unfold generate_maccor_waveform_file. cbn [wv_power wv_time]. rewrite times_over_concat. reflexivity.
Qed.
Lemma driving_ok g profile d : (1 <= n_repeats d)%Z -> (exists tp, In tp profile /\ ~ snd tp == 0) -> 0 < max_profile_power d * power_scaling d ->
  exists segs p, snd (insert_driving_parametersv1 g profile d) = Ok segs /\ is_peak p (map snd profile) /\
    Forall2 (carries p (max_profile_power d * power_scaling d)) (concat (repeat (map snd profile) (Z.to_nat (n_repeats d)))) (expand segs) /\
    Forall (fun s => (sg_state s = "C"%string -> sg_limit_value s = profile_charge_limit d /\ sg_end_value s = profile_charge_limit d + (5 # 100)) /\
                     (sg_state s = "D"%string -> sg_end_value s = drive_cutoff d - (1 # 10))) segs.
Proof.
  intros N (tp & I & NZ) S. set (l := concat (repeat (map snd profile) (Z.to_nat (n_repeats d)))).
  assert (IN : forall x, In x l <-> In x (map snd profile)).
  { intros x. unfold l. destruct (Z.to_nat (n_repeats d)) as [|k] eqn:K; [lia|]. clear - x. split.
    - intros H. apply in_concat in H as (y & Y & H). apply repeat_spec in Y as ->. exact H.
    - intros H. cbn [repeat concat]. apply in_app_iff. left. exact H. }
  rewrite (driving_call g profile d N). fold l.
  destruct (segments_of (driving_config g d) true (map Some (time_axis (map fst profile) (map fst profile) (Z.to_nat (n_repeats d - 1)))) l) as [segs|e] eqn:G.
  - destruct (segments_ok _ _ _ _ _ G) as (p & P & F & _).
    + rewrite map_length, time_axis_length, map_length. unfold l. rewrite <- times_over_concat, times_over_length, map_length.
      replace (Z.to_nat (n_repeats d)) with (Datatypes.S (Z.to_nat (n_repeats d - 1))) by lia. reflexivity.
    + intros t T. apply in_map_iff in T as (y & <- & _). discriminate.
    + exists (snd tp). split; [apply IN, in_map; exact I | exact NZ].
    + exact S.
    + exists segs, p. split; [reflexivity|]. split; [|split; [exact F|]].
      * destruct P as ((x & XI & XE) & Q). split; [exists x; split; [apply IN; exact XI | exact XE] | intros y Y; apply Q, IN; exact Y].
      * pose proof (segments_limits _ _ _ _ _ G) as K. rewrite Forall_forall in *. intros s Is. destruct (K s Is) as (K1 & K2 & _). split; intros E; [destruct (K1 E) as (_ & A & _ & _ & B); auto | destruct (K2 E) as (_ & _ & _ & _ & B); auto].
  - exfalso. unfold segments_of, peak_of in G. destruct l as [|x l'] eqn:EL; [|discriminate]. apply (in_map snd) in I. apply IN in I. destruct I.
Qed.
Lemma config_twice g a b : driving_config (driving_config g a) b = driving_config g b.
Proof. reflexivity. Qed.
Lemma calls_independent calls : forall g profile d, insert_driving_parametersv1 (after g calls) profile d = insert_driving_parametersv1 g profile d.
Proof.
  induction calls as [|[p e] calls IH]; intros g profile d; [reflexivity|]. cbn [after]. rewrite IH. unfold insert_driving_parametersv1. cbn [fst]. rewrite config_twice. reflexivity.
Qed.
