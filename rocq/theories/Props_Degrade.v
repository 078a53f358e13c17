(** C85: the table of degradation at the diagnostics.  C86: the throughput and cycle at which a
    threshold is reached.  C87: the criteria for including a cell. *)
From Coq Require Import Sorting.Sorted Psatz Lqa.
From Verif Require Import Py Num Model_Raw Model_Structure Model_Summary Model_Features Model_Degrade Spec_Degrade Proofs_Degrade.
From Verif Require Proofs_Stats Proofs_Diagnostic.

(** ** C85 *)
Lemma nx_shape parameters metric type diag summary rows :
  nx parameters metric type diag summary = Ok rows ->
  exists f after last init d0 ds start interval,
    let regular := regular_cycles diag summary in
    let q := fun r => if of_energy metric then s_dis_en r else s_dis r in
    let dq := if of_energy metric then d_dis_en else d_dis in
    d_quantity metric = Ok f /\ first_gap (map s_cycle regular) = Some after /\
    last_error (filter (fun c => Z.ltb c after) (map s_cycle regular)) = Some last /\
    d_get Z.eqb (combine (map s_cycle regular) (cumsum (map q regular))) last = Some init /\ diag = d0 :: ds /\ parameters = Ok (start, interval) /\
    rows = map (fun d => {| x_cycle := d_cycle d; x_frac := ndiv_finite (f d) (f d0); x_init := init;
                            x_reg := fill0 (ndiv_finite (total_before (d_cycle d) (map s_cycle regular) (cumsum (map q regular))) init);
                            x_diag := fill0 (ndiv_finite (total_before (d_cycle d) (map d_cycle diag) (cumsum (map dq diag))) init);
                            x_start := start; x_interval := interval; x_epoch := d_epoch d |})
               (filter (fun d => existsb (fun c => Z.leb (d_cycle d) c) (map s_cycle regular)) (filter (fun d => String.eqb (d_type d) type) diag)).
Proof.
  unfold nx. intro E. destruct (d_quantity metric) as [f|]; [|discriminate]. cbn [bind] in E.
  destruct first_gap as [after|] eqn:G; [|discriminate]. destruct last_error as [last|] eqn:LE; [|discriminate].
  destruct d_get as [init|] eqn:D in E; [|discriminate]. destruct (_ =? 0)%nat in E; [discriminate|]. destruct diag as [|d0 ds] eqn:DG; [discriminate|].
  destruct parameters as [[start interval]|]; [|discriminate]. cbn [bind] in E. injection E as <-.
  exists f, after, last, init, d0, ds, start, interval. repeat split; assumption.
Qed.

(** The table lists exactly the diagnostics of the type that some regular cycle does not precede, in
    their order, each with its quantity relative to that of the first diagnostic. *)
Theorem C85_rows parameters metric type diag summary rows :
  nx parameters metric type diag summary = Ok rows ->
  exists f d0 ds, d_quantity metric = Ok f /\ diag = d0 :: ds /\
  exists listed, Forall2 (fun d r => x_cycle r = d_cycle d /\ x_frac r = ndiv_finite (f d) (f d0) /\ x_epoch r = d_epoch d) listed rows /\
    (forall d, In d listed <-> In d diag /\ d_type d = type /\ exists r, is_regular diag summary r /\ (d_cycle d <= s_cycle r)%Z) /\
    (exists keep, listed = filter keep diag) /\ listed <> [].
Proof.
  intro E. pose proof E as E0. apply nx_shape in E as (f & after & last & init & d0 & ds & start & interval & F & G & LE & D & DG & P & ->).
  exists f, d0, ds. split; [exact F|]. split; [exact DG|]. 
  exists (filter (fun d => existsb (fun c => Z.leb (d_cycle d) c) (map s_cycle (regular_cycles diag summary))) (filter (fun d => String.eqb (d_type d) type) diag)).
  split; [|split; [|split]].
  - generalize (filter (fun d => existsb (fun c => Z.leb (d_cycle d) c) (map s_cycle (regular_cycles diag summary))) (filter (fun d => String.eqb (d_type d) type) diag)).
    intro l. induction l as [|d l IH]; cbn; constructor; [repeat split|exact IH].
  - intro d. rewrite !filter_In, String.eqb_eq, existsb_exists. split.
    + intros [[I T] (c & C & B)]. split; [exact I|]. split; [exact T|]. apply in_map_iff in C as (r & <- & C). exists r. split; [|apply Z.leb_le, B].
      unfold regular_cycles in C. apply filter_In in C as [C N]. apply filter_In in C as [C Z0]. split; [exact C|]. split.
      * apply negb_true_iff, Z.eqb_neq in Z0. exact Z0.
      * intros x X K. apply negb_true_iff in N. rewrite <- not_true_iff_false in N. apply N, existsb_exists. exists x. split; [exact X|apply Z.eqb_eq, K].
    + intros (I & T & r & (R1 & R2 & R3) & LE'). split; [split; assumption|]. exists (s_cycle r). split; [|apply Z.leb_le, LE'].
      apply in_map, filter_In. split; [apply filter_In; split; [exact R1|apply negb_true_iff, Z.eqb_neq, R2]|].
      apply negb_true_iff, not_true_iff_false. intro K. apply existsb_exists in K as (x & X & K). apply Z.eqb_eq in K. exact (R3 x X K).
  - eexists. apply Proofs_Stats.filter_filter.
  - intro K. unfold nx in E0. rewrite F in E0. cbn [bind] in E0. rewrite K in E0. rewrite G, LE, D in E0. discriminate.
Qed.

(** If the cycles are in order and no discharge is negative, the throughput columns are the sum of the
    discharge energy (for a metric of energy) or capacity over all regular cycles, or diagnostics, before
    the diagnostic, relative to the regular cycles before the first gap in their numbering. *)
Theorem C85_throughput_partial parameters metric type diag summary rows :
  nx parameters metric type diag summary = Ok rows ->
  ascending (map s_cycle (regular_cycles diag summary)) -> ascending (map d_cycle diag) ->
  let q r := if of_energy metric then s_dis_en r else s_dis r in
  let dq d := if of_energy metric then d_dis_en d else d_dis d in
  (forall r, In r summary -> not_negative (q r)) -> (forall d, In d diag -> not_negative (dq d)) ->
  exists pre a b post, regular_cycles diag summary = pre ++ a :: b :: post /\ no_gap (map s_cycle (pre ++ [a])) /\ (s_cycle b > s_cycle a + 1)%Z /\
  forall r, In r rows ->
    match x_init r with
    | None => q a = None
    | Some init => init == passed q (pre ++ [a]) /\
        (~ init == 0 ->
         x_reg r == passed q (filter (fun s => Z.ltb (s_cycle s) (x_cycle r)) (regular_cycles diag summary)) / init /\
         x_diag r == passed dq (filter (fun d => Z.ltb (d_cycle d) (x_cycle r)) diag) / init)
    end.
Proof.
  intros E A1 A2 q dq N1 N2. apply nx_shape in E as (f & after & last & init & d0 & ds & start & interval & F & G & LE & D & DG & P & ->).
  set (regular := regular_cycles diag summary) in *.
  destruct (first_gap_spec _ _ G) as (pc & ac & qc & L & GAP & NG).
  assert (SPLIT : exists pre a b post, regular = pre ++ a :: b :: post /\ map s_cycle pre = pc /\ s_cycle a = ac /\ s_cycle b = after).
  { clear - L. revert pc L. induction regular as [|r l IH]; intros [|c pc] L; try discriminate.
    - destruct l as [|r' l]; [discriminate|]. cbn in L. injection L as <- <- <-. exists [], r, r', l. repeat split.
    - cbn in L. injection L as <- L. destruct (IH pc L) as (pre & a & b & post & -> & M & A & B). exists (r :: pre), a, b, post. cbn. rewrite M. repeat split; assumption. }
  destruct SPLIT as (pre & a & b & post & R & M & A & B). exists pre, a, b, post. split; [exact R|].
  split; [rewrite map_app; cbn [map]; rewrite M, A; exact NG|]. split; [lia|].
  rewrite L in LE. rewrite filter_before_gap in LE by (rewrite <- L; exact A1). rewrite last_error_snoc in LE. injection LE as <-.
  assert (NOT : ~ In (s_cycle a) (map s_cycle pre)).
  { rewrite R, map_app in A1. destruct (ascending_app _ _ A1) as (_ & _ & C). intro I. specialize (C _ _ I (or_introl eq_refl)). cbn in C. lia. }
  assert (NQ : Forall (fun r => not_negative (q r)) regular).
  { apply Forall_forall. intros r I. apply N1. unfold regular, regular_cycles in I. apply filter_In in I as [I _]. apply filter_In in I as [I _]. exact I. }
  assert (ND : Forall (fun d => not_negative (dq d)) diag) by (apply Forall_forall; exact N2).
  intros r I. apply in_map_iff in I as (d & <- & I). cbn [x_init x_reg x_diag x_cycle].
  destruct (d_get_cumsum s_cycle q pre a (b :: post) 0 NOT) as (v & V & W). rewrite <- R, A in V. unfold cumsum in D. fold q in D. rewrite D in V. injection V as ->.
  destruct v as [i|]; [|exact W]. split; [rewrite W; ring|]. intro NZ.
  pose proof (total_before_spec s_cycle q (d_cycle d) regular A1 NQ) as T1. fold q. fold regular.
  pose proof (total_before_spec d_cycle dq (d_cycle d) diag A2 ND) as T2.
  replace (map (if of_energy metric then d_dis_en else d_dis) diag) with (map dq diag) by (unfold dq; destruct (of_energy metric); reflexivity).
  assert (Q0 : forall t s, match t with Some v => v == s | None => s == 0 end -> fill0 (ndiv_finite t (Some i)) == s / i).
  { intros [v|] s H; cbn; [|rewrite H; field; exact NZ]. destruct (Qeq_bool i 0) eqn:Z0; [apply Qeq_bool_iff in Z0; contradiction|]. cbn. rewrite H. reflexivity. }
  split; apply Q0; assumption.
Qed.

(** Later diagnostics have at least the throughput of earlier ones. *)
Theorem C85_monotone parameters metric type diag summary rows :
  nx parameters metric type diag summary = Ok rows ->
  ascending (map s_cycle (regular_cycles diag summary)) -> ascending (map d_cycle diag) ->
  (forall r, In r summary -> not_negative (if of_energy metric then s_dis_en r else s_dis r)) ->
  (forall d, In d diag -> not_negative (if of_energy metric then d_dis_en d else d_dis d)) ->
  forall r r' init, In r rows -> In r' rows -> x_init r = Some init -> ~ init == 0 -> (x_cycle r <= x_cycle r')%Z -> x_reg r <= x_reg r' /\ x_diag r <= x_diag r'.
Proof.
  intros E A1 A2 N1 N2 r r' init I I' X0 NZ LE.
  destruct (C85_throughput_partial _ _ _ _ _ _ E A1 A2 N1 N2) as (pre & a & b & post & R & NG & GAP & K).
  pose proof (K r I) as K1. pose proof (K r' I') as K2. rewrite X0 in K1.
  assert (X0' : x_init r' = Some init).
  { apply nx_shape in E as (f & ? & ? & i & d0 & ds & ? & ? & _ & _ & _ & _ & _ & _ & ->). apply in_map_iff in I as (d & <- & _). apply in_map_iff in I' as (d' & <- & _). exact X0. }
  rewrite X0' in K2. destruct K1 as [IN K1]. destruct K2 as [_ K2]. destruct (K1 NZ) as [P1 P2]. destruct (K2 NZ) as [P1' P2']. rewrite P1, P2, P1', P2'.
  assert (POS : forall {A} (q : A -> num) l, (forall x, In x l -> not_negative (q x)) -> 0 <= passed q l).
  { intros A q l. unfold passed. induction l as [|x l IH]; intro H; cbn; [apply Qle_refl|]. pose proof (H x (or_introl eq_refl)) as Hx. specialize (IH (fun y Y => H y (or_intror Y))).
    destruct (q x); cbn in *; [lra|exact IH]. }
  assert (MONO : forall {A} (q : A -> num) (k : A -> Z) l, (forall x, In x l -> not_negative (q x)) ->
            passed q (filter (fun s => Z.ltb (k s) (x_cycle r)) l) <= passed q (filter (fun s => Z.ltb (k s) (x_cycle r')) l)).
  { intros A q k l. unfold passed. induction l as [|x l IH]; intro H; [apply Qle_refl|]. pose proof (H x (or_introl eq_refl)) as Hx. specialize (IH (fun y Y => H y (or_intror Y))).
    cbn [filter]. destruct (Z.ltb_spec (k x) (x_cycle r)), (Z.ltb_spec (k x) (x_cycle r')); try lia; cbn [map dropna]; destruct (q x); cbn in *; lra. }
  assert (NR : forall x, In x (regular_cycles diag summary) -> not_negative (if of_energy metric then s_dis_en x else s_dis x)).
  { intros x X. apply N1. unfold regular_cycles in X. apply filter_In in X as [X _]. apply filter_In in X as [X _]. exact X. }
  assert (IP : 0 < init).
  { assert (0 <= init) by (rewrite IN; apply POS; intros x X; apply NR; rewrite R; apply in_app_or in X as [X|[X|[]]]; apply in_or_app; [left; exact X|right; left; exact X]). lra. }
  assert (DIV : forall x y, x <= y -> x / init <= y / init).
  { intros x y XY. unfold Qdiv. apply Qmult_le_compat_r; [exact XY|]. apply Qlt_le_weak, Qinv_lt_0_compat, IP. }
  split; apply DIV, MONO; assumption.
Qed.

(** Finding: a run whose regular cycles are not interrupted by diagnostics cannot be evaluated. *)
Theorem C85_no_gap_refuted parameters metric type diag summary :
  no_gap (map s_cycle (regular_cycles diag summary)) -> is_ok (nx parameters metric type diag summary) = false.
Proof.
  intro N. unfold nx. destruct (d_quantity metric); [|reflexivity]. cbn [bind]. rewrite (no_gap_first_gap _ N). reflexivity.
Qed.

(** A run with diagnostics at cycles 1, 4 and 7, the regular cycles losing nothing. *)
Definition toy_srow (c : Z) (thr : Q) : srow :=
  {| s_cycle := c; s_dis := Some 1; s_chg := Some 1; s_dis_en := Some 3; s_chg_en := Some 3; s_eff := Some 1; s_res := None;
     s_tmax := None; s_tavg := None; s_tmin := None; s_tti := None; s_date := None; s_chg_thr := Some thr; s_en_thr := None;
     s_duration := None; s_paused := 0; s_cv_time := None; s_cv_current := None; s_cv_cap := None |}.
Definition toy_summary : list srow := [toy_srow 0 1; toy_srow 2 2; toy_srow 3 3; toy_srow 5 4; toy_srow 6 5; toy_srow 8 6].
Definition toy_drow (c : Z) (t : string) (q e : Q) : drow := {| d_cycle := c; d_type := t; d_dis := Some q; d_dis_en := Some e; d_chg := Some q; d_chg_en := Some e; d_epoch := None |}.
Definition toy_diag : list drow := [toy_drow 1 "rpt_1C" 10 100; toy_drow 4 "rpt_1C" 8 90; toy_drow 7 "rpt_1C" 6 70].
Definition toy_parameters : result (num * num) := Ok (Some 2, Some 2).
Example C85_case :
  exists rows, nx toy_parameters "discharge_energy" "rpt_1C" toy_diag toy_summary = Ok rows /\
  map x_cycle rows = [1; 4; 7]%Z /\ map x_frac rows = [Some (100 / 100); Some (90 / 100); Some (70 / 100)] /\ Forall2 Qeq (map x_reg rows) [0; 1; 2] /\
  ascending (map s_cycle (regular_cycles toy_diag toy_summary)) /\ ascending (map d_cycle toy_diag) /\
  (forall r, In r toy_summary -> not_negative (s_dis_en r)) /\ (forall d, In d toy_diag -> not_negative (d_dis_en d)).
Proof.
  eexists. split; [vm_compute; reflexivity|]. split; [reflexivity|]. split; [reflexivity|]. split; [repeat constructor|].
  split; [repeat constructor|]. split; [repeat constructor|]. split.
  - intros r H. repeat destruct H as [<-|H]; try destruct H; cbn; lra.
  - intros r H. repeat destruct H as [<-|H]; try destruct H; cbn; lra.
Qed.
(** Finding: the fraction is relative to the first diagnostic of the run, not to the first of the type, so
    that a type can start below the threshold. *)
Theorem C85_own_first_refuted :
  exists diag summary r rows, nx toy_parameters "discharge_energy" "rpt_2C" diag summary = Ok (r :: rows) /\
  (forall d, In d diag -> d_type d = "rpt_2C"%string -> (x_cycle r <= d_cycle d)%Z /\ d_dis_en d = Some 75) /\ exists v, x_frac r = Some v /\ v < 4 # 5.
Proof.
  exists [toy_drow 1 "rpt_1C" 10 100; toy_drow 4 "rpt_2C" 8 75; toy_drow 7 "rpt_2C" 8 75], toy_summary. do 2 eexists. split; [vm_compute; reflexivity|]. split.
  - intros d H. repeat destruct H as [<-|H]; try destruct H; intro T; try discriminate T; cbn; split; try lia; reflexivity.
  - eexists. split; [reflexivity|]. reflexivity.
Qed.

(** ** C86 *)
Definition target_name (show : Q -> string) (h : target_hyper) (a : string) : string := (h_type h ++ h_metric h ++ show (h_threshold h) ++ "_" ++ a)%string.
Lemma target_name_inj show h a b : target_name show h a = target_name show h b -> a = b.
Proof. unfold target_name. intro E. do 4 apply append_cancel in E. exact E. Qed.
Definition not_reached (h : target_hyper) (rows : list nxrow) : bool :=
  match col_min (map x_frac rows) with Some m => Qlt_bool (h_threshold h) m | None => false end.
Lemma targets_shape show h rows fs : targets show h rows = Ok fs ->
  let rows := cut_kinks (h_kinks h) rows in
  let init := match rows with r :: _ => x_init r | [] => None end in
  exists axes xs, mapM axis (h_axes h) = Ok axes /\ mapM (on_axis h (not_reached h rows) rows) axes = Ok xs /\
    (not_reached h rows = true -> h_extrapolate h = true) /\ (2 <= length xs)%nat /\
    exists named, (forall p, In p (combine (h_axes h) xs) -> In p named) /\
      (forall x, sget (combine (h_axes h) xs) "normalized_regular_throughput" = Some x ->
         In ("real_regular_throughput"%string, match x, init with Some a, Some b => Some (a * b) | _, _ => None end) named) /\
      (NoDup (h_axes h) -> NoDup (map fst named)) /\
      fs = fold_left (fun d p => sset d (target_name show h (fst p)) (snd p)) named [("initial_regular_throughput"%string, init)].
Proof.
  unfold targets. intro E. cbn zeta in E |- *. set (rows' := cut_kinks (h_kinks h) rows) in *. fold (not_reached h rows') in E.
  destruct (mapM axis (h_axes h)) as [axes|] eqn:AX; [|discriminate]. cbn [bind] in E.
  destruct (not_reached h rows' && negb (h_extrapolate h)) eqn:NX; [discriminate|].
  destruct (mapM (on_axis h (not_reached h rows') rows') axes) as [xs|] eqn:XS; [|discriminate]. cbn [bind] in E.
  destruct xs as [|x1 xs]; [discriminate|]. cbn [bind] in E. destruct (negb (positive x1)); [discriminate|].
  destruct xs as [|x2 xs]; [discriminate|]. cbn [bind] in E. destruct (negb (positive x2)); [discriminate|].
  exists axes, (x1 :: x2 :: xs). split; [reflexivity|]. split; [exact XS|]. split.
  { intro K. rewrite K in NX. apply negb_false_iff in NX. exact NX. }
  split; [cbn; lia|]. set (named := combine (h_axes h) (x1 :: x2 :: xs)) in *.
  set (init := match rows' with [] => None | r :: _ => x_init r end) in *.
  assert (LEN : length (x1 :: x2 :: xs) = length (h_axes h)).
  { assert (ML : forall {A B} (f : A -> result B) l l', mapM f l = Ok l' -> length l' = length l).
    { induction l as [|u l IH]; intros l' M; cbn in M; [injection M as <-; reflexivity|]. destruct (f u); [|discriminate]. cbn [bind] in M.
      destruct (mapM f l) as [v|]; [|discriminate]. cbn [bind] in M. injection M as <-. cbn. f_equal. apply IH. reflexivity. }
    rewrite (ML _ _ _ _ _ XS), (ML _ _ _ _ _ AX). reflexivity. }
  assert (FST : map fst named = h_axes h) by (apply combine_fst, LEN).
  assert (NOREAL : ~ In "real_regular_throughput"%string (h_axes h)).
  { clear - AX. revert axes AX. induction (h_axes h) as [|a l IH]; intros axes AX []; cbn in AX.
    - subst a. cbn in AX. discriminate.
    - destruct (axis a); [|discriminate]. cbn [bind] in AX. destruct (mapM axis l) as [v|]; [|discriminate]. eapply IH; [reflexivity|assumption]. }
  destruct (sget named "normalized_regular_throughput") as [x|] eqn:G.
  - injection E as <-. eexists. split; [|split; [|split; [|reflexivity]]].
    + intros p I. apply in_or_app. left. exact I.
    + intros x' EX. injection EX as <-. apply in_or_app. right. left. reflexivity.
    + intro ND. rewrite map_app, FST. cbn [map fst]. apply Proofs_Diagnostic.NoDup_app_iff. split; [exact ND|]. split; [repeat constructor; intros []|].
      intros u U [<-|[]]. exact (NOREAL U).
  - injection E as <-. eexists. split; [|split; [|split; [|reflexivity]]].
    + intros p I. exact I.
    + discriminate.
    + intro ND. rewrite FST. exact ND.
Qed.
Lemma in_named show h (fs : list (string * num)) named init a x : NoDup (map fst named) -> In (a, x) named ->
  fs = fold_left (fun d p => sset d (target_name show h (fst p)) (snd p)) named [("initial_regular_throughput"%string, init)] ->
  sget fs (target_name show h a) = Some x.
Proof. intros ND I ->. apply (fold_sset (target_name show h) (target_name_inj show h)); assumption. Qed.
Lemma axis_value show h rows fs a f : targets show h rows = Ok fs -> NoDup (h_axes h) -> In a (h_axes h) -> axis a = Ok f ->
  exists x, on_axis h (not_reached h (cut_kinks (h_kinks h) rows)) (cut_kinks (h_kinks h) rows) f = Ok x /\ sget fs (target_name show h a) = Some x.
Proof.
  intros E ND I A. apply targets_shape in E as (axes & xs & AX & XS & _ & _ & named & N1 & _ & N3 & FS).
  apply In_nth_error in I as [i I]. destruct (Proofs_Stats.mapM_nth _ _ _ _ _ AX I) as (f' & F1 & F2). rewrite A in F2. injection F2 as <-.
  destruct (Proofs_Stats.mapM_nth _ _ _ _ _ XS F1) as (x & X1 & X2). exists x. split; [exact X2|].
  eapply in_named; [apply N3, ND| |exact FS]. apply N1. clear - I X1. revert xs i I X1. induction (h_axes h) as [|b l IH]; intros xs [|i] I X; try discriminate.
  - destruct xs; [discriminate|]. injection I as ->. injection X as ->. left. reflexivity.
  - destruct xs; [discriminate|]. right. eapply IH; eassumption.
Qed.

(** If the fraction falls from the threshold or above to the threshold or below over the diagnostics of
    one table, whose positions on an axis increase, then on that axis a place is reported where the
    broken line through the diagnostics is at the threshold, up to half a step of a grid of 1000 points
    times the steepest slope.  Missing: other cases, see below. *)
Theorem C86_reached_partial show h rows fs ys :
  targets show h rows = Ok fs -> h_kinks h = None -> NoDup (h_axes h) ->
  map x_frac rows = map Some ys -> h_threshold h <= hd 0 ys -> (exists y, In y ys /\ y <= h_threshold h) ->
  forall a f L, In a (h_axes h) -> axis a = Ok f -> no_steeper L (combine (map f rows) ys) ->
  exists lo hi x y, col_min (map Some (map f rows)) = Some lo /\ col_max (map Some (map f rows)) = Some hi /\
    sget fs (target_name show h a) = Some (Some x) /\ on_curve (combine (map f rows) ys) x y /\ Qabs (y - h_threshold h) <= L * ((hi - lo) / 1998).
Proof.
  intros E K ND Y T1 T2 a f L I A S. destruct (axis_value _ _ _ _ _ _ E ND I A) as (x & X1 & X2). rewrite K in X1. cbn [cut_kinks] in X1.
  assert (NR : not_reached h rows = false).
  { unfold not_reached. rewrite Y. destruct T2 as (y & I' & T2). pose proof (col_min_spec (map Some ys)) as M. destruct col_min as [m|]; [|reflexivity].
    destruct M as [_ M]. specialize (M y (in_map _ _ _ I')). apply Qlt_bool_false. lra. }
  assert (NE : rows <> []) by (intros ->; destruct ys; [destruct T2 as (? & [] & _)|discriminate]).
  destruct (on_axis_reached h rows f ys L Y S NE T1 T2) as (lo & hi & x' & y & LO & HI & O & C & B).
  rewrite NR, O in X1. injection X1 as <-. exists lo, hi, x', y. repeat split; assumption.
Qed.

(** If the threshold is not reached and the last two diagnostics fall, the line through these is
    prolonged, to a tenth below the threshold, and the place reported is on it up to the same error. *)
Theorem C86_extrapolated_partial show h rows rows' r1 r2 y1 y2 fs ys :
  targets show h rows = Ok fs -> h_kinks h = None -> NoDup (h_axes h) ->
  map x_frac rows = map Some ys -> (forall y, In y ys -> h_threshold h < y) ->
  rows = rows' ++ [r1; r2] -> x_frac r1 = Some y1 -> x_frac r2 = Some y2 -> y2 < y1 ->
  forall a f L, In a (h_axes h) -> axis a = Ok f -> no_steeper L (combine (map f rows) ys) ->
  exists z lo x y, prolongs (combine (map f rows) ys) z /\ snd z == h_threshold h - (1 # 10) /\ col_min (map Some (map f rows)) = Some lo /\
    sget fs (target_name show h a) = Some (Some x) /\ on_curve (combine (map f rows) ys ++ [z]) x y /\
    Qabs (y - h_threshold h) <= L * ((fst z - lo) / 1998).
Proof.
  intros E K ND Y T ER Y1 Y2 D a f L I A S. destruct (axis_value _ _ _ _ _ _ E ND I A) as (x & X1 & X2). rewrite K in X1. cbn [cut_kinks] in X1.
  assert (IN : forall r v, In r rows -> x_frac r = Some v -> In v ys).
  { intros r v R V. assert (J : In (x_frac r) (map Some ys)) by (rewrite <- Y; apply in_map, R). rewrite V in J. apply in_map_iff in J as (u & U & J). injection U as <-. exact J. }
  assert (R1 : In r1 rows) by (rewrite ER; apply in_or_app; right; left; reflexivity).
  assert (R2 : In r2 rows) by (rewrite ER; apply in_or_app; right; right; left; reflexivity).
  assert (NR : not_reached h rows = true).
  { unfold not_reached. rewrite Y. pose proof (col_min_spec (map Some ys)) as M. destruct col_min as [m|].
    - destruct M as [M _]. apply in_map_iff in M as (u & U & M). injection U as <-. apply Qlt_bool_iff, T, M.
    - exfalso. apply (M y2). apply in_map. eapply IN; eassumption. }
  destruct (on_axis_beyond h rows f ys L r1 r2 rows' y1 y2 ER Y Y1 Y2 S) as (z & lo & x' & y & PR & SZ & LO & O & C & B).
  - apply T. eapply IN; eassumption.
  - exact D.
  - destruct ys as [|y0 ys]; [destruct rows; [destruct rows'; discriminate|discriminate]|]. cbn. apply Qlt_le_weak, T. left. reflexivity.
  - rewrite NR, O in X1. injection X1 as <-. exists z, lo, x', y. repeat split; assumption.
Qed.

(** The throughput to the threshold in units of charge or energy is the normalised one times the
    initial one, which is given too. *)
Theorem C86_real_throughput show h rows fs :
  targets show h rows = Ok fs -> h_kinks h = None -> NoDup (h_axes h) -> In "normalized_regular_throughput"%string (h_axes h) ->
  exists r rest, rows = r :: rest /\ exists x, sget fs (target_name show h "normalized_regular_throughput") = Some x /\
  sget fs (target_name show h "real_regular_throughput") = Some (match x, x_init r with Some a, Some b => Some (a * b) | _, _ => None end).
Proof.
  intros E K ND I. pose proof (axis_value _ _ _ _ _ _ E ND I eq_refl) as (x & X1 & X2).
  apply targets_shape in E as (axes & xs & AX & XS & _ & LN & named & N1 & N2 & N3 & FS). rewrite K in *. cbn [cut_kinks] in *.
  destruct rows as [|r rest].
  - exfalso. destruct axes as [|f axes]; [cbn in XS; injection XS as <-; cbn in LN; lia|]. cbn in XS. discriminate.
  - exists r, rest. split; [reflexivity|]. exists x. split; [exact X2|].
    assert (G : exists x', sget (combine (h_axes h) xs) "normalized_regular_throughput" = Some x' /\ In ("normalized_regular_throughput"%string, x') (combine (h_axes h) xs)).
    { assert (LEN : (length (h_axes h) <= length xs)%nat).
      { assert (ML : forall {A B} (f : A -> result B) l l', mapM f l = Ok l' -> length l' = length l).
        { induction l as [|u l IH]; intros l' M; cbn in M; [injection M as <-; reflexivity|]. destruct (f u); [|discriminate]. cbn [bind] in M.
          destruct (mapM f l) as [v|]; [|discriminate]. cbn [bind] in M. injection M as <-. cbn. f_equal. apply IH. reflexivity. }
        rewrite (ML _ _ _ _ _ XS), (ML _ _ _ _ _ AX). lia. }
      clear - I LEN. revert xs LEN. induction (h_axes h) as [|a l IH]; intros xs LEN; [destruct I|]. destruct xs as [|x xs]; [cbn in LEN; lia|].
      cbn [combine]. unfold sget. cbn [d_get]. destruct (String.eqb_spec "normalized_regular_throughput" a) as [<-|N].
      - exists x. split; [reflexivity|left; reflexivity].
      - destruct I as [->|I]; [congruence|]. destruct (IH I xs) as (x' & G1 & G2); [cbn in LEN; lia|]. exists x'. split; [exact G1|right; exact G2]. }
    destruct G as (x' & G1 & G2).
    assert (x' = x) by (pose proof (in_named show h fs named _ _ _ (N3 ND) (N1 _ G2) FS) as G3; rewrite X2 in G3; injection G3 as ->; reflexivity). subst x'.
    exact (in_named show h fs named _ _ _ (N3 ND) (N2 _ G1) FS).
Qed.

Definition toy_targets (extrapolate : bool) (t : Q) : target_hyper :=
  {| h_type := "rpt_1C"; h_metric := "discharge_energy"; h_axes := ["normalized_regular_throughput"; "cycle_index"]%string;
     h_threshold := t; h_kinks := None; h_extrapolate := extrapolate |}.
Definition toy_show (t : Q) : string := "0.8"%string.
Example C86_case :
  exists fs, diagnostic_properties toy_show toy_parameters ["discharge_energy"%string] (toy_targets false (4 # 5)) toy_diag toy_summary = Ok fs /\
  exists x c, sget fs "rpt_1Cdischarge_energy0.8_normalized_regular_throughput" = Some (Some x) /\ sget fs "rpt_1Cdischarge_energy0.8_cycle_index" = Some (Some c) /\
  Qabs (x - (3 # 2)) < 1 # 500 /\ Qabs (c - (11 # 2)) < 1 # 100.
Proof. eexists. split; [vm_compute; reflexivity|]. do 2 eexists. split; [reflexivity|]. split; [reflexivity|]. split; vm_compute; reflexivity. Qed.
Example C86_extrapolated_case :
  exists fs, diagnostic_properties toy_show toy_parameters ["discharge_energy"%string] (toy_targets true (1 # 2)) toy_diag toy_summary = Ok fs /\
  exists x, sget fs "rpt_1Cdischarge_energy0.8_normalized_regular_throughput" = Some (Some x) /\ Qabs (x - 3) < 1 # 100.
Proof. eexists. split; [vm_compute; reflexivity|]. eexists. split; [reflexivity|]. vm_compute. reflexivity. Qed.

(** Finding: the hyperparameters cycle_type and metric only name the result; all types and quantities are
    mixed, whatever is chosen. *)
Theorem C86_choice_refuted show h type metric rows fs fs' :
  let h' := {| h_type := type; h_metric := metric; h_axes := h_axes h; h_threshold := h_threshold h; h_kinks := h_kinks h; h_extrapolate := h_extrapolate h |} in
  targets show h rows = Ok fs -> targets show h' rows = Ok fs' -> NoDup (h_axes h) ->
  forall a, In a (h_axes h) -> sget fs' (target_name show h' a) = sget fs (target_name show h a).
Proof.
  intros h' E E' ND a I.
  assert (A : exists f, axis a = Ok f).
  { apply targets_shape in E as (axes & _ & AX & _). clear - AX I. revert axes AX. induction (h_axes h) as [|b l IH]; intros axes AX; [destruct I|]. cbn in AX.
    destruct (axis b) as [f|] eqn:B; [|discriminate]. destruct I as [<-|I]; [eauto|]. cbn [bind] in AX. destruct (mapM axis l); [|discriminate]. eapply IH; [exact I|reflexivity]. }
  destruct A as [f A]. destruct (axis_value _ _ _ _ _ _ E ND I A) as (x & X1 & X2). destruct (axis_value _ _ _ _ _ _ E' ND I A) as (x' & X1' & X2').
  rewrite X2, X2'. cbn [h' h_kinks] in X1'. change (not_reached h') with (not_reached h) in X1'.
  assert (SAME : forall b r g, on_axis h' b r g = on_axis h b r g) by reflexivity. rewrite SAME, X1 in X1'. injection X1' as ->. reflexivity.
Qed.
(** The same for the whole featurizer: asked for another type or another quantity of the same run, it
    gives the same numbers. *)
Theorem C86_choice_of_run_refuted show parameters quantities h type metric diag summary fs fs' :
  let h' := {| h_type := type; h_metric := metric; h_axes := h_axes h; h_threshold := h_threshold h; h_kinks := h_kinks h; h_extrapolate := h_extrapolate h |} in
  diagnostic_properties show parameters quantities h diag summary = Ok fs ->
  diagnostic_properties show parameters quantities h' diag summary = Ok fs' -> NoDup (h_axes h) ->
  forall a, In a (h_axes h) -> sget fs' (target_name show h' a) = sget fs (target_name show h a).
Proof.
  intros h' E E' ND a I. unfold diagnostic_properties in E, E'. cbn zeta in E, E'.
  match type of E with (bind ?m _) = _ => destruct m as [tables|] eqn:T; [|discriminate E] end. cbn [bind] in E, E'.
  destruct tables as [|t tables]; [discriminate E|]. exact (C86_choice_refuted show h type metric _ fs fs' E E' ND a I).
Qed.
(** For a run with diagnostics of one type and for one quantity, the places are those of the table of
    degradation for that type and quantity, described by C85 and above. *)
Theorem C86_one_table show parameters q type h diag summary :
  diag <> [] -> (forall d, In d diag -> d_type d = type) ->
  diagnostic_properties show parameters [q] h diag summary = (let! rows := nx parameters q type diag summary in targets show h rows).
Proof.
  intros NE T. unfold diagnostic_properties.
  assert (U : uniq_s (map d_type diag) = [type]).
  { destruct diag as [|d diag]; [congruence|]. clear NE. cbn [map]. rewrite (T d (or_introl eq_refl)).
    assert (T' : forall x, In x (map d_type diag) -> x = type).
    { intros x X. apply in_map_iff in X as (e & <- & X). apply T. right. exact X. }
    cbn [uniq_s]. f_equal.
    assert (T2 : forall x, In x (uniq_s (map d_type diag)) -> x = type) by (intros x X; apply T', Proofs_Frames.uniq_in, X).
    induction (uniq_s (map d_type diag)) as [|x l IH]; [reflexivity|].
    rewrite (T2 x (or_introl eq_refl)). cbn [filter]. rewrite String.eqb_refl. apply IH. intros y Y. apply T2. right. exact Y. }
  cbn zeta. rewrite U. cbn [flat_map map app mapM fst snd]. destruct (nx parameters q type diag summary) as [rows|]; cbn [bind]; [|reflexivity].
  cbn [concat]. rewrite app_nil_r. reflexivity.
Qed.
(** With both default quantities, the run above is said to reach 0.8 of its energy at throughput 1, where
    it still has 0.9; that is where its capacity reaches 0.8. *)
Theorem C86_mixed_refuted :
  exists fs, diagnostic_properties toy_show toy_parameters ["discharge_energy"; "discharge_capacity"]%string (toy_targets true (4 # 5)) toy_diag toy_summary = Ok fs /\
  exists x, sget fs "rpt_1Cdischarge_energy0.8_normalized_regular_throughput" = Some (Some x) /\ Qabs (x - 1) < 1 # 500 /\
  exists rows r, nx toy_parameters "discharge_energy" "rpt_1C" toy_diag toy_summary = Ok rows /\ In r rows /\ x_reg r == 1 /\ exists v, x_frac r = Some v /\ v == 9 # 10.
Proof.
  eexists. split; [vm_compute; reflexivity|]. eexists. split; [reflexivity|]. split; [vm_compute; reflexivity|].
  do 2 eexists. split; [vm_compute; reflexivity|]. split; [right; left; reflexivity|]. split; [vm_compute; reflexivity|]. eexists. split; vm_compute; reflexivity.
Qed.
(** Finding: if several tables are mixed, extrapolation fails even for a cell that falls steadily. *)
Theorem C86_extrapolation_refuted :
  diagnostic_properties toy_show toy_parameters ["discharge_energy"; "discharge_capacity"]%string (toy_targets true (1 # 2)) toy_diag toy_summary = Err BEEPFeaturizationError /\
  (exists fs, diagnostic_properties toy_show toy_parameters ["discharge_energy"%string] (toy_targets true (1 # 2)) toy_diag toy_summary = Ok fs) /\
  (exists fs, diagnostic_properties toy_show toy_parameters ["discharge_capacity"%string] (toy_targets true (1 # 2)) toy_diag toy_summary = Ok fs).
Proof. split; [vm_compute; reflexivity|]. split; eexists; vm_compute; reflexivity. Qed.
(** Finding: a cell that has not reached the threshold, if extrapolation is off, does not give the error
    the code makes for it but an error of the program. *)
Theorem C86_not_reached_refuted show h rows axes :
  h_extrapolate h = false -> mapM axis (h_axes h) = Ok axes -> not_reached h (cut_kinks (h_kinks h) rows) = true ->
  targets show h rows = Err UnboundLocalError.
Proof. intros X A N. unfold targets. cbn zeta. rewrite A. cbn [bind]. fold (not_reached h (cut_kinks (h_kinks h) rows)). rewrite N, X. reflexivity. Qed.
(** Finding: a single axis never works. *)
Theorem C86_single_axis_refuted show h rows a : h_axes h = [a] -> is_ok (targets show h rows) = false.
Proof.
  intro A. destruct (targets show h rows) as [fs|] eqn:E; [|reflexivity]. exfalso.
  apply targets_shape in E as (axes & xs & AX & XS & _ & LN & _). rewrite A in AX. cbn in AX. destruct (axis a); [|discriminate]. injection AX as <-. cbn in XS.
  destruct on_axis; [|discriminate]. injection XS as <-. cbn in LN. lia.
Qed.
(** Finding: filter_kinks with its typical value removes every diagnostic but two from a run that falls
    evenly, without any kink. *)
Theorem C86_kinks_refuted :
  exists rows : list nxrow, length rows = 6%nat /\ Forall2 (fun r y => exists v, x_frac r = Some v /\ v == y) rows [1; 19#20; 18#20; 17#20; 16#20; 15#20] /\
  length (cut_kinks (Some (4 # 100)) rows) = 2%nat.
Proof.
  exists (map (fun i => {| x_cycle := Z.of_nat i; x_frac := Some (Z.of_nat (20 - i) # 20); x_init := Some 1; x_reg := 0; x_diag := 0; x_start := None; x_interval := None; x_epoch := None |}) (seq 0 6)).
  split; [reflexivity|]. split; [|vm_compute; reflexivity]. repeat (constructor; [eexists; split; [reflexivity|reflexivity]|]). constructor.
Qed.

(** ** C87 *)
Lemma last_valid_cons {A} (x : option A) l : last_valid (x :: l) = match last_valid l with Some v => Some v | None => x end.
Proof. unfold last_valid. cbn [rev]. induction (rev l) as [|[y|] k IH]; cbn; [destruct x; reflexivity|reflexivity|exact IH]. Qed.
Lemma last_error_cons {A} (x : A) l : l <> [] -> last_error (x :: l) = last_error l.
Proof. destruct l; [congruence|reflexivity]. Qed.
Lemma ffill_last (prev : option Q) (l : list (option Q)) : l <> [] -> last_error (ffill_from prev l) = Some (match last_valid l with Some v => Some v | None => prev end).
Proof.
  revert prev. induction l as [|x l IH]; intros prev N; [congruence|]. rewrite (last_valid_cons x l). destruct l as [|y l].
  - destruct x; reflexivity.
  - assert (C : forall p, last_error (ffill_from p (y :: l)) = Some (match last_valid (y :: l) with Some v => Some v | None => p end)) by (intro p; apply IH; discriminate).
    assert (NE : forall p, ffill_from p (y :: l) <> []) by (intro p; cbn; destruct y; discriminate).
    destruct x as [x|]; cbn [ffill_from].
    + etransitivity; [apply last_error_cons, NE|]. etransitivity; [apply C|]. destruct (last_valid (y :: l)); reflexivity.
    + etransitivity; [apply last_error_cons, NE|]. etransitivity; [apply C|]. destruct (last_valid (y :: l)); reflexivity.
Qed.
Lemma ffill_app prev l1 t l2 : ffill_from prev (l1 ++ Some t :: l2) = ffill_from prev l1 ++ Some t :: ffill_from (Some t) l2.
Proof. revert prev. induction l1 as [|[x|] l1 IH]; intro prev; cbn; [reflexivity|rewrite IH; reflexivity|rewrite IH; reflexivity]. Qed.
Lemma ffill_length prev l : length (ffill_from prev l) = length l.
Proof. revert prev. induction l as [|[x|] l IH]; intro prev; cbn; [reflexivity|rewrite IH; reflexivity|rewrite IH; reflexivity]. Qed.
Lemma no_early_cv_spec cutoff data cycles b : no_early_cv cutoff data cycles = Ok b -> (b = true <-> forall c, In c cycles -> ~ early_cv cutoff data c).
Proof.
  revert b. induction cycles as [|c l IH]; intros b E; cbn in E; [injection E as <-; split; [intros _ ? []|reflexivity]|].
  destruct cv_default as [cv|] eqn:CV; [|discriminate]. cbn [bind] in E. destruct cv as [|r0 cv]; [discriminate|].
  assert (SKIP : (forall t a b', test_time r0 = Some t -> col_min (map (fun p => test_time (snd p)) (filter (fun p => Z.eqb (cycle_index (snd p)) c) data)) = Some a ->
                   col_max (map (fun p => test_time (snd p)) (filter (fun p => Z.eqb (cycle_index (snd p)) c) data)) = Some b' -> ~ (t - a) / (b' - a) < cutoff) ->
                 no_early_cv cutoff data l = Ok b -> (b = true <-> forall c', In c' (c :: l) -> ~ early_cv cutoff data c')).
  { intros N R. rewrite (IH b R). split.
    - intros H c' [<-|I]; [|exact (H c' I)]. intros (cv' & r0' & t & a & b' & C & T & A & B & K). rewrite CV in C. injection C as <- <-. exact (N _ _ _ T A B K).
    - intros H c' I. apply H. right. exact I. }
  destruct (test_time r0) as [t|] eqn:T; [|apply SKIP; [discriminate|exact E]].
  destruct (col_min _) as [a|] eqn:A in E; [|apply SKIP; [intros ? ? ? _ K; congruence|exact E]].
  destruct (col_max _) as [b'|] eqn:B in E; [|apply SKIP; [intros ? ? ? _ _ K; congruence|exact E]].
  destruct (Qeq_bool b' a); [discriminate|]. destruct (Qlt_bool _ cutoff) eqn:K in E.
  - injection E as <-. split; [discriminate|]. intro H. exfalso. apply (H c (or_introl eq_refl)). apply Qlt_bool_iff in K. exists cv, r0, t, a, b'. repeat split; assumption.
  - apply SKIP; [|exact E]. intros t' a' b'' T' A' B' K'. rewrite A in A'. rewrite B in B'. injection T' as <-. injection A' as <-. injection B' as <-.
    apply Qlt_bool_iff in K'. congruence.
Qed.

(** If the summary reaches cycle number n, the last known fraction [v] is not above 1, and some cycle of
    the summary is not after the end of life, then the cell is included exactly if all four criteria
    hold.  The end of life is the first diagnostic below the threshold if the last one is below it, and
    the last diagnostic otherwise.  Missing: the other cases, see below. *)
Theorem C87_include_partial parameters lookup_nominal currents h nominal diag summary data fs :
  exclusion parameters lookup_nominal currents h nominal diag summary data = Ok fs ->
  forall sn rows v, nth_error summary (e_n h) = Some sn ->
  nx parameters (e_quantity h) (e_type h) diag summary = Ok rows -> final_value (map x_frac rows) = Some v -> v <= 1 ->
  forall before_eol eol after_eol, rows = before_eol ++ eol :: after_eol ->
  (v < e_threshold h -> (exists w, x_frac eol = Some w /\ w < e_threshold h) /\
                        forall r w, In r before_eol -> x_frac r = Some w -> ~ w < e_threshold h) ->
  (~ v < e_threshold h -> after_eol = []) ->
  forall s1 sl s2 t, summary = s1 ++ sl :: s2 -> ascending (map s_cycle summary) -> (s_cycle sl <= x_cycle eol)%Z ->
  (forall s, In s s2 -> (x_cycle eol < s_cycle s)%Z) -> s_chg_thr sl = Some t ->
  forall capacity cc1 cc2, (nominal = Some capacity \/ nominal = None /\ lookup_nominal = Ok capacity) -> currents = Ok (cc1, cc2) ->
  exists r, fs = [r] /\
    (to_include r = true <->
       (exists c, s_chg_thr sn = Some c /\ e_n_cutoff h < c \/ s_chg_thr sn = None /\ e_n_cutoff h < 0) /\
       v < e_threshold h /\ e_cycles_cutoff h < t / capacity /\
       (cc1 <= cc2 \/ forall s, In s summary -> (s_cycle s <= x_cycle eol)%Z -> ~ early_cv (e_cv h) data (s_cycle s))).
Proof.
  intros E sn rows v SN NX FV V1 pre eol post ROWS EOL1 EOL2 s1 sl s2 t SUM ASC SL1 SL2 T capacity cc1 cc2 CAP CUR.
  unfold exclusion in E. cbn zeta in E. rewrite SN, NX in E. cbn [bind] in E.
  assert (NE : map x_frac rows <> []) by (rewrite ROWS; destruct pre; discriminate).
  assert (LAST : last_error (ffill (map x_frac rows)) = Some (Some v)).
  { etransitivity; [apply ffill_last, NE|]. unfold final_value in FV. rewrite FV. reflexivity. }
  rewrite LAST in E. cbn [bind] in E.
  assert (NGT : ngt (Some v) 1 = false) by (cbn; apply Qlt_bool_false, V1).
  rewrite NGT in E. cbn [hd nth_error length option_map] in E.
  set (below := fun x : num => match x with Some v => Qlt_bool v (e_threshold h) | None => false end) in E.
  assert (CUT : (if below (Some v) then match find (fun r => below (x_frac r)) rows with Some r => Ok (x_cycle r) | None => Err IndexError end
                 else match last_error rows with Some r => Ok (x_cycle r) | None => Err IndexError end) = Ok (x_cycle eol)).
  { unfold below at 1. destruct (Qlt_bool v (e_threshold h)) eqn:B.
    - apply Qlt_bool_iff in B. destruct (EOL1 B) as [(w & W1 & W2) N].
      assert (FIND : find (fun r => below (x_frac r)) rows = Some eol).
      { rewrite ROWS. clear - N W1 W2. induction pre as [|r l IH]; cbn.
        - unfold below at 1. rewrite W1. replace (Qlt_bool w (e_threshold h)) with true by (symmetry; apply Qlt_bool_iff, W2). reflexivity.
        - replace (below (x_frac r)) with false; [apply IH; intros; apply (N r0); [right; assumption|assumption]|].
          unfold below. destruct (x_frac r) as [u|] eqn:U; [|reflexivity]. symmetry. apply not_true_iff_false. intro K. apply Qlt_bool_iff in K. exact (N r u (or_introl eq_refl) U K). }
      rewrite FIND. reflexivity.
    - assert (NB : ~ v < e_threshold h) by (intro K; apply Qlt_bool_iff in K; congruence).
      rewrite ROWS, (EOL2 NB). rewrite last_error_snoc. reflexivity. }
  unfold below in CUT. cbn beta iota in CUT.
  rewrite CUT in E. cbn [bind] in E.
  assert (CAP' : (match nominal with Some c => Ok c | None => lookup_nominal end) = Ok capacity) by (destruct CAP as [->|[-> ->]]; reflexivity).
  rewrite CAP' in E. cbn [bind] in E.
  assert (LR : exists c, col_max (map (fun c => Some (inject_Z c)) (filter (fun c => Z.leb c (x_cycle eol)) (map s_cycle summary))) = Some (inject_Z c) /\ c = s_cycle sl).
  { pose proof (col_max_spec (map (fun c => Some (inject_Z c)) (filter (fun c => Z.leb c (x_cycle eol)) (map s_cycle summary)))) as M.
    assert (I : In (s_cycle sl) (filter (fun c => Z.leb c (x_cycle eol)) (map s_cycle summary))).
    { apply filter_In. split; [apply in_map; rewrite SUM; apply in_or_app; right; left; reflexivity|apply Z.leb_le, SL1]. }
    destruct (col_max _) as [m|]; [|exfalso; apply (M (inject_Z (s_cycle sl))); apply in_map_iff; eauto].
    destruct M as [M1 M2]. apply in_map_iff in M1 as (c & C & M1). injection C as <-. exists c. split; [reflexivity|].
    assert (M3 : inject_Z (s_cycle sl) <= inject_Z c) by (apply M2, in_map_iff; eauto). rewrite <- Zle_Qle in M3.
    apply filter_In in M1 as [M1 M4]. apply Z.leb_le in M4. apply in_map_iff in M1 as (s & S & M1). rewrite SUM in M1, ASC.
    apply in_app_or in M1 as [M1|[M1|M1]].
    - rewrite map_app in ASC. destruct (ascending_app _ _ ASC) as (_ & _ & C). specialize (C _ (s_cycle sl) (in_map s_cycle _ _ M1) (or_introl eq_refl)). lia.
    - subst s. symmetry. exact S.
    - specialize (SL2 s M1). lia. }
  destruct LR as (c & LR & ->). rewrite LR in E.
  assert (THR : map snd (filter (fun p => Qeq_bool (inject_Z (fst p)) (inject_Z (s_cycle sl))) (combine (map s_cycle summary) (ffill (map s_chg_thr summary)))) = [Some t]).
  { rewrite SUM, !map_app. cbn [map]. rewrite T. unfold ffill. rewrite ffill_app.
    assert (SPLIT : forall (l1 : list Z) (m1 : list num) l2 m2, length l1 = length m1 -> combine (l1 ++ l2) (m1 ++ m2) = combine l1 m1 ++ combine l2 m2).
    { induction l1 as [|x l1 IH]; intros [|y m1] l2 m2 LE; try discriminate; [reflexivity|]. cbn. f_equal. apply IH. cbn in LE. lia. }
    rewrite SPLIT by (rewrite ffill_length, !map_length; reflexivity). rewrite filter_app, map_app.
    rewrite SUM, map_app in ASC. destruct (ascending_app _ _ ASC) as (_ & ASC2 & C). cbn [map] in ASC2, C. apply StronglySorted_inv in ASC2 as [_ F].
    assert (NONE : forall (l : list Z) (m : list num), (forall x, In x l -> x <> s_cycle sl) -> filter (fun p => Qeq_bool (inject_Z (fst p)) (inject_Z (s_cycle sl))) (combine l m) = []).
    { induction l as [|x l IH]; intros [|y m] N; try reflexivity. cbn. destruct (Qeq_bool (inject_Z x) (inject_Z (s_cycle sl))) eqn:B.
      - apply Qeq_bool_iff in B. rewrite inject_Z_injective in B. exfalso. exact (N x (or_introl eq_refl) B).
      - apply IH. intros; apply N; right; assumption. }
    rewrite (NONE (map s_cycle s1)) by (intros x X; specialize (C x (s_cycle sl) X (or_introl eq_refl)); lia).
    cbn [app map combine filter fst]. replace (Qeq_bool (inject_Z (s_cycle sl)) (inject_Z (s_cycle sl))) with true by (symmetry; apply Qeq_bool_iff; reflexivity).
    cbn [map snd]. rewrite NONE; [reflexivity|]. intros x X. rewrite Forall_forall in F. specialize (F x X). lia. }
  rewrite THR in E. cbn [length Nat.eqb negb andb] in E. rewrite andb_true_r in E.
  destruct (Qeq_bool capacity 0) eqn:C0; [discriminate|]. rewrite CUR in E. cbn [bind] in E.
  set (before := filter (fun c => Z.leb c (x_cycle eol)) (map s_cycle summary)) in E.
  destruct (if Qle_bool cc1 cc2 then Ok true else no_early_cv (e_cv h) data before) as [cv|] eqn:CV; [|discriminate].
  cbn [bind seq map Nat.eqb nth_error option_map hd fill0 truthy ndiv_finite] in E. rewrite C0 in E.
  injection E as <-. eexists. split; [reflexivity|]. cbn [to_include option_map truthy]. rewrite !andb_true_iff.
  assert (CVS : cv = true <-> cc1 <= cc2 \/ (forall s, In s summary -> (s_cycle s <= x_cycle eol)%Z -> ~ early_cv (e_cv h) data (s_cycle s))).
  { assert (BEF : (forall c, In c before -> ~ early_cv (e_cv h) data c) <-> (forall s, In s summary -> (s_cycle s <= x_cycle eol)%Z -> ~ early_cv (e_cv h) data (s_cycle s))).
    { unfold before. split.
      - intros H s S LE. apply H, filter_In. split; [apply in_map, S|apply Z.leb_le, LE].
      - intros H c I. apply filter_In in I as [I LE]. apply in_map_iff in I as (s & <- & S). apply H; [exact S|apply Z.leb_le, LE]. }
    destruct (Qle_bool cc1 cc2) eqn:CC.
    - injection CV as <-. apply Qle_bool_iff in CC. split; [intros _; left; exact CC|reflexivity].
    - rewrite (no_early_cv_spec _ _ _ _ CV), BEF. split; [intro H; right; exact H|]. intros [K|K]; [|exact K].
      apply Qle_bool_iff in K. congruence. }
  assert (NS : Qlt_bool (e_n_cutoff h) (fill0 (s_chg_thr sn)) = true <-> exists c, s_chg_thr sn = Some c /\ e_n_cutoff h < c \/ s_chg_thr sn = None /\ e_n_cutoff h < 0).
  { rewrite Qlt_bool_iff. destruct (s_chg_thr sn) as [u|]; cbn [fill0]; split.
    - intro K. exists u. left. split; [reflexivity|exact K].
    - intros (c & [[EC K]|[EC _]]); [injection EC as <-; exact K|discriminate].
    - intro K. exists 0. right. split; [reflexivity|exact K].
    - intros (c & [[EC _]|[_ K]]); [discriminate|exact K]. }
  rewrite <- NS. unfold ngt, below. rewrite !Qlt_bool_iff, <- CVS. tauto.
Qed.

Definition toy_exclusion (n : nat) (cutoff : Q) (type metric : string) (cv : Q) : exclusion_hyper :=
  {| e_n := n; e_n_cutoff := cutoff; e_type := type; e_quantity := metric; e_threshold := 7 # 10; e_cycles_cutoff := 1; e_cv := cv |}.
Definition toy_charge (c : Z) (t v i : Q) : row :=
  {| cycle_index := c; step_index := 1; test_time := Some t; voltage := Some v; current := Some i;
     charge_capacity := Some t; discharge_capacity := Some 0; charge_energy := Some 0; discharge_energy := Some 0;
     internal_resistance := None; temperature := None; date_time := None; wf_chg_cap := None; wf_dis_cap := None |}.
Definition toy_data : list (string * row) :=
  flat_map (fun s => let c := s_cycle s in
    map (fun r => ("charge"%string, r)) [toy_charge c 0 3 1; toy_charge c 10 (35 # 10) 1; toy_charge c 20 (36 # 10) 1; toy_charge c 30 (36 # 10) (1 # 2)]
    ++ [("discharge"%string, toy_charge c 40 3 (-1))]) toy_summary.
(** Non-vacuity: constant voltage begins after a quarter of each cycle, so that a cell with a falling
    current is included if the limit is a fifth and excluded if it is two fifths. *)
Example C87_case : exists r r',
  exclusion toy_parameters (Err KeyError) (Ok (2, 1)) (toy_exclusion 2 1 "rpt_1C" "discharge_capacity" (1 # 5)) (Some 2) toy_diag toy_summary toy_data = Ok [r] /\
  to_include r = true /\
  exclusion toy_parameters (Err KeyError) (Ok (2, 1)) (toy_exclusion 2 1 "rpt_1C" "discharge_capacity" (2 # 5)) (Some 2) toy_diag toy_summary toy_data = Ok [r'] /\
  to_include r' = false /\
  exists rows, nx toy_parameters "discharge_capacity" "rpt_1C" toy_diag toy_summary = Ok rows /\
  (exists v, final_value (map x_frac rows) = Some v /\ v <= 1 /\ v < 7 # 10) /\ map x_cycle rows = [1; 4; 7]%Z /\
  ascending (map s_cycle toy_summary).
Proof.
  do 2 eexists. split; [vm_compute; reflexivity|]. split; [reflexivity|]. split; [vm_compute; reflexivity|]. split; [reflexivity|].
  eexists. split; [vm_compute; reflexivity|]. split; [eexists; split; [vm_compute; reflexivity|split; [discriminate|reflexivity]]|].
  split; [reflexivity|]. unfold toy_summary. cbn. repeat constructor.
Qed.
(** Finding: a run that ended before cycle n passes the criterion on the first n cycles. *)
Theorem C87_short_run_refuted : exists h summary r, (length summary <= e_n h)%nat /\
  exclusion toy_parameters (Err KeyError) (Ok (1, 2)) h (Some 2) toy_diag summary [] = Ok [r] /\ f_n r = None /\ to_include r = true.
Proof. exists (toy_exclusion 200 60 "rpt_1C" "discharge_capacity" (2 # 5)), toy_summary. eexists. split; [cbn; lia|]. split; [vm_compute; reflexivity|split; reflexivity]. Qed.
(** Finding: "the first n cycles" are n + 1 cycles of the summary. *)
Theorem C87_first_n_refuted : exists h summary r s, (0 < e_n h)%nat /\ nth_error summary (e_n h - 1) = Some s /\
  (exists t, s_chg_thr s = Some t /\ t <= e_n_cutoff h) /\
  exclusion toy_parameters (Err KeyError) (Ok (1, 2)) h (Some 2) toy_diag summary [] = Ok [r] /\ to_include r = true.
Proof.
  exists (toy_exclusion 2 (5 # 2) "rpt_1C" "discharge_capacity" (2 # 5)), toy_summary. do 2 eexists. split; [cbn; lia|].
  split; [reflexivity|]. split; [exists 2; split; [reflexivity|discriminate]|]. split; [vm_compute; reflexivity|reflexivity].
Qed.
(** Finding: a cell whose first diagnostic of the type is below the threshold, so that it had no regular
    cycle before its end of life, passes the criterion on the number of cycles until then. *)
Theorem C87_no_cycles_refuted : exists h diag summary r,
  (forall d s, In d diag -> d_type d = e_type h -> In s summary -> (d_cycle d < 4)%Z -> (d_cycle d < s_cycle s)%Z) /\
  exclusion toy_parameters (Err KeyError) (Ok (1, 2)) h (Some 2) diag summary [] = Ok [r] /\ f_efc r = None /\ to_include r = true.
Proof.
  exists (toy_exclusion 2 1 "rpt_2C" "discharge_energy" (2 # 5)),
    [toy_drow 0 "reset" 10 100; toy_drow 1 "rpt_2C" 9 65; toy_drow 4 "reset" 8 90; toy_drow 5 "rpt_2C" 7 60],
    [toy_srow 2 1; toy_srow 3 2; toy_srow 6 3; toy_srow 7 4].
  eexists. split; [|split; [vm_compute; reflexivity|split; reflexivity]].
  intros d s D T S L. cbn in D, S. destruct D as [<-|[<-|[<-|[<-|[]]]]]; cbn in *; try discriminate T; try lia; destruct S as [<-|[<-|[<-|[<-|[]]]]]; cbn; lia.
Qed.
(** Finding: if the last fraction is above 1 the one before it is used as well, the first row being for that
    one; if that is below the threshold the cell is included although it ends above 1. *)
Theorem C87_recovered_refuted : exists h diag rows r v,
  nx toy_parameters (e_quantity h) (e_type h) diag toy_summary = Ok rows /\ final_value (map x_frac rows) = Some v /\ 1 < v /\
  exclusion toy_parameters (Err KeyError) (Ok (1, 2)) h (Some 2) diag toy_summary [] = Ok [r] /\ to_include r = true.
Proof.
  exists (toy_exclusion 2 1 "rpt_1C" "discharge_capacity" (2 # 5)), [toy_drow 1 "rpt_1C" 10 100; toy_drow 4 "rpt_1C" 6 90; toy_drow 7 "rpt_1C" 11 70].
  do 3 eexists. split; [vm_compute; reflexivity|]. split; [vm_compute; reflexivity|]. split; [reflexivity|]. split; [vm_compute; reflexivity|reflexivity].
Qed.

Print Assumptions C85_rows.
Print Assumptions C85_throughput_partial.
Print Assumptions C85_monotone.
Print Assumptions C85_no_gap_refuted.
Print Assumptions C85_own_first_refuted.
Print Assumptions C86_reached_partial.
Print Assumptions C86_extrapolated_partial.
Print Assumptions C86_real_throughput.
Print Assumptions C86_choice_refuted.
Print Assumptions C86_choice_of_run_refuted.
Print Assumptions C86_one_table.
Print Assumptions C86_mixed_refuted.
Print Assumptions C86_extrapolation_refuted.
Print Assumptions C86_not_reached_refuted.
Print Assumptions C86_single_axis_refuted.
Print Assumptions C86_kinks_refuted.
Print Assumptions C87_include_partial.
Print Assumptions C87_short_run_refuted.
Print Assumptions C87_first_n_refuted.
Print Assumptions C87_no_cycles_refuted.
Print Assumptions C87_recovered_refuted.
