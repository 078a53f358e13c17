(** Lemmas for C35, C37, C65: from the dictionaries to the passes and back. *)
From Verif Require Import Py Model_Text Model_B2M Spec_Numeral Spec_B2M Proofs_Diagnostic Proofs_Structure Proofs_Numeral Proofs_B2M.

Lemma int_fld_shows d k z : int_fld d k = Ok z <-> shows d k z.
Proof.
  unfold int_fld, fld, shows, py_int. destruct (sget d k) as [t|]; cbn [bind].
  - destruct (parse_int t) as [z'|] eqn:P.
    + split; [intros [= <-]; exists t; split; [auto|apply integer_iff; exact P]|].
      intros (t' & [= <-] & I). apply integer_iff in I. congruence.
    + split; [discriminate|]. intros (t' & [= <-] & I). apply integer_iff in I. congruence.
  - split; [discriminate|]. intros (t' & H & _). discriminate.
Qed.
Lemma shows_fun d k a b : shows d k a -> shows d k b -> a = b.
Proof. rewrite <- !int_fld_shows. congruence. Qed.

Lemma info_spec d s : info_of d = Ok s ->
  i_dict s = d /\ shows d "Ns" (i_ns s) /\ (i_loop s = true <-> text_of d "ctrl_type" "Loop") /\ shows d "ctrl_seq" (i_to s) /\
  shows d "ctrl_repeat" (i_repeat s) /\ (i_inactive s = true <-> text_of d "ctrl_repeat" "0") /\ shows d "lim_nb" (i_limits s) /\
  (i_loop s = false -> Forall2 (fun k g => shows d (nth_key "lim" k "_seq") g) (seq 1 (Z.to_nat (i_limits s))) (i_gotos s)).
Proof.
  intro H. unfold info_of in H.
  destruct (fld d "ctrl_type") as [ty|] eqn:TY; cbn [bind] in H; [|discriminate].
  destruct (int_fld d "Ns") as [ns|] eqn:NS; cbn [bind] in H; [|discriminate].
  destruct (int_fld d "ctrl_seq") as [to|] eqn:TO; cbn [bind] in H; [|discriminate].
  destruct (fld d "ctrl_repeat") as [rt|] eqn:RT; cbn [bind] in H; [|discriminate].
  destruct (py_int rt) as [rep|] eqn:RP; cbn [bind] in H; [|discriminate].
  destruct (int_fld d "lim_nb") as [nl|] eqn:NL; cbn [bind] in H; [|discriminate].
  assert (REP : int_fld d "ctrl_repeat" = Ok rep) by (unfold int_fld; rewrite RT; exact RP).
  assert (TYT : sget d "ctrl_type" = Some ty) by (unfold fld in TY; destruct (sget d "ctrl_type"); congruence).
  assert (RTT : sget d "ctrl_repeat" = Some rt) by (unfold fld in RT; destruct (sget d "ctrl_repeat"); congruence).
  apply int_fld_shows in NS, TO, NL, REP.
  destruct (if (ty =? "Loop")%string then Ok [] else mapM (fun k => int_fld d (nth_key "lim" k "_seq")) (seq 1 (Z.to_nat nl))) as [gs|] eqn:GS; cbn [bind] in H; [|discriminate].
  injection H as <-. cbn. unfold text_of. repeat split; auto.
  - intro E. apply String.eqb_eq in E. congruence.
  - intro E. apply String.eqb_eq. congruence.
  - intro E. apply String.eqb_eq in E. congruence.
  - intro E. apply String.eqb_eq. congruence.
  - intro E. rewrite E in GS. apply mapM_ok in GS. eapply F2_impl; [|exact GS]. intros k g K. apply int_fld_shows. exact K.
Qed.

(** What a successful conversion has gone through. *)
Definition passes (show : Q -> string) (seqs : list bseq) (l : list info) (w : wstate) (n : nstate) (blocks : list (list bstep)) : Prop :=
  Forall2 (fun d s => info_of d = Ok s) seqs l /\
  ranges_pass w0 (rev l) = Ok w /\ starts_ok w = true /\
  number_pass l (w_starts w) {| n_cur := 1; n_steps := []; n_blank := []; n_nums := [] |} 0 l = Ok n /\
  check_gotos (w_in w) (n_blank n) (-1) l = Ok tt /\
  mapM (emit_seq show (w_starts w) (n_nums n) (n_steps n) (n_blank n) (n_cur n)) l = Ok blocks.
Lemma passes_of show seqs out : create_steps show seqs = Ok out ->
  exists l w n blocks, passes show seqs l w n blocks /\ out = concat blocks ++ [end_step].
Proof.
  unfold create_steps. intro H. destruct (mapM info_of seqs) as [l|] eqn:L; cbn [bind] in H; [|discriminate].
  fold w0 in H. destruct (ranges_pass w0 (rev l)) as [w|] eqn:W; cbn [bind] in H; [|discriminate].
  destruct (starts_ok w) eqn:S; [|discriminate]. cbn [negb] in H.
  destruct (number_pass l (w_starts w) _ 0 l) as [n|] eqn:N; cbn [bind] in H; [|discriminate].
  destruct (check_gotos (w_in w) (n_blank n) (-1) l) as [[]|] eqn:C; cbn [bind] in H; [|discriminate].
  destruct (mapM _ l) as [blocks|] eqn:B in H; cbn [bind] in H; [|discriminate]. injection H as <-.
  exists l, w, n, blocks. split; [|reflexivity]. apply mapM_ok in L. repeat split; auto.
Qed.

Section Bridge.
  Variable show : Q -> string.
  Variables (seqs : list bseq) (l : list info) (w : wstate) (n : nstate) (blocks : list (list bstep)).
  Hypothesis PS : passes show seqs l w n blocks.
  Hypothesis WN : well_numbered seqs.

  Let INFO : Forall2 (fun d s => info_of d = Ok s) seqs l. Proof. apply PS. Qed.
  Let RNG : ranges_pass w0 (rev l) = Ok w. Proof. apply PS. Qed.
  Let STOK : starts_ok w = true. Proof. apply PS. Qed.
  Let NMB : number_pass l (w_starts w) {| n_cur := 1; n_steps := []; n_blank := []; n_nums := [] |} 0 l = Ok n. Proof. apply PS. Qed.
  Let CHK : check_gotos (w_in w) (n_blank n) (-1) l = Ok tt. Proof. apply PS. Qed.
  Let EMIT : mapM (emit_seq show (w_starts w) (n_nums n) (n_steps n) (n_blank n) (n_cur n)) l = Ok blocks. Proof. apply PS. Qed.

  Lemma F2_nth {A B} (R : A -> B -> Prop) xs ys : Forall2 R xs ys -> forall i,
    match nth_error xs i, nth_error ys i with Some x, Some y => R x y | None, None => True | _, _ => False end.
  Proof. induction 1 as [|x y xs ys H F IH]; intros [|i]; cbn; auto. apply IH. Qed.
  Lemma to_info i d : nth_error seqs i = Some d -> exists s, nth_error l i = Some s /\ info_of d = Ok s.
  Proof. intro H. pose proof (F2_nth _ _ _ INFO i) as F. rewrite H in F. destruct (nth_error l i) as [s|]; [|destruct F]. eauto. Qed.
  Lemma to_seq i s : nth_error l i = Some s -> exists d, nth_error seqs i = Some d /\ info_of d = Ok s.
  Proof. intro H. pose proof (F2_nth _ _ _ INFO i) as F. rewrite H in F. destruct (nth_error seqs i) as [d|]; [|destruct F]. eauto. Qed.
  Lemma NUM : numbered 0 l.
  Proof.
    intros i s H. destruct (to_seq i s H) as (d & D & I). apply info_spec in I. specialize (WN i d D).
    rewrite (shows_fun _ _ _ _ WN (proj1 (proj2 I))). lia.
  Qed.

  (** a loop that repeats is an active loop *)
  Lemma act_of e a rep : loop_at seqs e a rep -> rep <> 0%Z -> act l e (Z.of_nat a).
  Proof.
    intros (d & D & T & TO & RP) NZ. destruct (to_info e d D) as (s & S & I). apply info_spec in I. destruct I as (_ & _ & L & TO' & RP' & IN & _).
    exists s. split; [exact S|]. split; [|exact (shows_fun _ _ _ _ TO' TO)]. unfold active. rewrite (proj2 L T). cbn.
    destruct (i_inactive s) eqn:E; auto. exfalso. apply NZ. destruct (proj1 IN eq_refl). destruct RP as (t & T1 & T2). 
    rewrite (proj1 IN eq_refl) in T1. injection T1 as <-. apply integer_iff in T2. cbn in T2. injection T2 as <-. reflexivity.
  Qed.
  Theorem disjoint_loops e1 a1 r1 e2 a2 r2 : loop_at seqs e1 a1 r1 -> loop_at seqs e2 a2 r2 -> r1 <> 0%Z -> r2 <> 0%Z -> (e1 < e2)%nat ->
    (a1 <= e1)%nat /\ (e1 < a2)%nat /\ (a2 <= e2)%nat.
  Proof.
    intros L1 L2 N1 N2 LT. pose proof (act_of _ _ _ L1 N1) as A1. pose proof (act_of _ _ _ L2 N2) as A2.
    destruct (loops_disjoint l w NUM RNG STOK _ _ A1) as [B1 _]. destruct (loops_disjoint l w NUM RNG STOK _ _ A2) as [B2 D].
    split; [lia|]. split; [|lia]. destruct (Nat.lt_ge_cases e1 a2) as [X|X]; auto. specialize (D _ _ A1 ltac:(lia)). lia.
  Qed.

  Hypothesis ZP : zero_plain seqs.
  Lemma PLAIN s : In s l -> i_inactive s = Z.eqb (i_repeat s) 0.
  Proof.
    intro I. apply In_nth_error in I. destruct I as [i H]. destruct (to_seq i s H) as (d & D & I). apply info_spec in I.
    destruct I as (_ & _ & _ & _ & RP & IN & _). apply Bool.eq_iff_eq_true. rewrite IN, Z.eqb_eq. split.
    - intro T. destruct RP as (t & T1 & T2). rewrite T in T1. injection T1 as <-. apply integer_iff in T2. cbn in T2. injection T2 as ->. reflexivity.
    - intro E. apply (ZP d); [eapply nth_error_In; eauto|]. rewrite E in RP. exact RP.
  Qed.
  Notation starts := (w_starts w).

  Lemma passed_iff i s : nth_error l i = Some s -> (passed_over seqs i <-> blankb s = true).
  Proof.
    intro H. destruct (to_seq i s H) as (d & D & I). apply info_spec in I. destruct I as (_ & _ & L & _ & RP & _).
    unfold passed_over, blankb. rewrite andb_true_iff, Z.eqb_eq, L. split.
    - intros (d' & D' & T & R). rewrite D in D'. injection D' as <-. split; [exact T|exact (shows_fun _ _ _ _ RP R)].
    - intros [T R]. exists d. rewrite R in RP. auto.
  Qed.
  Lemma loop_iff e a rep s : nth_error l e = Some s -> (loop_at seqs e a rep <-> i_loop s = true /\ i_to s = Z.of_nat a /\ i_repeat s = rep).
  Proof.
    intro H. destruct (to_seq e s H) as (d & D & I). apply info_spec in I. destruct I as (_ & _ & L & TO & RP & _). unfold loop_at. rewrite L. split.
    - intros (d' & D' & T & TO' & R). rewrite D in D'. injection D' as <-. split; [exact T|]. split; [exact (shows_fun _ _ _ _ TO TO')|exact (shows_fun _ _ _ _ RP R)].
    - intros (T & <- & <-). exists d. rewrite <- ?TO. auto.
  Qed.
  Lemma in_range i d : nth_error seqs i = Some d -> exists s, nth_error l i = Some s.
  Proof. intro D. destruct (to_info i d D) as (s & S & _). eauto. Qed.
  Lemma blanks_iff j s : nth_error l j = Some s -> (zmem (Z.of_nat j) (blanks l) = true <-> blankb s = true).
  Proof.
    intro H. pose proof (blank_in show l w n blocks NUM PLAIN RNG STOK NMB CHK EMIT j s H) as B. rewrite (ns_at show l w n blocks NUM PLAIN RNG STOK NMB CHK EMIT j s H) in B. rewrite <- B.
    rewrite <- (zmem_ext _ _ _ (u_blank _ _ _ _ (number_pass_inv l starts NUM n NMB))). tauto.
  Qed.
  Lemma blanks_dom x : zmem x (blanks l) = true -> exists j s, x = Z.of_nat j /\ nth_error l j = Some s /\ blankb s = true.
  Proof.
    rewrite zmem_iff. unfold blanks. rewrite in_map_iff. intros (s & <- & I). apply filter_In in I. destruct I as [I B].
    apply In_nth_error in I. destruct I as [j J]. exists j, s. rewrite (ns_at show l w n blocks NUM PLAIN RNG STOK NMB CHK EMIT j s J). auto.
  Qed.
  Lemma advances_iff i s : nth_error l i = Some s -> (advances seqs i <-> blankb s = false /\ isadv l s = true).
  Proof.
    intro H. unfold isadv. rewrite (ns_at show l w n blocks NUM PLAIN RNG STOK NMB CHK EMIT i s H). split.
    - intros (a & rep & -> & L & NZ & P). rewrite (loop_iff _ _ _ _ H) in L. destruct L as (L & TO & R).
      split; [unfold blankb; rewrite L; destruct (Z.eqb_spec (i_repeat s) 0); [congruence|reflexivity]|].
      rewrite L, TO. replace (Z.of_nat (S a) - 1)%Z with (Z.of_nat a) by lia. rewrite Z.eqb_refl. cbn.
      destruct P as (d & D & P). destruct (in_range a d D) as (t & T). apply (blanks_iff a t T). apply (passed_iff a t T). exists d. auto.
    - intros (B & A). apply andb_prop in A. destruct A as [A M]. apply andb_prop in A. destruct A as [L TO]. apply Z.eqb_eq in TO.
      destruct (blanks_dom _ M) as (j & t & J & T & BT). exists j, (i_repeat s). assert (i = S j) by lia. subst i. split; [reflexivity|].
      split; [apply (loop_iff _ _ _ _ H); repeat split; [exact L|lia]|]. split; [|apply (passed_iff j t T); exact BT].
      intro R. unfold blankb in B. rewrite L, R in B. discriminate.
  Qed.
  Lemma repeats_iff e a s : nth_error l e = Some s -> (repeats seqs e a <-> i_loop s = true /\ blankb s = false /\ isadv l s = false /\ i_to s = Z.of_nat a).
  Proof.
    intro H. unfold repeats. split.
    - intros (rep & L & NZ & NA). rewrite (loop_iff _ _ _ _ H) in L. destruct L as (L & TO & R).
      assert (B : blankb s = false) by (unfold blankb; rewrite L; destruct (Z.eqb_spec (i_repeat s) 0); [congruence|reflexivity]).
      repeat split; auto. destruct (isadv l s) eqn:A; auto. exfalso. apply NA. apply (advances_iff _ _ H). auto.
    - intros (L & B & A & TO). exists (i_repeat s). split; [apply (loop_iff _ _ _ _ H); auto|]. split.
      + intro R. unfold blankb in B. rewrite L, R in B. discriminate.
      + intro AD. apply (advances_iff _ _ H) in AD. destruct AD. congruence.
  Qed.
  Lemma works_iff i s : nth_error l i = Some s -> (works seqs i <-> i_loop s = false).
  Proof.
    intro H. destruct (to_seq i s H) as (d & D & I). apply info_spec in I. destruct I as (_ & _ & L & _). unfold works. split.
    - intros (d' & D' & T). rewrite D in D'. injection D' as <-. destruct (i_loop s); auto. exfalso. apply T. apply L. reflexivity.
    - intro F. exists d. split; [exact D|]. rewrite <- L. congruence.
  Qed.
  Lemma repeats_dom e a : repeats seqs e a -> exists s, nth_error l e = Some s.
  Proof. intros (rep & (d & D & _) & _). eapply in_range; eauto. Qed.
  Lemma starts_iff a s : nth_error l a = Some s -> blankb s = false -> (starts_loop seqs a <-> zmem (i_ns s) starts = true).
  Proof.
    intros H B. split.
    - intros (e & R). destruct (repeats_dom e a R) as (t & T). apply (repeats_iff _ _ _ T) in R. destruct R as (L & BT & A & TO).
      rewrite zmem_iff. apply (v_starts _ _ _ (ranges_inv l 0 w NUM RNG)). exists e, t. rewrite (ns_at show l w n blocks NUM PLAIN RNG STOK NMB CHK EMIT a s H). split; [exact T|]. split; [|exact TO].
      rewrite (active_blank show l w n blocks NUM PLAIN RNG STOK NMB CHK EMIT t) by (eapply nth_error_In; eauto). rewrite L, BT. reflexivity.
    - intro Z. destruct (starts_plain show l w n blocks NUM PLAIN RNG STOK NMB CHK EMIT a s H Z B) as (_ & e & t & T & L & BT & A & TO).
      exists e. apply (repeats_iff _ _ _ T). auto.
  Qed.
  Lemma repeats_target e a : repeats seqs e a -> works seqs a /\ (a < e)%nat /\ exists t, nth_error l a = Some t /\ blankb t = false.
  Proof.
    intro R. destruct (repeats_dom e a R) as (s & S). pose proof R as R'. apply (repeats_iff _ _ _ S) in R'. destruct R' as (L & B & A & TO).
    destruct (u_loops _ _ _ _ (number_pass_inv l starts NUM n NMB) e s S B A L) as (t & P & LT).
    unfold py_nth in P. rewrite TO in P. destruct (Z.leb_spec 0 (Z.of_nat a)) as [_|X]; [|lia]. rewrite Nat2Z.id in P.
    assert (AC : act l e (Z.of_nat a)). { exists s. split; [exact S|]. split; [|exact TO]. rewrite (active_blank show l w n blocks NUM PLAIN RNG STOK NMB CHK EMIT s) by (eapply nth_error_In; eauto). rewrite L, B. reflexivity. }
    destruct (loops_disjoint l w NUM RNG STOK _ _ AC) as [BD _].
    split; [apply (works_iff a t P); exact LT|]. split.
    - destruct (Nat.eq_dec a e) as [->|]; [|lia]. rewrite S in P. congruence.
    - exists t. split; [exact P|]. unfold blankb. rewrite LT. reflexivity.
  Qed.

  Notation E X := (X show l w n blocks NUM PLAIN RNG STOK NMB CHK EMIT).
  Lemma create_step_ok nums st_set end_num d st : create_step show nums st_set end_num d = Ok st ->
    is_work st /\ exists ns sn m, shows d "Ns" ns /\ d_get Z.eqb nums ns = Some sn /\ shows d "lim_nb" m /\ (0 <= m <= 3)%Z /\
      Forall2 (fun k e => create_end show nums st_set sn end_num ns d k = Ok e) (seq 1 (Z.to_nat m)) (bs_ends st).
  Proof.
    unfold create_step. intro H.
    destruct (int_fld d "Ns") as [ns|] eqn:NS; cbn [bind] in H; [|discriminate].
    destruct (fld d "ctrl_type") as [ty|] eqn:TY; cbn [bind] in H; [|discriminate].
    destruct (fld d "ctrl1_val") as [v|]; cbn [bind] in H; [|discriminate].
    destruct (fld d "ctrl1_val_unit") as [u|]; cbn [bind] in H; [|discriminate].
    destruct (fld d "ctrl1_val_vs") as [vs|]; cbn [bind] in H; [|discriminate].
    destruct (d_get Z.eqb nums ns) as [sn|] eqn:SN; cbn [bind] in H; [|discriminate].
    destruct (fld d "charge/discharge") as [cd|]; cbn [bind] in H; [|discriminate].
    destruct (b_direction cd) as [dir|] eqn:DIR; cbn [bind] in H; [|discriminate].
    destruct (b_control ty vs v u dir) as [[[a b] c]|] eqn:CT; cbn [bind] in H; [|discriminate].
    destruct (int_fld d "lim_nb") as [m|] eqn:NL; cbn [bind] in H; [|discriminate].
    destruct (existsb (Z.eqb m) [0; 1; 2; 3]%Z) eqn:M; cbn [negb] in H; [|discriminate].
    destruct (mapM (create_end show nums st_set sn end_num ns d) (seq 1 (Z.to_nat m))) as [ends|] eqn:EN; cbn [bind] in H; [|discriminate].
    destruct (int_fld d "rec_nb") as [r|]; cbn [bind] in H; [|discriminate].
    destruct (existsb (Z.eqb r) [0; 1; 2; 3]%Z); cbn [negb] in H; [|discriminate].
    destruct (mapM (create_report show d) (seq 1 (Z.to_nat r))) as [reps|]; cbn [bind] in H; [|discriminate].
    injection H as <-. cbn [bs_ends]. split.
    - assert (D : dir = "Charge "%string \/ dir = "Dischrge "%string).
      { unfold b_direction in DIR. destruct (negb _ && negb _); [discriminate|]. injection DIR as <-. destruct (cd =? " Charge ")%string; auto. }
      unfold is_work. cbn [bs_type fst]. unfold b_control in CT. cbn [In].
      repeat match type of CT with (if ?c then _ else _) = _ => destruct c end; try discriminate;
        try (match type of CT with bind ?x _ = _ => destruct x as [t|]; [|discriminate] end); cbn [bind] in CT; injection CT as <- _ _; intuition.
    - exists ns, sn, m. split; [apply int_fld_shows; exact NS|]. split; [exact SN|]. split; [apply int_fld_shows; exact NL|].
      split; [|apply mapM_ok; exact EN]. apply existsb_exists in M. destruct M as (z & Z & X). apply Z.eqb_eq in X. subst z. cbn in Z. lia.
  Qed.
  Lemma create_loop_ok nums d lp : create_loop_step nums d = Ok lp ->
    is_loop lp /\ exists to t en, shows d "ctrl_seq" to /\ d_get Z.eqb nums to = Some t /\ bs_ends lp = [en] /\ be_step en = stringify_step_num (t - 1).
  Proof.
    unfold create_loop_step. intro H. destruct (int_fld d "ctrl_repeat"); cbn [bind] in H; [|discriminate].
    destruct (int_fld d "ctrl_seq") as [to|] eqn:TO; cbn [bind] in H; [|discriminate].
    destruct (d_get Z.eqb nums to) as [t|] eqn:T; [|discriminate]. destruct (negb _); [discriminate|]. injection H as <-.
    split; [reflexivity|]. exists to, t. eexists. split; [apply int_fld_shows; exact TO|]. split; [exact T|]. cbn. split; reflexivity.
  Qed.

  Lemma group_shape i s b : nth_error l i = Some s -> nth_error blocks i = Some b ->
    (blankb s = true -> b = []) /\
    (blankb s = false -> isadv l s = true -> b = [adv_step]) /\
    (blankb s = false -> isadv l s = false -> i_loop s = true -> exists lp, create_loop_step (n_nums n) (i_dict s) = Ok lp /\ b = [adv_step; lp]) /\
    (i_loop s = false -> exists st, create_step show (n_nums n) (n_steps n) (n_cur n) (i_dict s) = Ok st /\
        b = (if zmem (i_ns s) starts then [do_step] else []) ++ [st]).
  Proof.
    intros H Hb. destruct (E block_at i s H) as (b' & Hb' & EM). rewrite Hb in Hb'. injection Hb' as <-.
    unfold emit_seq in EM. rewrite (E blank_in i s H) in EM. rewrite (E isadv_blank s) in EM. fold (isadv l s) in EM.
    destruct (blankb s) eqn:B.
    - injection EM as <-. split; [auto|]. split; [discriminate|]. split; [discriminate|]. intro L. unfold blankb in B. rewrite L in B. discriminate.
    - split; [discriminate|]. destruct (isadv l s) eqn:A.
      + injection EM as <-. assert (L : i_loop s = true) by (unfold isadv in A; destruct (i_loop s); auto; discriminate).
        rewrite (E adv_not_start i s H B L). split; [auto|]. split; [discriminate|congruence].
      + split; [discriminate|]. destruct (i_loop s) eqn:L.
        * destruct (create_loop_step (n_nums n) (i_dict s)) as [lp|] eqn:C; [|discriminate]. cbn [bind] in EM. injection EM as <-.
          rewrite (E adv_not_start i s H B L). split; [|discriminate]. intros _ _ _. exists lp. auto.
        * destruct (create_step show (n_nums n) (n_steps n) (n_cur n) (i_dict s)) as [st|] eqn:C; [|discriminate]. cbn [bind] in EM. injection EM as <-.
          split; [discriminate|]. intros _. exists st. auto.
  Qed.

  Theorem steps_grouped : grouped seqs blocks (concat blocks ++ [end_step]).
  Proof.
    split; [rewrite (E blocks_length); symmetry; eapply F2_length; exact INFO|]. split; [exists end_step; split; reflexivity|].
    intros i g G. assert (HI : (i < length l)%nat) by (rewrite <- (E blocks_length); eapply nth_lt; eauto).
    destruct (nth_error l i) as [s|] eqn:H; [|apply nth_error_None in H; lia].
    destruct (group_shape i s g H G) as (S1 & S2 & S3 & S4).
    split; [intro P; apply S1; apply (passed_iff i s H); exact P|].
    split; [intro P; apply (advances_iff i s H) in P; destruct P as [B A]; exists adv_step; split; [reflexivity|auto]|].
    split.
    - intros a R. apply (repeats_iff i a s H) in R. destruct R as (L & B & A & _). destruct (S3 B A L) as (lp & C & ->).
      exists adv_step, lp. split; [reflexivity|]. split; [apply (create_loop_ok _ _ _ C)|reflexivity].
    - intro P. pose proof P as P0. apply (works_iff i s H) in P. destruct (S4 P) as (st & C & ->). exists st. split; [eapply create_step_ok; eauto|].
      assert (B : blankb s = false) by (unfold blankb; rewrite P; reflexivity).
      pose proof (starts_iff i s H B) as SI. destruct (zmem (i_ns s) starts).
      + left. split; [tauto|]. exists do_step. split; reflexivity.
      + right. split; [|reflexivity]. intro X. apply SI in X. discriminate.
  Qed.

  Theorem steps_loop_back : loops_point_back seqs blocks.
  Proof.
    intros e a R. destruct (repeats_dom e a R) as (s & H). destruct (repeats_target e a R) as (WA & LT & t & T & BT).
    pose proof R as R'. apply (repeats_iff e a s H) in R'. destruct R' as (L & B & A & TO).
    destruct (E block_at e s H) as (b & Hb & _). destruct (group_shape e s b H Hb) as (_ & _ & S3 & _). destruct (S3 B A L) as (lp & C & ->).
    destruct (create_loop_ok _ _ _ C) as (_ & to & v & en & SH & G & EN & ST). exists adv_step, lp, en. split; [exact Hb|]. split; [exact EN|].
    split; [exact WA|]. split; [exists e; exact R|]. split; [exact LT|].
    assert (to = Z.of_nat a).
    { destruct (to_seq e s H) as (d & D & I). apply info_spec in I. destruct I as (ID & _ & _ & TO' & _). rewrite ID in SH.
      rewrite (shows_fun _ _ _ _ SH TO'). exact TO. }
    subst to. apply (E nums_at a v) in G. destruct G as (t' & T' & _ & ->). rewrite T in T'. injection T' as <-.
    unfold points_to. rewrite ST. assert (Z : zmem (i_ns t) starts = true) by (apply (starts_iff a t T BT); exists e; exact R).
    unfold landing. rewrite Z. replace (first_of blocks a + 1 - 1)%Z with (first_of blocks a) by lia. apply step_text. unfold first_of. lia.
  Qed.
  Lemma lands_iff j t v : nth_error l j = Some t -> blankb t = false -> (lands seqs blocks j v <-> v = landing w blocks t j).
  Proof.
    intros T B. unfold lands, landing. pose proof (starts_iff j t T B) as S. destruct (zmem (i_ns t) starts).
    - split; [intros [[_ ->]|[X _]]; [reflexivity|destruct X; apply S; reflexivity]|]. intros ->. left. split; [apply S; reflexivity|reflexivity].
    - split; [intros [[X _]|[_ ->]]; [apply S in X; discriminate|lia]|]. intros ->. right. split; [intro X; apply S in X; discriminate|lia].
  Qed.

  Lemma key_eq k f : (k < 3)%nat -> nth_key "lim" (1 + k) ("_" ++ f) = lim_key k f.
  Proof. intro L. destruct k as [|[|[|k]]]; try lia; reflexivity. Qed.
  Theorem limits_lead i k d en : limit_of_step seqs blocks i k d en ->
    exists v, points_to en v /\ (1 <= v <= Z.of_nat (length (concat blocks ++ [end_step])))%Z /\ leads seqs blocks i d k v.
  Proof.
    intros (WK & D & st & (g & G & WG) & NE). destruct (to_info i d D) as (s & H & I). pose proof (proj1 (works_iff i s H) WK) as L.
    assert (B : blankb s = false) by (unfold blankb; rewrite L; reflexivity).
    destruct (group_shape i s g H G) as (_ & _ & _ & S4). destruct (S4 L) as (st' & C & GE).
    assert (st' = st).
    { destruct WG as [->|(dd & ->)]; destruct (zmem (i_ns s) starts); cbn in GE; congruence. }
    subst st'. pose proof (info_spec d s I) as (ID & NSH & _). rewrite ID in C.
    destruct (create_step_ok _ _ _ _ _ C) as (_ & ns & sn & m & NS & SN & NL & M & F).
    pose proof (F2_nth _ _ _ F k) as FK. rewrite NE in FK. destruct (nth_error (seq 1 (Z.to_nat m)) k) as [k1|] eqn:K1; [|destruct FK].
    assert (KL : (k < Z.to_nat m)%nat) by (apply nth_lt in K1; rewrite seq_length in K1; exact K1).
    assert (KE : k1 = (1 + k)%nat). { apply nth_error_nth with (d := 0%nat) in K1. rewrite seq_nth in K1 by exact KL. congruence. }
    subst k1. pose proof (shows_fun _ _ _ _ NS NSH) as NSE. rewrite (E ns_at i s H) in NSE. subst ns.
    unfold create_end in FK. change "_action"%string with ("_" ++ "action")%string in FK. change "_seq"%string with ("_" ++ "seq")%string in FK.
    rewrite !key_eq in FK by lia.
    destruct (fld d (nth_key "lim" (1 + k) "_type")) as [ty|]; cbn [bind] in FK; [|discriminate].
    destruct (fld d (nth_key "lim" (1 + k) "_comp")) as [cp|]; cbn [bind] in FK; [|discriminate].
    destruct (fld d (nth_key "lim" (1 + k) "_value_unit")) as [un|]; cbn [bind] in FK; [|discriminate].
    destruct (fld d (lim_key k "action")) as [ac|] eqn:AC; cbn [bind] in FK; [|discriminate].
    destruct (fld d (nth_key "lim" (1 + k) "_value")) as [vt|]; cbn [bind] in FK; [|discriminate].
    destruct (py_float vt) as [vq|]; cbn [bind] in FK; [|discriminate].
    destruct (int_fld d (lim_key k "seq")) as [go|] eqn:GO; cbn [bind] in FK; [|discriminate].
    destruct (b_oper cp ty) as [op|]; cbn [bind] in FK; [|discriminate].
    destruct (b_limit show ty un vq) as [tv|]; cbn [bind] in FK; [|discriminate].
    destruct (b_goto (n_nums n) (n_steps n) sn (n_cur n) (Z.of_nat i) go ac) as [v|] eqn:BG; cbn [bind] in FK; [|discriminate].
    injection FK as <-. apply int_fld_shows in GO.
    assert (ACT : sget d (lim_key k "action") = Some ac) by (unfold fld in AC; destruct (sget d (lim_key k "action")); congruence).
    apply (E nums_at i sn) in SN. destruct SN as (s' & H' & _ & SNE). rewrite H in H'. injection H' as <-.
    assert (NEXT : (sn + 1)%Z = first_of blocks (S i)).
    { rewrite SNE. unfold landing, first_of. rewrite (E firstn_S_nth _ _ _ G), concat_app, app_length. cbn [concat]. rewrite app_nil_r, GE, app_length.
      destruct (zmem (i_ns s) starts); cbn [length]; lia. }
    assert (LE : (first_of blocks (S i) <= Z.of_nat (length (concat blocks)) + 1)%Z).
    { pose proof (E first_mono (S i) (length blocks)) as FM. unfold first_of in FM at 2. rewrite firstn_all in FM. apply FM. rewrite (E blocks_length). apply nth_lt in H. lia. }
    pose proof (E landing_pos s i) as LP. rewrite <- SNE in LP.
    assert (BOUND : exists R : Prop, True) by (exists True; exact Logic.I). clear BOUND.
    rewrite app_length. cbn [length]. unfold points_to. cbn [be_step]. exists v.
    assert (RANGE : (1 <= v <= Z.of_nat (length (concat blocks) + 1))%Z /\ leads seqs blocks i d k v); [|split; [apply step_text; lia|exact RANGE]].
    unfold leads, text_of. rewrite ACT. unfold b_goto in BG.
    destruct (String.eqb_spec ac "End") as [->|NE1].
    { injection BG as <-. rewrite (E end_num). split; [lia|]. split; [lia|]. split; [discriminate|]. split; [discriminate|]. exists "End"%string. cbn. auto. }
    destruct (String.eqb_spec ac "Next sequence") as [->|NE2].
    { injection BG as <-. split; [lia|]. split; [discriminate|]. split; [auto|]. split; [discriminate|]. exists "Next sequence"%string. cbn. auto. }
    destruct (String.eqb_spec ac "Goto sequence") as [->|NE3]; [|discriminate].
    destruct (d_get Z.eqb (n_nums n) go) as [gv|] eqn:GV; [|discriminate].
    destruct (E nums_z go gv GV) as (j & ->). apply (E nums_at j gv) in GV. destruct GV as (t & T & BT & ->).
    pose proof (E landing_bound t j T BT) as LB. pose proof (E landing_pos t j) as LP'.
    assert (JL : (j < length seqs)%nat) by (rewrite (F2_length _ _ _ INFO); eapply nth_lt; eauto).
    assert (NP : ~ passed_over seqs j) by (intro X; apply (passed_iff j t T) in X; congruence).
    destruct ((Z.of_nat i <? Z.of_nat j)%Z && existsb (Z.eqb (Z.of_nat j)) (n_steps n)) eqn:CO; injection BG as <-.
    - apply andb_prop in CO. destruct CO as [IJ ME]. apply Z.ltb_lt in IJ. change (zmem (Z.of_nat j) (n_steps n) = true) in ME. apply zmem_iff, (E loop_steps) in ME.
      destruct ME as (a & sa & SA & BA & ZA & VA).
      assert (TWO : (2 <= landing w blocks t j)%Z).
      { unfold landing. pose proof (E first_mono (S i) j ltac:(lia)). destruct (zmem (i_ns t) starts); lia. }
      split; [lia|]. split; [discriminate|]. split; [discriminate|]. split; [|exists "Goto sequence"%string; cbn; auto].
      intros _. exists j. split; [exact GO|]. split; [exact JL|]. split; [exact NP|]. right. split; [lia|].
      split; [apply (lands_iff j t _ T BT); lia|]. exists a. split; [|split; [apply (starts_iff a sa SA BA); exact ZA|apply (lands_iff a sa _ SA BA); exact VA]].
      apply (works_iff a sa SA). apply (E starts_plain a sa SA ZA BA).
    - split; [lia|]. split; [discriminate|]. split; [discriminate|]. split; [|exists "Goto sequence"%string; cbn; auto].
      intros _. exists j. split; [exact GO|]. split; [exact JL|]. split; [exact NP|]. left. apply (lands_iff j t _ T BT). reflexivity.
  Qed.

  (** ** Matching *)
  Lemma locate {A} (gs : list (list A)) : forall q x, nth_error (concat gs) q = Some x ->
    exists j g k, nth_error gs j = Some g /\ nth_error g k = Some x /\ q = (length (concat (firstn j gs)) + k)%nat.
  Proof.
    induction gs as [|g gs IH]; intros q x H; [destruct q; discriminate|]. cbn [concat] in H.
    destruct (Nat.lt_ge_cases q (length g)) as [L|L].
    - rewrite nth_error_app1 in H by exact L. exists 0%nat, g, q. auto.
    - rewrite nth_error_app2 in H by exact L. destruct (IH _ _ H) as (j & g' & k & J & K & EQ).
      exists (S j), g', k. split; [exact J|]. split; [exact K|]. cbn [firstn concat]. rewrite app_length. lia.
  Qed.
  Lemma located {A} (gs : list (list A)) j g k x : nth_error gs j = Some g -> nth_error g k = Some x ->
    nth_error (concat gs) (length (concat (firstn j gs)) + k) = Some x.
  Proof.
    revert j. induction gs as [|h gs IH]; intros [|j] J K; try discriminate J; cbn in J.
    - injection J as ->. cbn. rewrite nth_error_app1 by (apply nth_error_Some; congruence). exact K.
    - cbn [firstn concat]. rewrite app_length, <- Nat.add_assoc, nth_error_app2 by lia.
      replace (length h + (length (concat (firstn j gs)) + k) - length h)%nat with (length (concat (firstn j gs)) + k)%nat by lia. apply IH; auto.
  Qed.
  (** the kind of each step tells the kind of its sequence *)
  Lemma kind_of j g k x : nth_error blocks j = Some g -> nth_error g k = Some x ->
    (is_do x -> k = 0%nat /\ works seqs j /\ starts_loop seqs j) /\ (is_loop x -> k = 1%nat /\ exists a, repeats seqs j a).
  Proof.
    intros G K. assert (JL : (j < length l)%nat) by (rewrite <- (E blocks_length); eapply nth_lt; eauto).
    destruct (nth_error l j) as [s|] eqn:H; [|apply nth_error_None in H; lia].
    destruct (group_shape j s g H G) as (S1 & S2 & S3 & S4). unfold is_do, is_loop.
    destruct (i_loop s) eqn:L.
    - destruct (blankb s) eqn:B; [rewrite (S1 eq_refl) in K; destruct k; discriminate K|]. destruct (isadv l s) eqn:A.
      + rewrite (S2 eq_refl eq_refl) in K. destruct k as [|[|k]]; try discriminate K. injection K as <-. cbn. split; discriminate.
      + destruct (S3 eq_refl eq_refl eq_refl) as (lp & C & EG). pose proof (create_loop_ok _ _ _ C) as [ISL _].
        rewrite EG in K. destruct k as [|[|[|k]]]; try discriminate K; injection K as <-.
        * cbn. split; discriminate.
        * unfold is_loop in ISL. rewrite ISL. split; [discriminate|]. intros _. split; [reflexivity|].
          destruct (u_loops _ _ _ _ (number_pass_inv l starts NUM n NMB) j s H B A L) as (t & P & LT).
          assert (TA : act l j (i_to s)). { exists s. split; [exact H|]. split; [|reflexivity]. rewrite (E active_blank s) by (eapply nth_error_In; eauto). rewrite L, B. reflexivity. }
          destruct (loops_disjoint l w NUM RNG STOK _ _ TA) as [BD _].
          exists (Z.to_nat (i_to s)). apply (repeats_iff j _ s H). repeat split; auto. lia.
    - destruct (S4 eq_refl) as (st & C & EG). destruct (create_step_ok _ _ _ _ _ C) as [ISW _]. unfold is_work in ISW. cbn [In] in ISW.
      assert (B : blankb s = false) by (unfold blankb; rewrite L; reflexivity).
      assert (NW : bs_type st <> "  Do 1  "%string /\ bs_type st <> " Loop 1 "%string) by (destruct ISW as [<-|[<-|[<-|[]]]]; split; discriminate).
      pose proof (starts_iff j s H B) as SI. destruct (zmem (i_ns s) starts) eqn:Z; rewrite EG in K; cbn in K.
      + destruct k as [|[|[|k]]]; try discriminate K; injection K as <-.
        * cbn. split; [|discriminate]. intros _. split; [reflexivity|]. split; [apply (works_iff j s H); exact L|apply SI; reflexivity].
        * split; intro X; exfalso; tauto.
      + destruct k as [|[|k]]; try discriminate K. injection K as <-. split; intro X; exfalso; tauto.
  Qed.
  Lemma repeats_disjoint e1 a1 e2 a2 : repeats seqs e1 a1 -> repeats seqs e2 a2 -> (e1 < e2)%nat -> (e1 < a2)%nat.
  Proof. intros (r1 & L1 & N1 & _) (r2 & L2 & N2 & _) LT. eapply (disjoint_loops e1 a1 r1 e2 a2 r2); eauto. Qed.

  Theorem loops_matched q lp : nth_error (concat blocks ++ [end_step]) q = Some lp -> is_loop lp ->
    exists p d en, (p < q)%nat /\ nth_error (concat blocks ++ [end_step]) p = Some d /\ is_do d /\ bs_ends lp = [en] /\ points_to en (Z.of_nat p + 1) /\
      forall r x, (p < r < q)%nat -> nth_error (concat blocks ++ [end_step]) r = Some x -> ~ is_do x /\ ~ is_loop x.
  Proof.
    intros Q L. apply nth_snoc in Q. destruct Q as [Q|[_ ->]]; [|discriminate L].
    destruct (locate _ _ _ Q) as (e & g & k & G & K & QE). destruct (kind_of e g k lp G K) as [_ KL]. destruct (KL L) as (-> & a & R). clear KL.
    destruct (steps_loop_back e a R) as (ad & lp' & en & G' & EN & WA & SA & LT & PT). rewrite G in G'. injection G' as ->. cbn in K. injection K as ->.
    assert (AL : (a < length blocks)%nat) by (apply nth_lt in G; lia). destruct (nth_error blocks a) as [ga|] eqn:GA; [|apply nth_error_None in GA; lia].
    destruct steps_grouped as (_ & _ & SH). destruct (SH a ga GA) as (_ & _ & _ & S4). destruct (S4 WA) as (st & _ & [(_ & d & DO & ->)|[X _]]); [|destruct (X SA)].
    assert (FM : (first_of blocks (S a) <= first_of blocks e)%Z) by (apply (E first_mono); lia).
    unfold first_of in FM. rewrite (E firstn_S_nth _ _ _ GA), concat_app, app_length in FM. cbn [concat app length] in FM.
    exists (length (concat (firstn a blocks))), d, en. split; [lia|].
    assert (ND : nth_error (concat blocks) (length (concat (firstn a blocks)) + 0) = Some d) by (eapply located; eauto; reflexivity). rewrite Nat.add_0_r in ND.
    split; [apply nth_snoc; left; exact ND|]. split; [exact DO|]. split; [exact EN|]. split; [exact PT|].
    intros r x RB XR. apply nth_snoc in XR. destruct XR as [XR|[-> _]]; [|apply nth_lt in Q; lia].
    destruct (locate _ _ _ XR) as (j & gj & kj & GJ & KJ & RE). destruct (kind_of j gj kj x GJ KJ) as [KD KLo].
    (* r lies in the groups a .. e *)
    assert (KB : (kj < length gj)%nat) by (eapply nth_lt; eauto).
    assert (LENJ : length (concat (firstn (S j) blocks)) = (length (concat (firstn j blocks)) + length gj)%nat).
    { rewrite (E firstn_S_nth _ _ _ GJ), concat_app, app_length. cbn [concat]. rewrite app_nil_r. reflexivity. }
    assert (AJ : (a <= j)%nat). { destruct (Nat.lt_ge_cases j a) as [X|X]; auto. pose proof (E first_mono (S j) a ltac:(lia)) as F. unfold first_of in F. lia. }
    assert (JE : (j <= e)%nat). { destruct (Nat.lt_ge_cases e j) as [X|X]; [|exact X]. pose proof (E first_mono (S e) j ltac:(lia)) as F. unfold first_of in F.
      rewrite (E firstn_S_nth _ _ _ G), concat_app, app_length in F. cbn [concat app length] in F. lia. }
    split.
    - intro D. destruct (KD D) as (-> & WJ & e' & R'). destruct (repeats_target e' j R') as (_ & LT' & _).
      destruct (Nat.eq_dec j a) as [->|NA]; [lia|].
      destruct (Nat.lt_trichotomy e' e) as [X|[->|X]].
      + pose proof (repeats_disjoint _ _ _ _ R' R X). lia.
      + destruct R as (r1 & (d1 & D1 & _ & T1 & _) & _). destruct R' as (r2 & (d2 & D2 & _ & T2 & _) & _). rewrite D1 in D2. injection D2 as <-.
        pose proof (shows_fun _ _ _ _ T1 T2). lia.
      + pose proof (repeats_disjoint _ _ _ _ R R' X). lia.
    - intro Lo. destruct (KLo Lo) as (-> & a' & R').
      destruct (Nat.eq_dec j e) as [->|NE]; [rewrite RE, QE in RB; lia|].
      pose proof (repeats_disjoint _ _ _ _ R' R ltac:(lia)). lia.
  Qed.
  Theorem dos_matched p d : nth_error (concat blocks ++ [end_step]) p = Some d -> is_do d ->
    exists q lp en, nth_error (concat blocks ++ [end_step]) q = Some lp /\ is_loop lp /\ bs_ends lp = [en] /\ points_to en (Z.of_nat p + 1).
  Proof.
    intros P D. apply nth_snoc in P. destruct P as [P|[_ ->]]; [|discriminate D].
    destruct (locate _ _ _ P) as (a & g & k & G & K & PE). destruct (kind_of a g k d G K) as [KD _]. destruct (KD D) as (-> & WA & e & R).
    destruct (steps_loop_back e a R) as (ad & lp & en & G' & EN & _ & _ & _ & PT).
    exists (length (concat (firstn e blocks)) + 1)%nat, lp, en. split; [apply nth_snoc; left; eapply located; [exact G'|reflexivity]|].
    split; [|split; [exact EN|]].
    - destruct steps_grouped as (_ & _ & SH). destruct (SH e _ G') as (_ & _ & S3 & _). destruct (S3 a R) as (ad' & lp' & _ & IL & [= _ ->]). exact IL.
    - rewrite PE, Nat.add_0_r. exact PT.
  Qed.

  (** ** Legal gotos *)
  Lemma check_spec : forall l2 k last, numbered k l2 -> (last < k)%Z -> check_gotos (w_in w) (n_blank n) last l2 = Ok tt ->
    forall i s g, nth_error l2 i = Some s -> i_loop s = false -> zmem (i_ns s) (n_blank n) = false -> In g (i_gotos s) ->
      (last <= g)%Z /\
      (forall j t, (j < i)%nat -> nth_error l2 j = Some t -> i_loop t = true -> zmem (i_ns t) (n_blank n) = false -> (i_ns t <= g)%Z) /\
      match d_get Z.eqb (w_in w) (i_ns s), d_get Z.eqb (w_in w) g with
      | Some (a, b), Some (a', b') => a' = a /\ b' = b
      | None, Some (a', _) => g = a'
      | _, None => True
      end.
  Proof.
    induction l2 as [|x l2 IH]; intros k last N LK H i s g I L B G; [destruct i; discriminate I|].
    apply numbered_tail in N. destruct N as [NX N]. cbn [check_gotos] in H.
    destruct i as [|i]; cbn [nth_error] in I.
    - injection I as ->. rewrite B, L in H. destruct (forallb (goto_legal (w_in w) last (i_ns s)) (i_gotos s)) eqn:F; [|discriminate].
      rewrite forallb_forall in F. specialize (F g G). unfold goto_legal in F. apply andb_prop in F. destruct F as [F1 F2].
      apply negb_true_iff, Z.ltb_ge in F1. split; [exact F1|]. split; [intros j t J; lia|].
      destruct (d_get Z.eqb (w_in w) (i_ns s)) as [[a b]|], (d_get Z.eqb (w_in w) g) as [[a' b']|]; auto.
      + apply andb_prop in F2. destruct F2 as [F2 F3]. apply Z.eqb_eq in F2, F3. auto.
      + apply Z.eqb_eq in F2. exact F2.
    - assert (R : exists last', (last <= last' < k + 1)%Z /\ check_gotos (w_in w) (n_blank n) last' l2 = Ok tt /\
                  (i_loop x = true -> zmem (i_ns x) (n_blank n) = false -> last' = i_ns x)).
      { destruct (zmem (i_ns x) (n_blank n)); [exists last; split; [lia|]; split; [exact H|discriminate]|].
        destruct (i_loop x); [exists (i_ns x); split; [lia|auto]|].
        destruct (forallb _ _); [|discriminate]. exists last. split; [lia|]. split; [exact H|discriminate]. }
      destruct R as (last' & LB & H' & LX). destruct (IH (k + 1)%Z last' N ltac:(lia) H' i s g I L B G) as (A1 & A2 & A3).
      split; [lia|]. split; [|exact A3]. intros [|j] t J T LT BT; cbn in T.
      + injection T as ->. rewrite (LX LT BT) in A1. exact A1.
      + eapply A2; eauto. lia.
  Qed.
  Lemma loop_range e a rep x : loop_at seqs e a rep -> rep <> 0%Z -> (Z.of_nat a <= x <= Z.of_nat e)%Z ->
    d_get Z.eqb (w_in w) x = Some (Z.of_nat a, Z.of_nat e).
  Proof.
    intros LA NZ B. pose proof (act_of e a rep LA NZ) as A. destruct (loops_disjoint l w NUM RNG STOK _ _ A) as [_ D].
    apply (v_in _ _ _ (ranges_inv l 0 w NUM RNG)). exists (Z.to_nat x), e. repeat split; try lia; [exact A|].
    intros j' c J L. apply (D j' c J). lia.
  Qed.
  Theorem gotos_legal i d k m g : works seqs i -> nth_error seqs i = Some d -> shows d "lim_nb" m -> (k < Z.to_nat m)%nat -> (k < 3)%nat ->
    shows d (lim_key k "seq") g ->
    forall e a rep, loop_at seqs e a rep -> rep <> 0%Z ->
      ((e < i)%nat -> (Z.of_nat e < g)%Z) /\ ((Z.of_nat a < g <= Z.of_nat e)%Z -> (a <= i <= e)%nat).
  Proof.
    intros WK D NL KM K3 G e a rep LA NZ. destruct (to_info i d D) as (s & H & I). pose proof (proj1 (works_iff i s H) WK) as L.
    apply info_spec in I. destruct I as (_ & _ & _ & _ & _ & _ & NL' & GS). rewrite <- (shows_fun _ _ _ _ NL NL') in GS.
    pose proof (F2_nth _ _ _ (GS L) k) as FK. assert (S1 : nth_error (seq 1 (Z.to_nat m)) k = Some (1 + k)%nat).
    { rewrite (nth_error_nth' _ 0%nat) by (rewrite seq_length; exact KM). f_equal. apply seq_nth. exact KM. }
    rewrite S1 in FK. destruct (nth_error (i_gotos s) k) as [g'|] eqn:GK; [|destruct FK].
    change "_seq"%string with ("_" ++ "seq")%string in FK. rewrite key_eq in FK by exact K3. rewrite (shows_fun _ _ _ _ FK G) in GK.
    assert (IN : In g (i_gotos s)) by (eapply nth_error_In; eauto).
    assert (BS : zmem (i_ns s) (n_blank n) = false) by (rewrite (E blank_in i s H); unfold blankb; rewrite L; reflexivity).
    destruct (check_spec l 0 (-1) NUM ltac:(lia) CHK i s g H L BS IN) as (_ & C2 & C3). rewrite (E ns_at i s H) in C3.
    destruct LA as (de & DE & LR). destruct (to_info e de DE) as (t & T & _). assert (LA : loop_at seqs e a rep) by (exists de; auto).
    pose proof (proj1 (loop_iff e a rep t T) LA) as (LT & TO & RT).
    assert (BT : blankb t = false) by (unfold blankb; rewrite LT, RT; destruct (Z.eqb_spec rep 0); [congruence|reflexivity]).
    pose proof (loops_disjoint l w NUM RNG STOK _ _ (act_of e a rep LA NZ)) as [BD DJ].
    split.
    - intro EI. pose proof (C2 e t EI T LT ltac:(rewrite (E blank_in e t T); exact BT)) as GE. rewrite (E ns_at e t T) in GE.
      destruct (Z.eq_dec g (Z.of_nat e)) as [->|]; [|lia]. exfalso. rewrite (loop_range e a rep (Z.of_nat e) LA NZ ltac:(lia)) in C3.
      destruct (d_get Z.eqb (w_in w) (Z.of_nat i)) as [[a1 b1]|] eqn:DI.
      + destruct C3 as [<- <-]. apply (v_in _ _ _ (ranges_inv l 0 w NUM RNG)) in DI. destruct DI as (i' & j' & I1 & J1 & L1 & _). lia.
      + (* a loop to itself *)
        assert (a = e) by lia. subst a. destruct (isadv l t) eqn:AD.
        * unfold isadv in AD. apply andb_prop in AD. destruct AD as [AD _]. apply andb_prop in AD. destruct AD as [_ AD]. apply Z.eqb_eq in AD.
          rewrite (E ns_at e t T) in AD. lia.
        * destruct (u_loops _ _ _ _ (number_pass_inv l starts NUM n NMB) e t T BT AD LT) as (u & P & LU).
          unfold py_nth in P. rewrite TO in P. destruct (Z.leb_spec 0 (Z.of_nat e)) as [_|X]; [|lia]. rewrite Nat2Z.id, T in P. congruence.
    - intros BG. rewrite (loop_range e a rep g LA NZ ltac:(lia)) in C3. destruct (d_get Z.eqb (w_in w) (Z.of_nat i)) as [[a1 b1]|] eqn:DI.
      + destruct C3 as [<- <-]. apply (v_in _ _ _ (ranges_inv l 0 w NUM RNG)) in DI. destruct DI as (i' & j' & I1 & J1 & L1 & _ & _ & LE). lia.
      + lia.
  Qed.
End Bridge.
