(** Skip limits, the EXP template and single step values. *)
From Verif Require Import Py Model_Text Spec_Numeral Model_Procedure Spec_Procedure Proofs_Datapath Proofs_Procedure.
From Coq Require Import Lqa.

Lemma sset_back {V} (d : list (string * V)) k v : sget d k = Some v -> sset d k v = d.
Proof. apply sset_idem. Qed.
Lemma mapM_nth {A B} (f : A -> result B) l l' : mapM f l = Ok l' ->
  length l' = length l /\ forall n x, nth_error l n = Some x -> exists y, nth_error l' n = Some y /\ f x = Ok y.
Proof.
  revert l'. induction l as [|a l IH]; intros l' M; cbn [mapM] in M.
  - injection M as <-. split; [reflexivity|]. intros [|n] x E; discriminate.
  - destruct (f a) as [b|] eqn:F; cbn [bind] in M; [|discriminate]. destruct (mapM f l) as [m|] eqn:R; cbn [bind] in M; [|discriminate].
    injection M as <-. destruct (IH _ eq_refl) as (L & N). split; [cbn; congruence|]. intros [|n] x E; cbn [nth_error] in *.
    + injection E as <-. exists b. auto.
    + auto.
Qed.
Lemma get_dict k q v w : get (K k :: q) v = Ok w -> exists d x, v = VDict d /\ sget d k = Some x /\ get q x = Ok w.
Proof.
  cbn [get get1]. destruct v as [| | |d|]; try discriminate. destruct (sget d k) as [x|] eqn:E; cbn [bind]; [|discriminate]. intros G. exists d, x. auto.
Qed.
Lemma get_field d k : get [K k] (VDict d) = match sget d k with Some v => Ok v | None => Err KeyError end.
Proof. cbn [get get1]. destruct (sget d k); reflexivity. Qed.
Lemma text_is_true t v : text_is t v = true <-> v = VText t.
Proof. destruct v; cbn; try (split; discriminate). rewrite String.eqb_eq. split; congruence. Qed.

(** ** One end condition *)
Section Skip.
Variables (max_v min_v : val) (key : string) (new_key : option string).
Definition hit (oper : string) (e : val) : Prop :=
  get [K "Step"] e = Ok (VText key) /\ get [K "EndType"] e = Ok (VText "Voltage") /\ get [K "Oper"] e = Ok (VText oper).
Definition relabel (d : list (string * val)) : list (string * val) :=
  match new_key with Some k => if String.eqb k "" then d else sset d "Step" (VText k) | None => d end.
Lemma skip_end_cases e e' : skip_end max_v min_v key new_key e = Ok e' ->
  (exists d, e = VDict d /\ hit ">=" e /\ e' = VDict (relabel (sset d "Value" max_v))) \/
  (exists d, e = VDict d /\ hit "<=" e /\ e' = VDict (relabel (sset d "Value" min_v))) \/
  (e' = e /\ ~ hit ">=" e /\ ~ hit "<=" e).
Proof.
  unfold skip_end, hit. destruct (get [K "Step"] e) as [s|] eqn:GS; [|discriminate]. cbn [bind].
  destruct (get_dict _ _ _ _ GS) as (d & x & -> & ES & GX). injection GX as <-.
  destruct (text_is key x) eqn:T1.
  2:{ intros [= <-]. right. right. split; [reflexivity|]. split; intros ([= ->] & _); rewrite (proj2 (text_is_true _ _) eq_refl) in T1; discriminate. }
  apply text_is_true in T1 as ->. destruct (get [K "EndType"] (VDict d)) as [t|] eqn:GT; [|discriminate]. cbn [bind].
  destruct (text_is "Voltage" t) eqn:T2.
  2:{ intros [= <-]. right. right. split; [reflexivity|]. split; intros (_ & [= ->] & _); discriminate. }
  apply text_is_true in T2 as ->. destruct (get [K "Oper"] (VDict d)) as [o|] eqn:GO; [|discriminate]. cbn [bind].
  destruct (text_is ">=" o) eqn:T3.
  - apply text_is_true in T3 as ->. cbn [put bind]. intros R. left. exists d. split; [reflexivity|]. split; [auto|].
    unfold relabel. destruct new_key as [k|]; [|congruence]. destruct (String.eqb k ""); [congruence|]. cbn [put] in R. congruence.
  - destruct (text_is "<=" o) eqn:T4.
    + apply text_is_true in T4 as ->. cbn [put bind]. intros R. right. left. exists d. split; [reflexivity|]. split; [auto|].
      unfold relabel. destruct new_key as [k|]; [|congruence]. destruct (String.eqb k ""); [congruence|]. cbn [put] in R. congruence.
    + intros [= <-]. right. right. split; [reflexivity|]. split; intros (_ & _ & [= ->]); discriminate.
Qed.
Lemma relabel_value d v : sget (relabel (sset d "Value" v)) "Value" = Some v.
Proof.
  unfold relabel. destruct new_key as [k|]; [destruct (String.eqb k "")|]; rewrite ?sget_sset; reflexivity.
Qed.
Lemma relabel_step d k : renames new_key k -> sget (relabel d) "Step" = Some (VText k).
Proof. intros (E & N). unfold relabel. rewrite E. destruct (String.eqb_spec k ""); [contradiction|]. rewrite sget_sset. reflexivity. Qed.
Lemma relabel_other d v k : k <> "Value"%string -> (k <> "Step"%string \/ ~ exists t, renames new_key t) -> sget (relabel (sset d "Value" v)) k = sget d k.
Proof.
  intros N1 N2. unfold relabel. assert (E : sget (sset d "Value" v) k = sget d k) by (rewrite sget_sset; apply String.eqb_neq in N1; rewrite N1; reflexivity).
  destruct new_key as [t|] eqn:NK; [|exact E]. destruct (String.eqb_spec t ""); [exact E|]. rewrite sget_sset. destruct (String.eqb_spec k "Step") as [->|]; [|exact E].
  exfalso. destruct N2 as [N2|N2]; [congruence|]. apply N2. exists t. split; auto.
Qed.
Lemma skip_end_frame e e' q : skip_end max_v min_v key new_key e = Ok e' ->
  ((hit ">=" e \/ hit "<=" e) -> apart [K "Value"] q /\ ((exists t, renames new_key t) -> apart [K "Step"] q)) -> get q e' = get q e.
Proof.
  intros S A. assert (X : forall d v, e = VDict d -> (hit ">=" e \/ hit "<=" e) -> get q (VDict (relabel (sset d "Value" v))) = get q (VDict d)).
  { intros d v E H. destruct (A H) as (A1 & A2). destruct q as [|[k|n] q].
    - apply apartb_iff in A1. discriminate.
    - cbn [get get1]. rewrite relabel_other; [reflexivity| |].
      + intros ->. apply apartb_iff in A1. cbn in A1. discriminate.
      + destruct (String.eqb_spec k "Step") as [->|N]; [|left; exact N]. right. intros T. apply A2, apartb_iff in T. cbn in T. discriminate.
    - reflexivity. }
  destruct (skip_end_cases _ _ S) as [(d & E & H & ->)|[(d & E & H & ->)|(-> & _)]]; [rewrite E; apply X; auto | rewrite E; apply X; auto | reflexivity].
Qed.

(** ** One step *)
Definition entries : place := [K "Ends"; K "EndEntry"].
Lemma skip_step_cases s s' : skip_step max_v min_v key new_key s = Ok s' ->
  (s' = s /\ forall l, get entries s <> Ok (VList l)) \/
  (exists l l', get entries s = Ok (VList l) /\ mapM (skip_end max_v min_v key new_key) l = Ok l' /\ put entries (VList l') s = Ok s').
Proof.
  unfold skip_step, entries. destruct (get [K "Ends"] s) as [ends|] eqn:G; [|discriminate]. cbn [bind].
  assert (GE : get [K "Ends"; K "EndEntry"] s = get [K "EndEntry"] ends).
  { change [K "Ends"; K "EndEntry"] with ([K "Ends"] ++ [K "EndEntry"]). rewrite get_app, G. reflexivity. }
  destruct ends as [|t|x|d|l]; try discriminate.
  - intros [= <-]. left. split; [reflexivity|]. intros l. rewrite GE. discriminate.
  - destruct (get [K "EndEntry"] (VDict d)) as [en|] eqn:G2; [|discriminate]. cbn [bind]. destruct en as [|t|x|d2|l];
      try (intros [= <-]; left; split; [reflexivity|]; intros l0; rewrite GE; discriminate).
    destruct (mapM (skip_end max_v min_v key new_key) l) as [l'|] eqn:M; [|discriminate]. cbn [bind]. intros P. right. exists l, l'. auto.
Qed.
Lemma put_back q : forall v w s s', get q v = Ok w -> q = s -> q <> [] -> put q w v = Ok s' -> s' = v.
Proof.
  induction q as [|k q IH]; intros v w s s' G E N P; [congruence|]. cbn [get] in G. destruct (get1 k v) as [x|] eqn:G1; cbn [bind] in G; [|discriminate].
  destruct (put_step _ _ _ _ _ P) as [(-> & t & d & -> & -> & ->)|(NE & y & y' & G2 & Py & S)].
  - cbn [get] in G. injection G as ->. cbn [get1] in G1. destruct (sget d t) as [z|] eqn:Z; [|discriminate]. injection G1 as ->. rewrite (sset_back _ _ _ Z). reflexivity.
  - rewrite G1 in G2. injection G2 as <-. assert (y' = x) by (eapply IH; eauto). subst y'.
    destruct k as [t|n], v as [| | |d|l]; try discriminate; injection S as <-; cbn [get1] in G1.
    + destruct (sget d t) as [z|] eqn:Z; [|discriminate]. injection G1 as ->. rewrite (sset_back _ _ _ Z). reflexivity.
    + destruct (nth_error l n) as [z|] eqn:Z; [|discriminate]. injection G1 as ->. f_equal. clear - Z. revert n Z. induction l as [|a l IH]; intros [|n] Z; try discriminate; cbn in *; [congruence|].
      f_equal. apply IH. exact Z.
Qed.
Lemma mapM_same {A} (f : A -> result A) l l' : mapM f l = Ok l' -> (forall n x y, nth_error l n = Some x -> f x = Ok y -> y = x) -> l' = l.
Proof.
  revert l'. induction l as [|a l IH]; intros l' M H; cbn [mapM] in M; [congruence|].
  destruct (f a) as [b|] eqn:F; cbn [bind] in M; [|discriminate]. destruct (mapM f l) as [m|] eqn:R; cbn [bind] in M; [|discriminate]. injection M as <-.
  rewrite (H 0%nat a b eq_refl F). f_equal. apply IH; [reflexivity|]. intros n x y E. apply (H (S n)). exact E.
Qed.
Definition s_jumps (s : val) (oper : string) (k : nat) : Prop :=
  get (EndField k "Step") s = Ok (VText key) /\ get (EndField k "EndType") s = Ok (VText "Voltage") /\ get (EndField k "Oper") s = Ok (VText oper).
Definition s_places (s : val) (r : place) : Prop :=
  exists k oper, s_jumps s oper k /\ (oper = ">=" \/ oper = "<=")%string /\ (r = EndField k "Value" \/ r = EndField k "Step" /\ exists t, renames new_key t).
Lemma entry_get s l k q : get entries s = Ok (VList l) -> get (entries ++ I k :: q) s = match nth_error l k with Some e => get q e | None => Err IndexError end.
Proof. intros G. rewrite get_app, G. cbn [bind get get1]. destruct (nth_error l k); reflexivity. Qed.
Lemma s_jumps_hit s l k e oper : get entries s = Ok (VList l) -> nth_error l k = Some e -> s_jumps s oper k <-> hit oper e.
Proof.
  intros G E. unfold s_jumps, hit. change (EndField k "Step") with (entries ++ [I k; K "Step"]). change (EndField k "EndType") with (entries ++ [I k; K "EndType"]).
  change (EndField k "Oper") with (entries ++ [I k; K "Oper"]). rewrite !(entry_get s l k _ G), E. tauto.
Qed.
Lemma skip_step_frame s s' q : skip_step max_v min_v key new_key s = Ok s' -> (forall r, s_places s r -> apart r q) -> get q s' = get q s.
Proof.
  intros S A. destruct (skip_step_cases _ _ S) as [(-> & _)|(l & l' & G & M & P)]; [reflexivity|].
  destruct (apartb entries q) eqn:Ap; [eapply put_apart; eauto|].
  destruct (mapM_nth _ _ _ M) as (Ln & N).
  assert (Same : (forall r, ~ s_places s r) -> s' = s).
  { intros NP. assert (L : l' = l).
    { eapply mapM_same; [exact M|]. intros n x y E F. destruct (skip_end_cases _ _ F) as [(d & _ & H & _)|[(d & _ & H & _)|(-> & _)]]; [| |reflexivity]; exfalso.
      - apply (NP (EndField n "Value")). exists n, ">="%string. split; [apply (s_jumps_hit _ _ _ _ _ G E); exact H | auto].
      - apply (NP (EndField n "Value")). exists n, "<="%string. split; [apply (s_jumps_hit _ _ _ _ _ G E); exact H | auto]. }
    subst l'. eapply put_back; [exact G | reflexivity | discriminate | exact P]. }
  (* q is a beginning of [entries], or goes on from it *)
  assert (C : (forall x, apartb (entries ++ x) q = false) \/ exists k x, q = entries ++ k :: x).
  { destruct q as [|k1 [|k2 [|k3 q]]].
    - left. reflexivity.
    - left. intros x. cbn [entries app apartb] in *. destruct (key_eqb (K "Ends") k1); [reflexivity | discriminate].
    - left. intros x. cbn [entries app apartb] in *. destruct (key_eqb (K "Ends") k1); [|discriminate]. destruct (key_eqb (K "EndEntry") k2); [|discriminate]. destruct x; reflexivity.
    - right. exists k3, q. cbn [entries app apartb] in *. destruct (key_eqb (K "Ends") k1) eqn:E1; [|discriminate]. destruct (key_eqb (K "EndEntry") k2) eqn:E2; [|discriminate].
      apply key_eqb_iff in E1 as <-. apply key_eqb_iff in E2 as <-. reflexivity. }
  destruct C as [C|(k & x & ->)].
  - rewrite Same; [reflexivity|]. intros r R. pose proof (A r R) as Z. destruct R as (n & o & _ & _ & [->|(-> & _)]); apply apartb_iff in Z.
    + change (EndField n "Value") with (entries ++ [I n; K "Value"]) in Z. rewrite C in Z. discriminate.
    + change (EndField n "Step") with (entries ++ [I n; K "Step"]) in Z. rewrite C in Z. discriminate.
  - assert (G' : get entries s' = Ok (VList l')) by (eapply put_same; [|exact P]; discriminate). destruct k as [t|n].
    + rewrite !get_app, G, G'. reflexivity.
    + rewrite (entry_get _ _ _ _ G), (entry_get _ _ _ _ G'). destruct (nth_error l n) as [e|] eqn:E.
      * destruct (N n e E) as (e' & E' & F). rewrite E'. eapply skip_end_frame; [exact F|]. intros H.
        assert (Z : exists o, s_jumps s o n /\ (o = ">=" \/ o = "<=")%string).
        { destruct H as [H|H]; [exists ">="%string | exists "<="%string]; (split; [apply (s_jumps_hit _ _ _ _ _ G E); exact H | auto]). }
        destruct Z as (o & J & O). split.
        -- assert (Z : apart (EndField n "Value") (entries ++ I n :: x)) by (apply A; exists n, o; auto). apply apartb_iff in Z. apply apartb_iff.
           cbn [EndField entries app apartb] in Z. rewrite !key_eqb_refl in Z. exact Z.
        -- intros T. assert (Z : apart (EndField n "Step") (entries ++ I n :: x)) by (apply A; exists n, o; auto). apply apartb_iff in Z. apply apartb_iff.
           cbn [EndField entries app apartb] in Z. rewrite !key_eqb_refl in Z. exact Z.
      * assert (E' : nth_error l' n = None) by (apply nth_error_None; apply nth_error_None in E; lia). rewrite E'. reflexivity.
Qed.
Lemma skip_step_done s s' k oper limit : skip_step max_v min_v key new_key s = Ok s' -> s_jumps s oper k ->
  (oper = ">="%string /\ limit = max_v \/ oper = "<="%string /\ limit = min_v) ->
  get (EndField k "Value") s' = Ok limit /\ forall t, renames new_key t -> get (EndField k "Step") s' = Ok (VText t).
Proof.
  intros S J O.
  assert (G : exists l e, get entries s = Ok (VList l) /\ nth_error l k = Some e).
  { destruct J as (J & _). change (EndField k "Step") with (entries ++ [I k; K "Step"]) in J. rewrite get_app in J. destruct (get entries s) as [v|]; [|discriminate].
    cbn [bind] in J. cbn [get] in J. destruct v as [| | | |l]; try discriminate. cbn [get1] in J. destruct (nth_error l k) as [e|] eqn:E; [|discriminate]. exists l, e. auto. }
  destruct G as (l & e & G & E). destruct (skip_step_cases _ _ S) as [(_ & NO)|(l2 & l' & G2 & M & P)]; [elim (NO l G)|].
  rewrite G in G2. injection G2 as <-. destruct (mapM_nth _ _ _ M) as (Ln & N). destruct (N k e E) as (e' & E' & F).
  assert (G' : get entries s' = Ok (VList l')) by (eapply put_same; [|exact P]; discriminate).
  pose proof (proj1 (s_jumps_hit _ _ _ _ _ G E) J) as H.
  change (EndField k "Value") with (entries ++ [I k; K "Value"]). change (EndField k "Step") with (entries ++ [I k; K "Step"]).
  rewrite !(entry_get _ _ _ _ G'), E'.
  assert (X : exists d, e' = VDict (relabel (sset d "Value" limit))).
  { destruct (skip_end_cases _ _ F) as [(d & Ed & H2 & ->)|[(d & Ed & H2 & ->)|(-> & N1 & N2)]].
    - exists d. destruct O as [(-> & ->)|(-> & ->)]; [reflexivity|]. destruct H as (_ & _ & H), H2 as (_ & _ & H2). rewrite H in H2. discriminate.
    - exists d. destruct O as [(-> & ->)|(-> & ->)]; [|reflexivity]. destruct H as (_ & _ & H), H2 as (_ & _ & H2). rewrite H in H2. discriminate.
    - destruct O as [(-> & _)|(-> & _)]; contradiction. }
  destruct X as (d & ->). split.
  - cbn [get get1]. rewrite relabel_value. reflexivity.
  - intros t T. cbn [get get1]. rewrite (relabel_step _ _ T). reflexivity.
Qed.
End Skip.

Lemma skip_frame max_v min_v key new_key p p' : set_skip_to_end_diagnostic max_v min_v key new_key p = Ok p' -> changes_where (skip_places p key new_key) p p'.
Proof.
  intros M. destruct (mapM_nth _ _ _ M) as (L & N). split; [exact L|]. intros n q A v. rewrite !reads_get. unfold step_get.
  destruct (nth_error p n) as [s|] eqn:E.
  - destruct (N n s E) as (s' & E' & F). rewrite E'. rewrite (skip_step_frame _ _ _ _ _ _ q F); [tauto|].
    intros r (k & o & J & O & R). apply A. exists k, o. split; [|auto]. destruct J as (J1 & J2 & J3). unfold jumps. rewrite !reads_get. unfold step_get. rewrite E. auto.
  - assert (E' : nth_error p' n = None) by (apply nth_error_None; apply nth_error_None in E; lia). rewrite E'. tauto.
Qed.
Lemma skip_done max_v min_v key new_key p p' n k oper limit : set_skip_to_end_diagnostic max_v min_v key new_key p = Ok p' -> jumps p key oper n k ->
  (oper = ">="%string /\ limit = max_v \/ oper = "<="%string /\ limit = min_v) ->
  reads p' n (EndField k "Value") limit /\ forall t, renames new_key t -> reads p' n (EndField k "Step") (VText t).
Proof.
  intros M (J1 & J2 & J3) O. destruct (mapM_nth _ _ _ M) as (L & N). rewrite reads_get in *. unfold step_get in *. destruct (nth_error p n) as [s|] eqn:E; [|discriminate].
  destruct (N n s E) as (s' & E' & F). rewrite E'. assert (J : s_jumps key s oper k) by (split; auto).
  destruct (skip_step_done _ _ _ _ _ _ _ _ _ F J O) as (A & B). split; [exact A|]. intros t T. apply reads_get. unfold step_get. rewrite E'. auto.
Qed.
(** it succeeds on procedures of the usual shape *)
Lemma skip_succeeds max_v min_v key new_key p : Forall usual_step p -> exists p', set_skip_to_end_diagnostic max_v min_v key new_key p = Ok p'.
Proof.
  assert (EN : forall e, usual_end e -> exists e', skip_end max_v min_v key new_key e = Ok e').
  { intros e (d & -> & A & B & C). unfold skip_end. rewrite !get_field. destruct (sget d "Step") as [s|]; [|congruence]. destruct (sget d "EndType") as [t|]; [|congruence].
    destruct (sget d "Oper") as [o|]; [|congruence]. cbn [bind]. destruct (text_is key s); [|eexists; reflexivity]. destruct (text_is "Voltage" t); [|eexists; reflexivity].
    destruct (text_is ">=" o); [|destruct (text_is "<=" o); [|eexists; reflexivity]]; cbn [put bind]; (destruct new_key as [k|]; [destruct (String.eqb k "")|]); eexists; reflexivity. }
  assert (ENS : forall l, Forall usual_end l -> exists l', mapM (skip_end max_v min_v key new_key) l = Ok l').
  { induction 1 as [|e l H _ (l' & IH)]; [exists []; reflexivity|]. destruct (EN e H) as (e' & E). cbn [mapM]. rewrite E, IH. eexists. reflexivity. }
  unfold set_skip_to_end_diagnostic. induction 1 as [|s p H _ (p' & IH)]; [exists []; reflexivity|].
  assert (X : exists s', skip_step max_v min_v key new_key s = Ok s').
  { destruct H as (d & -> & H). unfold skip_step. rewrite get_field. destruct H as [E|(d2 & e & E & E2 & H)]; rewrite E; cbn [bind]; [eexists; reflexivity|].
    rewrite get_field, E2. cbn [bind]. destruct e as [| | | |l]; try (eexists; reflexivity). destruct (ENS l (H l eq_refl)) as (l' & M). rewrite M. cbn [bind put get1].
    rewrite E. cbn [bind]. eexists. reflexivity. }
  destruct X as (s' & X). cbn [mapM]. rewrite X, IH. eexists. reflexivity.
Qed.

(** ** modify_step_value *)
Lemma modify_spec num type v p : forall i p', modify_from i num (VText type) v p = Ok p' ->
  length p' = length p /\
  forall n s, nth_error p n = Some s -> exists s', nth_error p' n = Some s' /\
    ((i + n = num)%nat /\ get StepType s = Ok (VText type) /\ put StepValue v s = Ok s' \/ (~ ((i + n = num)%nat /\ get StepType s = Ok (VText type))) /\ s' = s).
Proof.
  induction p as [|s p IH]; intros i p' M; cbn [modify_from] in M.
  - injection M as <-. split; [reflexivity|]. intros [|n] x E; discriminate.
  - destruct ((if (i =? num)%nat then let! t := get StepType s in if py_eq t (VText type) then put StepValue v s else Ok s else Ok s)) as [s'|] eqn:F; [|discriminate].
    cbn [bind] in M. destruct (modify_from (S i) num (VText type) v p) as [r|] eqn:R; [|discriminate]. injection M as <-. destruct (IH _ _ R) as (L & N).
    split; [cbn; congruence|]. intros [|n] x E; cbn [nth_error] in *.
    + injection E as <-. exists s'. split; [reflexivity|]. rewrite Nat.add_0_r. destruct (Nat.eqb_spec i num) as [->|NE].
      * destruct (get StepType s) as [t|] eqn:G; [|discriminate]. cbn [bind] in F. destruct t as [|u|q|d|l]; cbn [py_eq] in F;
          try (injection F as <-; right; split; [intros (_ & Z); discriminate | reflexivity]).
        destruct (String.eqb_spec u type) as [->|NU]; [left; auto|]. injection F as <-. right. split; [intros (_ & Z); congruence | reflexivity].
      * injection F as <-. right. split; [intros (Z & _); contradiction | reflexivity].
    + destruct (N n x E) as (x' & E' & C). exists x'. split; [exact E'|]. replace (i + S n)%nat with (S i + n)%nat by lia. exact C.
Qed.
Lemma modify_frame num type v p p' : modify_step_value num type v p = Ok p' ->
  changes_where (fun n r => n = num /\ reads p n StepType (VText type) /\ r = StepValue) p p' /\
  (reads p num StepType (VText type) -> reads p' num StepValue v).
Proof.
  intros M. destruct (modify_spec _ _ _ _ _ _ M) as (L & N). cbn [Nat.add] in N. split; [split; [exact L|]|].
  - intros n q A w. rewrite !reads_get. unfold step_get. destruct (nth_error p n) as [s|] eqn:E.
    + destruct (N n s E) as (s' & E' & C). rewrite E'. destruct C as [(-> & G & P)|(_ & ->)]; [|tauto].
      rewrite (put_apart _ q _ _ _ P); [tauto|]. apply apartb_iff. apply A. split; [reflexivity|]. split; [|reflexivity]. apply reads_get. unfold step_get. rewrite E. exact G.
    + assert (E' : nth_error p' n = None) by (apply nth_error_None; apply nth_error_None in E; lia). rewrite E'. tauto.
  - intros R. apply reads_get in R. unfold step_get in R. destruct (nth_error p num) as [s|] eqn:E; [|discriminate]. destruct (N num s E) as (s' & E' & C).
    destruct C as [(_ & G & P)|(NC & _)]; [|elim NC; auto]. apply reads_get. unfold step_get. rewrite E'. eapply put_same; [|exact P]. discriminate.
Qed.

(** ** from_exp *)
Lemma last_of_type_spec t p : forall i acc r, last_of_type t i p acc = Ok r ->
  match r with
  | Some n => (acc = Some n /\ forall m s, nth_error p m = Some s -> get StepType s <> Ok (VText t)) \/
              (exists k s, n = (i + k)%nat /\ nth_error p k = Some s /\ get StepType s = Ok (VText t) /\ forall m s, (k < m)%nat -> nth_error p m = Some s -> get StepType s <> Ok (VText t))
  | None => acc = None /\ forall m s, nth_error p m = Some s -> get StepType s <> Ok (VText t)
  end.
Proof.
  induction p as [|s p IH]; intros i acc r L; cbn [last_of_type] in L.
  - injection L as <-. destruct acc as [n|]; [left|]; (split; [reflexivity|]; intros [|m] s E; discriminate).
  - destruct (get StepType s) as [v|] eqn:G; [|discriminate]. cbn [bind] in L. specialize (IH _ _ _ L).
    destruct (text_is t v) eqn:T.
    + apply text_is_true in T as ->. destruct r as [n|].
      * right. destruct IH as [([= <-] & H)|(k & s1 & -> & E & G1 & H)].
        -- exists 0%nat, s. split; [lia|]. split; [reflexivity|]. split; [exact G|]. intros [|m] s1 M E; [lia|]. exact (H m s1 E).
        -- exists (S k), s1. split; [lia|]. split; [exact E|]. split; [exact G1|]. intros [|m] s2 M E2; [lia|]. apply (H m s2); [lia | exact E2].
      * destruct IH as (IH & _). discriminate.
    + assert (NT : get StepType s <> Ok (VText t)) by (rewrite G; intros [= ->]; rewrite (proj2 (text_is_true _ _) eq_refl) in T; discriminate).
      destruct r as [n|].
      * destruct IH as [(-> & H)|(k & s1 & -> & E & G1 & H)].
        -- left. split; [reflexivity|]. intros [|m] s1 E; [injection E as <-; exact NT | exact (H m s1 E)].
        -- right. exists (S k), s1. split; [lia|]. split; [exact E|]. split; [exact G1|]. intros [|m] s2 M E2; [lia|]. apply (H m s2); [lia | exact E2].
      * destruct IH as (-> & H). split; [reflexivity|]. intros [|m] s1 E; [injection E as <-; exact NT | exact (H m s1 E)].
Qed.
Lemma last_step_found t p n : last_of_type t 0 p None = Ok (Some n) -> last_step p t n.
Proof.
  intros L. destruct (last_of_type_spec _ _ _ _ _ L) as [(E & _)|(k & s & -> & E & G & H)]; [discriminate|]. cbn [Nat.add]. split.
  - apply reads_get. unfold step_get. rewrite E. exact G.
  - intros m M R. apply reads_get in R. unfold step_get in R. destruct (nth_error p m) as [s1|] eqn:E1; [|discriminate]. exact (H m s1 M E1 R).
Qed.
Section Exp.
Variables (cutoff charge discharge : val) (a b : nat).
Definition s_limited (s : val) : Prop := get StepType s = Ok (VText "Charge") /\ exists v, get (Limit "Voltage") s = Ok v.
Definition s_current (i : nat) (type : string) (s : val) : Prop := (a < i < b)%nat /\ get StepType s = Ok (VText type) /\ get StepMode s = Ok (VText "Current").
Definition s_exp (i : nat) (s : val) (r : place) : Prop := s_limited s /\ r = Limit "Voltage" \/ (s_current i "Charge" s \/ s_current i "Dischrge" s) /\ r = StepValue.
Lemma inside_iff i : ((a <? i)%nat && (i <? b)%nat)%bool = true <-> (a < i < b)%nat.
Proof. rewrite andb_true_iff, !Nat.ltb_lt. tauto. Qed.
Lemma set_value (type : string) (v m : val) i s s' :
  get StepType s = Ok (VText type) -> get StepMode s = Ok m -> (if text_is "Current" m && ((a <? i)%nat && (i <? b)%nat) then put StepValue v s else Ok s) = Ok s' ->
  (s_current i type s /\ put StepValue v s = Ok s') \/ (~ s_current i type s /\ s' = s).
Proof.
  intros T M P. destruct (text_is "Current" m) eqn:C; cbn [andb] in P.
  - apply text_is_true in C as ->. destruct ((a <? i)%nat && (i <? b)%nat)%bool eqn:I.
    + apply inside_iff in I. left. split; [split; auto | exact P].
    + injection P as <-. right. split; [|reflexivity]. intros (X & _). apply inside_iff in X. congruence.
  - injection P as <-. right. split; [|reflexivity]. intros (_ & _ & X). rewrite M in X. injection X as ->. discriminate.
Qed.
Lemma limit_found l s h : get [K "Limits"] s = Ok l -> has_voltage_limit l = Ok h -> (forall d, l <> VText d) ->
  h = true <-> exists v, get (Limit "Voltage") s = Ok v.
Proof.
  intros G H NT. change (Limit "Voltage") with ([K "Limits"] ++ [K "Voltage"]). rewrite get_app, G. cbn [bind]. destruct l as [|t|q|d|l]; cbn [has_voltage_limit] in H; try discriminate.
  - injection H as <-. split; [discriminate | intros (v & V); discriminate].
  - elim (NT t eq_refl).
  - injection H as <-. rewrite get_field. unfold smem. change (@d_mem string val String.eqb d "Voltage"%string) with (match sget d "Voltage" with Some _ => true | None => false end).
    destruct (sget d "Voltage") as [v|]; split; try discriminate; try (intros _; eexists; reflexivity); try reflexivity. intros (v & V). discriminate.
  - injection H as <-. split; [discriminate | intros (v & V); discriminate].
Qed.
Lemma exp_step_spec i s s' : exp_step cutoff charge discharge a b i s = Ok s' ->
  (forall q, (forall r, s_exp i s r -> apart r q) -> get q s' = get q s) /\
  (s_limited s -> get (Limit "Voltage") s' = Ok cutoff) /\
  (s_current i "Charge" s -> get StepValue s' = Ok charge) /\
  (s_current i "Dischrge" s -> get StepValue s' = Ok discharge).
Proof.
  unfold exp_step. destruct (get StepType s) as [t|] eqn:T; [|discriminate]. cbn [bind]. destruct (text_is "Charge" t) eqn:C.
  - apply text_is_true in C as ->. destruct (get [K "Limits"] s) as [l|] eqn:GL; [|discriminate]. cbn [bind].
    destruct (has_voltage_limit l) as [h|] eqn:HL; [|discriminate]. cbn [bind].
    destruct h.
    + destruct (put [K "Limits"; K "Voltage"] cutoff s) as [s1|] eqn:P1; [|discriminate]. cbn [bind].
      assert (T1 : get StepType s1 = Ok (VText "Charge")) by (rewrite (put_apart _ StepType _ _ _ P1 eq_refl); exact T).
      assert (NT : forall d, l <> VText d).
      { intros d ->. destruct (put_step _ _ _ _ _ P1) as [(E & _)|(_ & x & x' & G & Px & _)]; [discriminate|]. cbn [get] in GL. rewrite G in GL. injection GL as ->. discriminate. }
      pose proof (proj1 (limit_found l s true GL HL NT) eq_refl) as LV.
      destruct (get StepMode s1) as [m|] eqn:M1; [|discriminate]. cbn [bind]. intros R.
      assert (M0 : get StepMode s = Ok m) by (rewrite <- (put_apart _ StepMode _ _ _ P1 eq_refl); exact M1).
      assert (L1 : get (Limit "Voltage") s1 = Ok cutoff) by (eapply put_same; [|exact P1]; discriminate).
      assert (CU : forall ty, s_current i ty s1 <-> s_current i ty s) by (intros ty; unfold s_current; rewrite (put_apart _ StepType _ _ _ P1 eq_refl), (put_apart _ StepMode _ _ _ P1 eq_refl); tauto).
      destruct (set_value "Charge" charge m i s1 s' T1 M1 R) as [(X & P2)|(X & ->)].
      * split; [|split; [|split]].
        -- intros q A. rewrite (put_apart _ q _ _ _ P2); [rewrite (put_apart _ q _ _ _ P1); [reflexivity|]|]; apply apartb_iff, A.
           ++ left. split; [split; [exact T | exact LV] | reflexivity].
           ++ right. split; [left; apply CU; exact X | reflexivity].
        -- intros _. rewrite (put_apart _ (Limit "Voltage") _ _ _ P2 eq_refl). exact L1.
        -- intros _. eapply put_same; [|exact P2]. discriminate.
        -- intros (_ & Y & _). rewrite T in Y. discriminate.
      * split; [|split; [|split]].
        -- intros q A. rewrite (put_apart _ q _ _ _ P1); [reflexivity|]. apply apartb_iff, A. left. split; [split; [exact T | exact LV] | reflexivity].
        -- auto.
        -- intros Y. apply CU in Y. contradiction.
        -- intros (_ & Y & _). rewrite T in Y. discriminate.
    + cbn [bind]. destruct (get StepMode s) as [m|] eqn:M; [|discriminate]. cbn [bind]. intros R.
      assert (NL : ~ s_limited s).
      { intros (_ & v & V). change (Limit "Voltage") with ([K "Limits"] ++ [K "Voltage"]) in V. rewrite get_app, GL in V. cbn [bind] in V.
        destruct l as [|u|q|d|l]; try discriminate. rewrite get_field in V. cbn [has_voltage_limit] in HL. injection HL as HL. unfold smem in HL.
        change (@d_mem string val String.eqb d "Voltage"%string) with (match sget d "Voltage" with Some _ => true | None => false end) in HL. destruct (sget d "Voltage"); discriminate. }
      destruct (set_value "Charge" charge m i s s' T M R) as [(X & P2)|(X & ->)].
      * split; [|split; [|split]].
        -- intros q A. rewrite (put_apart _ q _ _ _ P2); [reflexivity|]. apply apartb_iff, A. right. split; [left; exact X | reflexivity].
        -- contradiction.
        -- intros _. eapply put_same; [|exact P2]. discriminate.
        -- intros (_ & Y & _). rewrite T in Y. discriminate.
      * split; [reflexivity|]. split; [contradiction|]. split; [contradiction|]. intros (_ & Y & _). rewrite T in Y. discriminate.
  - assert (NC : t <> VText "Charge") by (intros ->; discriminate).
    assert (NL : ~ s_limited s) by (intros (Y & _); rewrite T in Y; congruence).
    assert (NS : ~ s_current i "Charge" s) by (intros (_ & Y & _); rewrite T in Y; congruence).
    destruct (text_is "Dischrge" t) eqn:D.
    + apply text_is_true in D as ->. destruct (get StepMode s) as [m|] eqn:M; [|discriminate]. cbn [bind]. intros R.
      destruct (set_value "Dischrge" discharge m i s s' T M R) as [(X & P2)|(X & ->)].
      * split; [|split; [|split]]; try contradiction.
        -- intros q A. rewrite (put_apart _ q _ _ _ P2); [reflexivity|]. apply apartb_iff, A. right. split; [right; exact X | reflexivity].
        -- intros _. eapply put_same; [|exact P2]. discriminate.
      * split; [reflexivity|]. split; [contradiction|]. split; contradiction.
    + intros [= <-]. split; [reflexivity|]. split; [contradiction|]. split; [contradiction|]. intros (_ & Y & _). rewrite T in Y. injection Y as ->. discriminate.
Qed.
Lemma exp_steps_nth p : forall i p', exp_steps cutoff charge discharge a b i p = Ok p' ->
  length p' = length p /\ forall n s, nth_error p n = Some s -> exists s', nth_error p' n = Some s' /\ exp_step cutoff charge discharge a b (i + n) s = Ok s'.
Proof.
  induction p as [|s p IH]; intros i p' M; cbn [exp_steps] in M.
  - injection M as <-. split; [reflexivity|]. intros [|n] x E; discriminate.
  - destruct (exp_step cutoff charge discharge a b i s) as [s'|] eqn:F; [|discriminate]. cbn [bind] in M.
    destruct (exp_steps cutoff charge discharge a b (S i) p) as [r|] eqn:R; [|discriminate]. injection M as <-. destruct (IH _ _ R) as (L & N).
    split; [cbn; congruence|]. intros [|n] x E; cbn [nth_error] in *.
    + injection E as <-. exists s'. rewrite Nat.add_0_r. auto.
    + destruct (N n x E) as (x' & E' & C). exists x'. split; [exact E'|]. replace (i + S n)%nat with (S i + n)%nat by lia. exact C.
Qed.
End Exp.
Lemma from_exp_spec cutoff charge discharge p p' : from_exp cutoff charge discharge p = Ok p' ->
  exists a b, last_step p "Do 1" a /\ last_step p "Loop 1" b /\
    changes_where (exp_places p a b) p p' /\
    forall n, (limited_charge p n -> reads p' n (Limit "Voltage") cutoff) /\
              (current_step p a b "Charge" n -> reads p' n StepValue charge) /\ (current_step p a b "Dischrge" n -> reads p' n StepValue discharge).
Proof.
  unfold from_exp. destruct (last_of_type "Do 1" 0 p None) as [[a|]|] eqn:A; try discriminate;
    destruct (last_of_type "Loop 1" 0 p None) as [[b|]|] eqn:B; try discriminate. cbn [bind]. intros M.
  exists a, b. split; [apply last_step_found; exact A|]. split; [apply last_step_found; exact B|].
  destruct (exp_steps_nth _ _ _ _ _ _ _ _ M) as (L & N). cbn [Nat.add] in N.
  assert (GP : forall n s q v, nth_error p n = Some s -> reads p n q v <-> get q s = Ok v) by (intros n s q v E; rewrite reads_get; unfold step_get; rewrite E; tauto).
  assert (SL : forall n s, nth_error p n = Some s -> limited_charge p n <-> s_limited s).
  { intros n s E. unfold limited_charge, s_limited. rewrite (GP n s _ _ E). split; intros (X & v & Y); (split; [exact X|]; exists v; apply (GP n s _ _ E); exact Y). }
  assert (SC : forall n s ty, nth_error p n = Some s -> current_step p a b ty n <-> s_current a b n ty s).
  { intros n s ty E. unfold current_step, s_current. rewrite !(GP n s _ _ E). tauto. }
  split.
  - split; [exact L|]. intros n q Q v. rewrite !reads_get. unfold step_get. destruct (nth_error p n) as [s|] eqn:E.
    + destruct (N n s E) as (s' & E' & X). rewrite E'. destruct (exp_step_spec _ _ _ _ _ _ _ _ X) as (F & _). rewrite F; [tauto|]. intros r R. apply Q.
      destruct R as [(R & ->)|([R|R] & ->)]; [left | right | right].
      * split; [apply (SL n s E); exact R | reflexivity].
      * split; [left; apply (SC n s _ E); exact R | reflexivity].
      * split; [right; apply (SC n s _ E); exact R | reflexivity].
    + assert (E' : nth_error p' n = None) by (apply nth_error_None; apply nth_error_None in E; lia). rewrite E'. tauto.
  - intros n. destruct (nth_error p n) as [s|] eqn:E.
    + destruct (N n s E) as (s' & E' & X). destruct (exp_step_spec _ _ _ _ _ _ _ _ X) as (_ & F1 & F2 & F3).
      rewrite (SL n s E), !(SC n s _ E), !reads_get. unfold step_get. rewrite E'. auto.
    + assert (NR : forall q v, ~ reads p n q v) by (intros q v R; apply reads_get in R; unfold step_get in R; rewrite E in R; discriminate).
      split; [intros (X & _); elim (NR _ _ X)|]. split; intros (_ & X & _); elim (NR _ _ X).
Qed.
(** without a loop it fails *)
Lemma from_exp_no_loop cutoff charge discharge p t : t = "Do 1"%string \/ t = "Loop 1"%string -> (forall n, ~ reads p n StepType (VText t)) ->
  exists e, from_exp cutoff charge discharge p = Err e.
Proof.
  intros T H. assert (X : forall n, last_of_type t 0 p None <> Ok (Some n)).
  { intros n L. destruct (last_step_found _ _ _ L) as (R & _). exact (H n R). }
  unfold from_exp. destruct T as [->| ->].
  - destruct (last_of_type "Do 1" 0 p None) as [[n|]|e]; [elim (X n eq_refl)| |exists e; reflexivity]. cbn [bind].
    destruct (last_of_type "Loop 1" 0 p None) as [[m|]|e]; eexists; reflexivity.
  - destruct (last_of_type "Do 1" 0 p None) as [[n|]|e]; cbn [bind]; [| |eexists; reflexivity];
      (destruct (last_of_type "Loop 1" 0 p None) as [[m|]|e]; [elim (X m eq_refl)| |]; eexists; reflexivity).
Qed.

(** ** Durations under a day *)
Lemma about_lasts x v : under_a_day x -> about x v -> lasts x v.
Proof.
  intros (A & B) (s & N & t & -> & C). assert (0 <= s < 86400)%Z.
  { unfold nearest in N. apply Qabs_Qle_condition in N as (N1 & N2). split.
    - assert (X : inject_Z (-1) < inject_Z s) by (change (inject_Z (-1)) with (-1); lra). rewrite <- Zlt_Qlt in X. lia.
    - assert (X : inject_Z s < inject_Z 86400) by (change (inject_Z 86400) with (86400 # 1); lra). rewrite <- Zlt_Qlt in X. lia. }
  exists t, s. rewrite Z.mod_small in C by lia. auto.
Qed.
Lemma whole_lasts x v : 0 <= x -> x < 86400 -> whole x v -> lasts_whole x v.
Proof.
  intros A B (s & (N1 & N2) & t & -> & C). assert (0 <= s < 86400)%Z.
  { split.
    - assert (X : inject_Z (-1) < inject_Z s) by (change (inject_Z (-1)) with (-1); lra). rewrite <- Zlt_Qlt in X. lia.
    - assert (X : inject_Z s < inject_Z 86400) by (change (inject_Z 86400) with (86400 # 1); lra). rewrite <- Zlt_Qlt in X. lia. }
  exists t, s. rewrite Z.mod_small in C by lia. auto.
Qed.
Lemma doc_value pre E D n f p p' w : documented pre E D n f -> pre p -> f p = (p', None) -> In w D -> exists v, reads p' (n + w_step w) (w_place w) v /\ w_is w v.
Proof. intros DO P F I. destruct (DO p p' None P F) as (_ & _ & C & _). specialize (C eq_refl). rewrite Forall_forall in C. exact (C w I). Qed.
