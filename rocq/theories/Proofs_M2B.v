(** Proofs for the step conversion. *)
From Verif Require Import Py Model_Text Proofs_Text Model_Units Spec_Units Proofs_Units Model_Biologic Model_M2B Spec_M2B
  Proofs_Datapath.

(** ** Reading a chain of updates *)
Lemma get_set_same d k v : sget (sset d k v : seq_dict) k = Some v.
Proof. rewrite sget_sset, String.eqb_refl. reflexivity. Qed.
Lemma get_set_other (d : seq_dict) k v k' : String.eqb k' k = false -> sget (sset d k v) k' = sget d k'.
Proof. intros H. rewrite sget_sset. rewrite H. reflexivity. Qed.
Ltac look := unfold sset_str, sset_int; repeat (first [rewrite get_set_same | rewrite get_set_other by (vm_compute; reflexivity)]).

(** ** Numbering *)
Lemma existsb_in t l : existsb (String.eqb t) l = true <-> In t l.
Proof.
  rewrite existsb_exists. split.
  - intros [x [I E]]. apply String.eqb_eq in E. subst. exact I.
  - intros I. exists t. split; [exact I|apply String.eqb_refl].
Qed.
Lemma str_in_in t l : str_in t l = true <-> In t l.
Proof. exact (existsb_in t l). Qed.
Lemma no_parts st : (is_open (st_type st) || is_adv (st_type st)) = existsb (String.eqb (st_type st)) ["Do 1"; "Do 2"; "AdvCycle"]%string.
Proof. unfold is_open, is_adv, str_in. cbn [existsb]. destruct (String.eqb (st_type st) "Do 1"), (String.eqb (st_type st) "Do 2"), (String.eqb (st_type st) "AdvCycle"); reflexivity. Qed.
Lemma split_step_length st n ps : split_step st n = Ok ps -> length ps = match st_limits st with None => 1%nat | Some _ => 2%nat end.
Proof.
  unfold split_step. destruct (st_limits st) as [ls|].
  - destruct (_ || _); [|discriminate]. destruct (sget _ _); [|discriminate].
    destruct (String.eqb (st_type st) "Charge"); cbn [bind].
    + intros [= <-]. reflexivity.
    + destruct (String.eqb (st_type st) "Dischrge"); cbn [bind]; [|discriminate]. intros [= <-]. reflexivity.
  - intros [= <-]. reflexivity.
Qed.
Lemma parts_length st n ps : parts_of st n = Ok ps -> length ps = n_seqs st.
Proof.
  unfold parts_of, n_seqs. rewrite no_parts. destruct (existsb _ _); [intros [= <-]; reflexivity|].
  unfold is_close, str_in. destruct (existsb _ _); [intros [= <-]; reflexivity|]. apply split_step_length.
Qed.
Definition nums_at (q : Z) (n : nat) : list Z :=
  match n with O => [q] | _ => map (fun k => (q + Z.of_nat k)%Z) (seq 0 n) end.
Lemma first_seq_cons st steps k : first_seq (st :: steps) (S k) = (n_seqs st + first_seq steps k)%nat.
Proof. reflexivity. Qed.
Lemma number_spec : forall steps sn q nums l, number_steps steps sn q = Ok (nums, l) ->
  map fst l = steps /\
  (forall k st, nth_error steps k = Some st ->
     exists parts, nth_error l k = Some (st, parts) /\ parts_of st (sn + Z.of_nat k) = Ok parts /\
       d_get Z.eqb nums (sn + Z.of_nat k)%Z = Some (nums_at (q + Z.of_nat (first_seq steps k)) (n_seqs st))) /\
  (forall g ns, d_get Z.eqb nums g = Some ns -> exists k, (k < length steps)%nat /\ g = (sn + Z.of_nat k)%Z).
Proof.
  induction steps as [|st steps IH]; intros sn q nums l H; cbn [number_steps] in H.
  - injection H as <- <-. split; [reflexivity|]. split.
    + intros [|k] st E; discriminate E.
    + intros g ns E. discriminate E.
  - destruct (parts_of st sn) as [parts|e] eqn:P; [|discriminate H]. cbn [bind] in H.
    destruct (number_steps steps (sn + 1) (q + Z.of_nat (length parts))) as [[nums' l']|e] eqn:R; [|discriminate H].
    cbn [bind fst snd] in H. injection H as E1 E2.
    pose proof (parts_length _ _ _ P) as PL.
    destruct (IH _ _ _ _ R) as [M [A B]]. subst nums l. split; [cbn; rewrite M; reflexivity|]. split.
    + intros [|k] st' E.
      * cbn in E. injection E as <-. exists parts. cbn [nth_error]. rewrite Z.add_0_r. split; [reflexivity|]. split; [exact P|].
        cbn [d_get]. rewrite Z.eqb_refl. unfold first_seq, n_all. cbn [firstn map list_sum fold_right]. rewrite Z.add_0_r.
        unfold nums_at. rewrite <- PL. destruct parts; reflexivity.
      * cbn in E. destruct (A k st' E) as [ps [E1 [E2 E3]]]. exists ps. cbn [nth_error].
        replace (sn + Z.of_nat (S k))%Z with (sn + 1 + Z.of_nat k)%Z by lia. split; [exact E1|]. split; [exact E2|].
        cbn [d_get]. destruct (Z.eqb_spec (sn + 1 + Z.of_nat k) sn); [lia|]. rewrite E3. f_equal. f_equal.
        rewrite first_seq_cons, PL. lia.
    + intros g ns E. cbn [d_get] in E. destruct (Z.eqb_spec g sn) as [->|N].
      * exists 0%nat. cbn. split; lia.
      * destruct (B g ns E) as [k [K1 K2]]. exists (S k). cbn. split; lia.
Qed.

(** ** The conversion pass *)
Fixpoint lb_at (l : list (step * list step)) (sn lb : Z) (k : nat) : Z :=
  match k, l with
  | S k', (st, _) :: r => lb_at r (sn + 1) (if is_open (st_type st) then sn + 1 else if is_adv (st_type st) then lb
                                            else if is_close (st_type st) then sn + 1 else lb)%Z k'
  | _, _ => lb
  end.
Fixpoint open_at (l : list (step * list step)) (sn open : Z) (k : nat) : Z :=
  match k, l with
  | S k', (st, _) :: r => open_at r (sn + 1) (if is_open (st_type st) then sn else if is_adv (st_type st) then open
                                              else if is_close (st_type st) then -1 else open)%Z k'
  | _, _ => open
  end.
Definition piece blank nums ub e (st : step) (parts : list step) (sn lb open : Z) (ds : list seq_dict) : Prop :=
  if is_open (st_type st) || is_adv (st_type st) then ds = []
  else if is_close (st_type st) then
    open <> (-1)%Z /\ exists q to r n, d_get Z.eqb nums sn = Some [q] /\ d_get Z.eqb nums open = Some (to :: r) /\
      loop_count st = Ok n /\ ds = [create_loop_seq blank q to (Z.max (n - 1) 0)]
  else exists ns, d_get Z.eqb nums sn = Some ns /\ length parts = length ns /\
         convert_parts blank nums sn lb ub e (combine ns parts) = Ok ds.
Lemma pass_spec blank nums ub e : forall l sn lb open seqs,
  convert_pass blank nums ub e l sn lb open = Ok seqs ->
  exists dss, seqs = concat dss /\ length dss = length l /\
    forall k st parts, nth_error l k = Some (st, parts) ->
      exists ds, nth_error dss k = Some ds /\
        piece blank nums ub e st parts (sn + Z.of_nat k) (lb_at l sn lb k) (open_at l sn open k) ds.
Proof.
  induction l as [|[st parts] l IH]; intros sn lb open seqs H; cbn [convert_pass] in H.
  - injection H as <-. exists []. split; [reflexivity|]. split; [reflexivity|]. intros [|k] st ps E; discriminate E.
  - assert (STEP : forall ds more lb' open', seqs = ds ++ more ->
        convert_pass blank nums ub e l (sn + 1) lb' open' = Ok more ->
        piece blank nums ub e st parts sn lb open ds ->
        lb' = (if is_open (st_type st) then sn + 1 else if is_adv (st_type st) then lb
               else if is_close (st_type st) then sn + 1 else lb)%Z ->
        open' = (if is_open (st_type st) then sn else if is_adv (st_type st) then open
               else if is_close (st_type st) then -1 else open)%Z ->
        exists dss, seqs = concat dss /\ length dss = length ((st, parts) :: l) /\
          forall k st' parts', nth_error ((st, parts) :: l) k = Some (st', parts') ->
          exists ds', nth_error dss k = Some ds' /\
            piece blank nums ub e st' parts' (sn + Z.of_nat k) (lb_at ((st, parts) :: l) sn lb k) (open_at ((st, parts) :: l) sn open k) ds').
    { intros ds more lb' open' SE C P L O. destruct (IH _ _ _ _ C) as [dss [E1 [E2 E3]]].
      exists (ds :: dss). cbn [concat length]. rewrite SE, E1, E2. split; [reflexivity|]. split; [reflexivity|].
      intros [|k] st' ps' N.
      - cbn in N. injection N as <- <-. exists ds. split; [reflexivity|]. cbn [lb_at open_at]. rewrite Z.add_0_r. exact P.
      - cbn in N. destruct (E3 k st' ps' N) as [ds' [D1 D2]]. exists ds'. split; [exact D1|].
        cbn [lb_at open_at]. replace (sn + Z.of_nat (S k))%Z with (sn + 1 + Z.of_nat k)%Z by lia.
        rewrite <- L, <- O. exact D2. }
    destruct (is_open (st_type st)) eqn:O.
    { eapply (STEP [] seqs); [reflexivity|exact H| |reflexivity|reflexivity]. unfold piece. rewrite O. reflexivity. }
    destruct (is_adv (st_type st)) eqn:A.
    { eapply (STEP [] seqs); [reflexivity|exact H| |reflexivity|reflexivity]. unfold piece. rewrite O, A. reflexivity. }
    destruct (is_close (st_type st)) eqn:C.
    { destruct (Z.eqb_spec open (-1)) as [|NO]; [discriminate H|].
      destruct (d_get Z.eqb nums sn) as [[|q [|? ?]]|] eqn:G1; destruct (d_get Z.eqb nums open) as [[|to r]|] eqn:G2; try discriminate H.
      destruct (loop_count st) as [n|?] eqn:LC; [|discriminate H]. cbn [bind] in H.
      destruct (convert_pass blank nums ub e l (sn + 1) (sn + 1) (-1)) as [more|?] eqn:CP; [|discriminate H].
      cbn [bind] in H. injection H as <-.
      eapply (STEP [_] more); [reflexivity|exact CP| |reflexivity|reflexivity].
      unfold piece. rewrite O, A, C. cbn [orb]. split; [exact NO|]. exists q, to, r, n. repeat (split; [assumption|]). reflexivity. }
    destruct (d_get Z.eqb nums sn) as [ns|] eqn:G; [|discriminate H].
    destruct (Nat.eqb_spec (length parts) (length ns)) as [L|]; [|discriminate H]. cbn [negb] in H.
    destruct (convert_parts blank nums sn lb ub e (combine ns parts)) as [ds|?] eqn:CPs; [|discriminate H]. cbn [bind] in H.
    destruct (convert_pass blank nums ub e l (sn + 1) lb open) as [more|?] eqn:CP; [|discriminate H].
    cbn [bind] in H. injection H as <-.
    eapply (STEP ds more); [reflexivity|exact CP| |reflexivity|reflexivity].
    unfold piece. rewrite O, A, C. cbn [orb]. exists ns. repeat (split; [assumption|]). assumption.
Qed.

Lemma lb_after : forall l sn lb k, (lb <= sn)%Z -> forall m st ps, (m < k)%nat -> nth_error l m = Some (st, ps) ->
  is_open (st_type st) = true \/ (is_adv (st_type st) = false /\ is_close (st_type st) = true) ->
  (sn + Z.of_nat m < lb_at l sn lb k)%Z.
Proof.
  assert (MON : forall l sn lb k, (lb <= sn)%Z -> (lb <= lb_at l sn lb k)%Z).
  { induction l as [|[st ps] l IH]; intros sn lb k L; destruct k as [|k]; cbn [lb_at]; try lia.
    match goal with |- context[lb_at l _ ?x k] => set (lb' := x) end.
    assert (lb <= lb' <= sn + 1)%Z by (unfold lb'; destruct (is_open (st_type st)), (is_adv (st_type st)), (is_close (st_type st)); lia).
    etransitivity; [|apply IH]; lia. }
  induction l as [|[st0 ps0] l IH]; intros sn lb k L m st ps MK N T; [destruct m; discriminate N|].
  destruct k as [|k]; [lia|]. cbn [lb_at].
  match goal with |- context[lb_at l _ ?x k] => set (lb' := x) end.
  assert (lb <= lb' <= sn + 1)%Z by (unfold lb'; destruct (is_open (st_type st0)), (is_adv (st_type st0)), (is_close (st_type st0)); lia).
  destruct m as [|m].
  - cbn in N. injection N as -> ->.
    assert (lb' = sn + 1)%Z. { unfold lb'. destruct T as [->|[-> ->]]; [reflexivity|]. destruct (is_open (st_type st)); reflexivity. }
    pose proof (MON l (sn + 1)%Z lb' k). lia.
  - cbn in N. replace (sn + Z.of_nat (S m))%Z with (sn + 1 + Z.of_nat m)%Z by lia.
    eapply IH; [lia| |exact N|exact T]. lia.
Qed.
Lemma open_before : forall l sn open k, (open < sn)%Z -> open_at l sn open k <> (-1)%Z -> (0 <= sn)%Z ->
  (k <= length l)%nat ->
  (open_at l sn open k = open /\ forall m st ps, (m < k)%nat -> nth_error l m = Some (st, ps) ->
     is_open (st_type st) = false /\ (is_adv (st_type st) = true \/ is_close (st_type st) = false)) \/
  exists j st ps, (j < k)%nat /\ nth_error l j = Some (st, ps) /\ is_open (st_type st) = true /\
    open_at l sn open k = (sn + Z.of_nat j)%Z /\
    forall m st ps, (j < m < k)%nat -> nth_error l m = Some (st, ps) ->
     is_open (st_type st) = false /\ (is_adv (st_type st) = true \/ is_close (st_type st) = false).
Proof.
  induction l as [|[st0 ps0] l IH]; intros sn open k LT NE P KL.
  - cbn in KL. assert (k = 0%nat) by lia. subst. left. split; [reflexivity|]. intros m st ps M; lia.
  - destruct k as [|k]; [left; split; [reflexivity|]; intros m st ps M; lia|]. cbn [open_at] in *.
    match goal with |- context[open_at l _ ?x k] => set (o' := x) in * end. cbn in KL.
    assert (o' < sn + 1)%Z by (unfold o'; destruct (is_open (st_type st0)), (is_adv (st_type st0)), (is_close (st_type st0)); lia).
    destruct (IH (sn + 1)%Z o' k) as [[E A]|[j [st [ps [J1 [J2 [J3 [J4 J5]]]]]]]]; [lia|exact NE|lia|lia| |].
    + destruct (is_open (st_type st0)) eqn:O.
      { right. exists 0%nat, st0, ps0. split; [lia|]. split; [reflexivity|]. split; [exact O|].
        split; [rewrite E; unfold o'; lia|].
        intros m st ps M N. destruct m as [|m]; [lia|]. cbn in N. eapply A; [|exact N]. lia. }
      destruct (is_adv (st_type st0)) eqn:AD.
      { left. split; [exact E|]. intros [|m] st ps M N.
        - cbn in N. injection N as <- <-. split; [exact O|left; exact AD].
        - cbn in N. eapply A; [|exact N]. lia. }
      destruct (is_close (st_type st0)) eqn:C.
      { unfold o' in E. contradiction. }
      left. split; [exact E|]. intros [|m] st ps M N.
      * cbn in N. injection N as <- <-. split; [exact O|right; exact C].
      * cbn in N. eapply A; [|exact N]. lia.
    + right. exists (S j), st, ps. split; [lia|]. split; [exact J2|]. split; [exact J3|]. split; [lia|].
      intros m st' ps' M N. destruct m as [|m]; [lia|]. cbn in N. eapply J5; [|exact N]. lia.
Qed.

(** ** Contents of a sequence *)
Lemma with_lit_denotes {A} s (f : lit -> A) x : with_lit s f = Ok x -> exists y, denotes s y.
Proof.
  unfold with_lit. destruct (parse_lit s) as [l|] eqn:E; [|discriminate]. intros _. exists (lit_value l), l. split; [exact E|reflexivity].
Qed.
Lemma keeps_same units n conv s v u : keeps_value units n conv -> (exists y, denotes s y) -> conv s = Ok (v, u) -> same_amount units s v u.
Proof.
  intros K [y Y] E. destruct (K s y Y) as (t & u' & q & k & C & D & I & B & _). rewrite E in C. injection C as -> ->.
  exists y, q, k. auto.
Qed.
Lemma volts_same s v u : convert_volts s = Ok (v, u) -> same_amount volt_units s v u.
Proof. intros E. eapply keeps_same; [exact volts_ok| |exact E]. exact (with_lit_denotes _ _ _ E). Qed.
Lemma amps_same s v u : convert_amps s = Ok (v, u) -> same_amount amp_units s v u.
Proof. intros E. eapply keeps_same; [exact amps_ok| |exact E]. exact (with_lit_denotes _ _ _ E). Qed.
Lemma time_field_is s q : time_field s = Ok q -> field_is s q.
Proof.
  unfold time_field, field_is. destruct (String.eqb_spec s "") as [->|N].
  - intros [= <-]. left. split; reflexivity.
  - unfold py_float. destruct (parse_lit s) as [l|] eqn:E; [|discriminate]. intros [= <-]. right. split; [exact N|].
    exists l. split; [exact E|reflexivity].
Qed.
Lemma time_same s v u : convert_time s = Ok (v, u) -> same_duration s v u.
Proof.
  intros E. assert (E0 := E). unfold convert_time in E0.
  destruct (str_split ":" s) as [|hs [|ms [|ss [|? ?]]]] eqn:SP; try discriminate E0.
  destruct (time_field hs) as [h|] eqn:H; [|discriminate E0]. cbn [bind] in E0.
  destruct (time_field ms) as [m|] eqn:M; [|discriminate E0]. cbn [bind] in E0.
  destruct (time_field ss) as [sec|] eqn:S; [|discriminate E0]. clear E0.
  exists hs, ms, ss, h, m, sec. repeat (split; [first [assumption | apply time_field_is; assumption]|]).
  intros P1 P2 P3.
  destruct (time_never_longer s hs ms ss h m sec) as (t & u' & q & k & C & D & I & B1 & B2);
    try assumption; try (apply time_field_is; assumption).
  rewrite E in C. injection C as -> ->. exists q, k. auto.
Qed.
Lemma operator_same o c : operator_map o = Ok c -> comparison o c.
Proof.
  unfold operator_map, comparison. destruct (String.eqb_spec o ">=") as [->|]; [intros [= <-]; auto|].
  destruct (String.eqb_spec o "<=") as [->|]; [intros [= <-]; auto|discriminate].
Qed.
Definition limit_says (e : end_entry) (ty c v u : string) : Prop :=
  (e_type e = "StepTime"%string /\ ty = "Time"%string /\ c = ">"%string /\ same_duration (e_value e) v u \/
     e_type e = "Voltage"%string /\ ty = "Ecell"%string /\ comparison (e_oper e) c /\ same_amount volt_units (e_value e) v u \/
     e_type e = "Current"%string /\ ty = "|I|"%string /\ comparison (e_oper e) c /\ same_amount amp_units (e_value e) v u).
Lemma limit_of_says e ty c v u : limit_of e = Ok (ty, c, (v, u)) -> limit_says e ty c v u.
Proof.
  unfold limit_of, limit_says.
  destruct (String.eqb_spec (e_type e) "StepTime") as [->|].
  { destruct (negb _); [discriminate|]. destruct (convert_time (e_value e)) as [[v' u']|] eqn:C; [|discriminate].
    cbn [bind]. intros [= <- <- <- <-]. left. repeat (split; [reflexivity|]). apply time_same. exact C. }
  destruct (String.eqb_spec (e_type e) "Voltage") as [->|].
  { destruct (operator_map (e_oper e)) as [c'|] eqn:O; [|discriminate]. cbn [bind].
    destruct (convert_volts (e_value e)) as [[v' u']|] eqn:C; [|discriminate].
    cbn [bind]. intros [= <- <- <- <-]. right. left. repeat (split; [reflexivity|]). split; [apply operator_same; exact O|]. apply volts_same. exact C. }
  destruct (String.eqb_spec (e_type e) "Current") as [->|]; [|discriminate].
  destruct (operator_map (e_oper e)) as [c'|] eqn:O; [|discriminate]. cbn [bind].
  destruct (convert_amps (e_value e)) as [[v' u']|] eqn:C; [|discriminate].
  cbn [bind]. intros [= <- <- <- <-]. right. right. repeat (split; [reflexivity|]). split; [apply operator_same; exact O|]. apply amps_same. exact C.
Qed.

Definition lim_fields : list string := ["seq"; "action"; "type"; "value_unit"; "value"; "comp"]%string.
Definition rec_fields : list string := ["type"; "value"; "value_unit"]%string.
Lemma frame_set d (k : string) (v : fval) k' ks : str_in k' ks = false -> In k ks -> sget (sset d k v) k' = sget d k'.
Proof.
  intros N I. apply get_set_other. destruct (String.eqb_spec k' k) as [->|]; [|reflexivity].
  apply str_in_in in I. congruence.
Qed.
(** the six fields of one limit *)
Lemma set_limit_spec nums sn q lb ub e j d en d' : (j < 3)%nat ->
  set_limit nums sn q lb ub e (Z.of_nat j + 1) d en = Ok d' ->
  (forall k, str_in k (map (lim_key j) lim_fields) = false -> sget d' k = sget d k) /\
  (exists g s, parse_int (e_step en) = Some g /\ (lb <= g)%Z /\ (g <= ub \/ g = e)%Z /\
     goto_seq nums sn q e g = Ok s /\ int d' (lim_key j "seq") s /\
     (g <> (sn + 1)%Z -> txt d' (lim_key j "action") "Goto sequence") /\
     (g = (sn + 1)%Z -> sget d' (lim_key j "action") = sget d (lim_key j "action"))) /\
  limit_kept en j d'.
Proof.
  intros J H. unfold set_limit in H.
  unfold py_int in H. destruct (parse_int (e_step en)) as [g|] eqn:G; [|discriminate H]. cbn [bind] in H.
  destruct (_ || _) eqn:B in H; [discriminate H|].
  destruct (goto_seq nums sn q e g) as [s|] eqn:GS; [|discriminate H]. cbn [bind] in H.
  destruct (limit_of en) as [[[ty c] [v u]]|] eqn:L; [|discriminate H]. cbn [bind] in H.
  apply orb_false_iff in B. destruct B as [B1 B2]. apply Z.ltb_ge in B1.
  assert (B3 : (g <= ub \/ g = e)%Z).
  { apply andb_false_iff in B2. destruct B2 as [B2|B2]; [left; apply Z.ltb_ge in B2; exact B2|].
    right. apply negb_false_iff, Z.eqb_eq in B2. exact B2. }
  apply limit_of_says in L.
  assert (K : forall f, key "lim" (Z.of_nat j + 1) f = lim_key j f).
  { intros f. destruct j as [|[|[|j]]]; [reflexivity|reflexivity|reflexivity|lia]. }
  rewrite !K in H. injection H as <-. clear K.
  assert (NE : forall f f', In f lim_fields -> In f' lim_fields -> f <> f' -> String.eqb (lim_key j f) (lim_key j f') = false).
  { destruct j as [|[|[|j]]]; [| | |lia]; intros f f' F F' N; cbn [In lim_fields] in F, F';
      repeat (destruct F as [<-|F]; [repeat (destruct F' as [<-|F']; [first [reflexivity|contradiction N; reflexivity]|]); contradiction|]); contradiction. }
  unfold sset_str, sset_int. split; [|split].
  - intros k N. destruct (negb (g =? sn + 1)%Z);
      repeat (rewrite (frame_set _ _ _ _ _ N) by (apply in_map; cbn; tauto)); reflexivity.
  - exists g, s. split; [reflexivity|]. split; [exact B1|]. split; [exact B3|]. split; [exact GS|]. unfold int, txt.
    destruct (Z.eqb_spec g (sn + 1)) as [E|E]; cbn [negb].
    + split; [|split].
      * repeat (rewrite get_set_other by (apply NE; [cbn; tauto|cbn; tauto|discriminate])). apply get_set_same.
      * intros N. contradiction.
      * intros _. repeat (rewrite get_set_other by (apply NE; [cbn; tauto|cbn; tauto|discriminate])). reflexivity.
    + split; [|split].
      * repeat (rewrite get_set_other by (apply NE; [cbn; tauto|cbn; tauto|discriminate])). apply get_set_same.
      * intros _. repeat (rewrite get_set_other by (apply NE; [cbn; tauto|cbn; tauto|discriminate])). apply get_set_same.
      * intros N. contradiction.
  - exists ty, c, v, u. unfold txt.
    repeat split; try exact L;
      (repeat (rewrite get_set_other by (apply NE; [cbn; tauto|cbn; tauto|discriminate]))); apply get_set_same.
Qed.
Definition goes nums sn q lb ub e (en : end_entry) (j : nat) (d0 d : seq_dict) : Prop :=
  exists g s, parse_int (e_step en) = Some g /\ (lb <= g)%Z /\ (g <= ub \/ g = e)%Z /\
     goto_seq nums sn q e g = Ok s /\ int d (lim_key j "seq") s /\
     (g <> (sn + 1)%Z -> txt d (lim_key j "action") "Goto sequence") /\
     (g = (sn + 1)%Z -> sget d (lim_key j "action") = sget d0 (lim_key j "action")).
Definition is_lim (j n : nat) (k : string) : bool := existsb (fun i => str_in k (map (lim_key i) lim_fields)) (seq j n).
Lemma lim_keys_disjoint i j f : (i < 3)%nat -> (j < 3)%nat -> i <> j -> In f lim_fields -> str_in (lim_key i f) (map (lim_key j) lim_fields) = false.
Proof.
  intros I J N F. destruct i as [|[|[|i]]]; [| | |lia]; (destruct j as [|[|[|j]]]; [| | |lia]); try (contradiction N; reflexivity);
    cbn [In lim_fields] in F; repeat (destruct F as [<-|F]; [reflexivity|]); contradiction.
Qed.
Lemma limit_kept_frame e j d d' : (forall f, In f lim_fields -> sget d' (lim_key j f) = sget d (lim_key j f)) -> limit_kept e j d -> limit_kept e j d'.
Proof.
  intros F (ty & c & v & u & A & B & C & D & E). exists ty, c, v, u. unfold txt in *.
  rewrite !F by (cbn; tauto). auto.
Qed.
Lemma set_limits_spec nums sn q lb ub e : forall es j d d',
  (j + length es <= 3)%nat -> set_limits nums sn q lb ub e (Z.of_nat j + 1) d es = Ok d' ->
  (forall k, is_lim j (length es) k = false -> sget d' k = sget d k) /\
  forall i en, nth_error es i = Some en -> goes nums sn q lb ub e en (j + i) d d' /\ limit_kept en (j + i) d'.
Proof.
  induction es as [|en0 es IH]; intros j d d' L H; cbn [set_limits] in H.
  - injection H as <-. split; [reflexivity|]. intros [|i] en E; discriminate E.
  - destruct (set_limit nums sn q lb ub e (Z.of_nat j + 1) d en0) as [d1|] eqn:SL; [|discriminate H]. cbn [bind] in H.
    cbn [length] in L. assert (J3 : (j < 3)%nat) by lia. destruct (set_limit_spec _ _ _ _ _ _ _ _ _ _ J3 SL) as [F1 [G1 K1]].
    replace (Z.of_nat j + 1 + 1)%Z with (Z.of_nat (S j) + 1)%Z in H by lia.
    destruct (IH (S j) d1 d' ltac:(lia) H) as [F2 R2].
    assert (OTHER : forall i f, (i <= j)%nat -> In f lim_fields -> sget d' (lim_key i f) = sget d1 (lim_key i f)).
    { intros i f IJ IF. apply F2. unfold is_lim. apply not_true_is_false. intros X. apply existsb_exists in X.
      destruct X as [x [X1 X2]]. apply in_seq in X1. rewrite (lim_keys_disjoint i x f) in X2; [discriminate X2|lia|lia|lia|exact IF]. }
    split.
    + intros k N. unfold is_lim in *. cbn [length seq existsb] in N. apply orb_false_iff in N. destruct N as [N1 N2].
      rewrite F2 by exact N2. apply F1. exact N1.
    + intros [|i] en E.
      * cbn in E. injection E as <-. rewrite Nat.add_0_r. split.
        -- destruct G1 as (g & s & A1 & A2 & A3 & A4 & A5 & A6 & A7). exists g, s. unfold int, txt in *.
           rewrite !(OTHER j) by (cbn; tauto || lia). auto 10.
        -- eapply limit_kept_frame; [|exact K1]. intros f IF. apply OTHER; [lia|exact IF].
      * cbn in E. destruct (R2 i en E) as [G2 K2]. replace (j + S i)%nat with (S j + i)%nat by lia. split; [|exact K2].
        destruct G2 as (g & s & A1 & A2 & A3 & A4 & A5 & A6 & A7). exists g, s.
        assert (i < length es)%nat by (apply nth_error_Some; congruence).
        rewrite F1 in A7 by (apply lim_keys_disjoint; [lia|lia|lia|cbn; tauto]). auto 10.
Qed.

Definition is_rec (j n : nat) (k : string) : bool := existsb (fun i => str_in k (map (rec_key i) rec_fields)) (seq j n).
Lemma set_report_spec j d r d' : (j < 3)%nat -> set_report (Z.of_nat j + 1) d r = Ok d' ->
  (forall k, str_in k (map (rec_key j) rec_fields) = false -> sget d' k = sget d k) /\ report_kept r j d'.
Proof.
  intros J H. unfold set_report in H.
  assert (X : exists ty v u, d' = sset_str (sset_str (sset_str d (key "rec" (Z.of_nat j + 1) "type") ty) (key "rec" (Z.of_nat j + 1) "value") v) (key "rec" (Z.of_nat j + 1) "value_unit") u /\
    (r_type r = "StepTime"%string /\ ty = "Time"%string /\ same_duration (r_value r) v u \/
     r_type r = "Voltage"%string /\ ty = "Ecell"%string /\ same_amount volt_units (r_value r) v u \/
     r_type r = "Current"%string /\ ty = "I"%string /\ same_amount amp_units (r_value r) v u)).
  { destruct (String.eqb_spec (r_type r) "StepTime") as [->|].
    { destruct (convert_time (r_value r)) as [[v u]|] eqn:C; [|discriminate H]. cbn [bind] in H. injection H as <-.
      exists "Time"%string, v, u. split; [reflexivity|]. left. auto using time_same. }
    destruct (String.eqb_spec (r_type r) "Voltage") as [->|].
    { destruct (convert_volts (r_value r)) as [[v u]|] eqn:C; [|discriminate H]. cbn [bind] in H. injection H as <-.
      exists "Ecell"%string, v, u. split; [reflexivity|]. right. left. auto using volts_same. }
    destruct (String.eqb_spec (r_type r) "Current") as [->|]; [|discriminate H].
    destruct (convert_amps (r_value r)) as [[v u]|] eqn:C; [|discriminate H]. cbn [bind] in H. injection H as <-.
    exists "I"%string, v, u. split; [reflexivity|]. right. right. auto using amps_same. }
  clear H. destruct X as (ty & v & u & -> & SAYS).
  assert (K : forall f, key "rec" (Z.of_nat j + 1) f = rec_key j f).
  { intros f. destruct j as [|[|[|j]]]; [reflexivity|reflexivity|reflexivity|lia]. }
  rewrite !K. clear K.
  assert (NE : forall f f', In f rec_fields -> In f' rec_fields -> f <> f' -> String.eqb (rec_key j f) (rec_key j f') = false).
  { destruct j as [|[|[|j]]]; [| | |lia]; intros f f' F F' N; cbn [In rec_fields] in F, F';
      repeat (destruct F as [<-|F]; [repeat (destruct F' as [<-|F']; [first [reflexivity|contradiction N; reflexivity]|]); contradiction|]); contradiction. }
  unfold sset_str. split.
  - intros k N. repeat (rewrite (frame_set _ _ _ _ _ N) by (apply in_map; cbn; tauto)). reflexivity.
  - exists ty, v, u. unfold txt. repeat split; try exact SAYS;
      (repeat (rewrite get_set_other by (apply NE; [cbn; tauto|cbn; tauto|discriminate]))); apply get_set_same.
Qed.
Lemma rec_keys_disjoint i j f : (i < 3)%nat -> (j < 3)%nat -> i <> j -> In f rec_fields -> str_in (rec_key i f) (map (rec_key j) rec_fields) = false.
Proof.
  intros I J N F. destruct i as [|[|[|i]]]; [| | |lia]; (destruct j as [|[|[|j]]]; [| | |lia]); try (contradiction N; reflexivity);
    cbn [In rec_fields] in F; repeat (destruct F as [<-|F]; [reflexivity|]); contradiction.
Qed.
Lemma set_reports_spec : forall rs j d d', (j + length rs <= 3)%nat -> set_reports (Z.of_nat j + 1) d rs = Ok d' ->
  (forall k, is_rec j (length rs) k = false -> sget d' k = sget d k) /\
  forall i r, nth_error rs i = Some r -> report_kept r (j + i) d'.
Proof.
  induction rs as [|r0 rs IH]; intros j d d' L H; cbn [set_reports] in H.
  - injection H as <-. split; [reflexivity|]. intros [|i] r E; discriminate E.
  - destruct (set_report (Z.of_nat j + 1) d r0) as [d1|] eqn:SL; [|discriminate H]. cbn [bind] in H.
    cbn [length] in L. assert (J3 : (j < 3)%nat) by lia. destruct (set_report_spec _ _ _ _ J3 SL) as [F1 K1].
    replace (Z.of_nat j + 1 + 1)%Z with (Z.of_nat (S j) + 1)%Z in H by lia.
    destruct (IH (S j) d1 d' ltac:(lia) H) as [F2 R2]. split.
    + intros k N. unfold is_rec in *. cbn [length seq existsb] in N. apply orb_false_iff in N. destruct N as [N1 N2].
      rewrite F2 by exact N2. apply F1. exact N1.
    + intros [|i] r E.
      * cbn in E. injection E as <-. rewrite Nat.add_0_r.
        destruct K1 as (ty & v & u & A & B & C & D). exists ty, v, u. unfold txt in *.
        assert (O : forall f, In f rec_fields -> sget d' (rec_key j f) = sget d1 (rec_key j f)).
        { intros f IF. apply F2. unfold is_rec. apply not_true_is_false. intros X. apply existsb_exists in X.
          destruct X as [x [X1 X2]]. apply in_seq in X1. rewrite (rec_keys_disjoint j x f) in X2; [discriminate X2|lia|lia|lia|exact IF]. }
        rewrite !O by (cbn; tauto). auto.
      * cbn in E. replace (j + S i)%nat with (S j + i)%nat by lia. apply R2. exact E.
Qed.
Lemma existsb_mono {A} (f : A -> bool) l l' : (forall x, In x l -> In x l') -> existsb f l' = false -> existsb f l = false.
Proof.
  intros I H. apply not_true_is_false. intros X. apply existsb_exists in X. destruct X as [x [X1 X2]].
  assert (existsb f l' = true) by (apply existsb_exists; exists x; auto). congruence.
Qed.
Lemma is_lim_mono n k : (n <= 3)%nat -> is_lim 0 3 k = false -> is_lim 0 n k = false.
Proof. intros N. apply existsb_mono. intros x I. apply in_seq in I. apply in_seq. lia. Qed.
Lemma is_rec_mono n k : (n <= 3)%nat -> is_rec 0 3 k = false -> is_rec 0 n k = false.
Proof. intros N. apply existsb_mono. intros x I. apply in_seq in I. apply in_seq. lia. Qed.
Lemma lim_not_rec j f : (j < 3)%nat -> In f lim_fields -> is_rec 0 3 (lim_key j f) = false.
Proof.
  intros J F. destruct j as [|[|[|j]]]; [| | |lia]; cbn [In lim_fields] in F; repeat (destruct F as [<-|F]; [reflexivity|]); contradiction.
Qed.

Lemma set_control_spec d st d' : set_control d st = Ok d' ->
  control_kept (st_type st) (st_mode st) (st_value st) d' /\
  forall k, str_in k ["ctrl_type"; "Apply I/C"; "N"; "charge/discharge"; "ctrl1_val"; "ctrl1_val_unit"; "ctrl1_val_vs"]%string = false -> sget d' k = sget d k.
Proof.
  unfold set_control. set (ks := ["ctrl_type"; _; _; _; _; _; _]%string).
  destruct (String.eqb_spec (st_type st) "Rest") as [->|NR].
  { intros [= <-]. split.
    - left. split; [reflexivity|]. unfold txt. look. reflexivity.
    - intros k N. unfold sset_str. repeat (rewrite (frame_set _ _ _ _ _ N) by (cbn; tauto)). reflexivity. }
  destruct (negb _) eqn:TY; [discriminate|]. apply negb_false_iff, str_in_in in TY.
  set (dir := if String.eqb (st_type st) "Charge" then _ else _).
  assert (D : st_type st = "Charge"%string /\ dir = "Charge"%string \/ st_type st = "Dischrge"%string /\ dir = "Discharge"%string).
  { unfold dir. destruct TY as [<-|[<-|[]]]; auto. }
  clearbody dir.
  destruct (String.eqb_spec (st_mode st) "Current") as [->|].
  { destruct (convert_amps (st_value st)) as [[v u]|] eqn:C; [|discriminate]. cbn [bind fst snd]. intros [= <-]. split.
    - right. split; [unfold txt; look; intuition congruence|]. exists v, u. unfold txt. look. split; [reflexivity|]. split; [reflexivity|].
      left. auto using amps_same.
    - intros k N. unfold sset_str. repeat (rewrite (frame_set _ _ _ _ _ N) by (cbn; tauto)). reflexivity. }
  destruct (String.eqb_spec (st_mode st) "Voltage") as [->|]; [|discriminate].
  destruct (convert_volts (st_value st)) as [[v u]|] eqn:C; [|discriminate]. cbn [bind fst snd]. intros [= <-]. split.
  - right. split; [unfold txt; look; intuition congruence|]. exists v, u. unfold txt. look. split; [reflexivity|]. split; [reflexivity|].
    right. auto using volts_same.
  - intros k N. unfold sset_str. repeat (rewrite (frame_set _ _ _ _ _ N) by (cbn; tauto)). reflexivity.
Qed.
Lemma control_kept_frame ty mode value d d' :
  (forall k, In k ["ctrl_type"; "charge/discharge"; "ctrl1_val"; "ctrl1_val_unit"]%string -> sget d' k = sget d k) ->
  control_kept ty mode value d -> control_kept ty mode value d'.
Proof. intros F. unfold control_kept, txt. rewrite !F by (cbn; tauto). exact (fun H => H). Qed.
Lemma part_spec blank nums sn lb ub e q part d : convert_part blank nums sn lb ub e q part = Ok d ->
  int d "Ns" q /\ control_kept (st_type part) (st_mode part) (st_value part) d /\
  limits_kept (the_ends part) d /\ reports_kept (the_reports part) d /\
  (forall j en, nth_error (the_ends part) j = Some en -> goes nums sn q lb ub e en j blank d).
Proof.
  unfold convert_part. match goal with |- context[set_control ?x part] => set (d0 := x) end. intros H.
  destruct (set_control d0 part) as [d1|] eqn:C; [|discriminate H]. cbn [bind] in H.
  destruct (set_control_spec _ _ _ C) as [CK CF].
  change (many_list (st_ends part)) with (the_ends part) in H. change (many_list (st_reports part)) with (the_reports part) in H.
  destruct (3 <? length (the_ends part))%nat eqn:LE; [discriminate H|]. apply Nat.ltb_ge in LE.
  set (d2 := sset_int d1 "lim_nb" _) in H.
  destruct (set_limits nums sn q lb ub e 1 d2 (the_ends part)) as [d3|] eqn:L; [|discriminate H]. cbn [bind] in H.
  destruct (3 <? length (the_reports part))%nat eqn:LR; [discriminate H|]. apply Nat.ltb_ge in LR.
  set (d4 := sset_int d3 "rec_nb" _) in H.
  destruct (set_limits_spec _ _ _ _ _ _ (the_ends part) 0 d2 d3 LE L) as [LF LS].
  destruct (set_reports_spec (the_reports part) 0 d4 d LR H) as [RF RS].
  assert (X : forall k, is_rec 0 3 k = false -> k <> "rec_nb"%string -> sget d k = sget d3 k).
  { intros k N1 N2. rewrite RF by (apply is_rec_mono; assumption). unfold d4, sset_int. apply get_set_other. apply String.eqb_neq. exact N2. }
  assert (Y : forall k, is_rec 0 3 k = false -> k <> "rec_nb"%string -> is_lim 0 3 k = false -> k <> "lim_nb"%string -> sget d k = sget d1 k).
  { intros k N1 N2 N3 N4. rewrite X by assumption. rewrite LF by (apply is_lim_mono; assumption). unfold d2, sset_int. apply get_set_other. apply String.eqb_neq. exact N4. }
  split; [|split; [|split; [|split]]].
  - unfold int. rewrite Y by first [reflexivity | discriminate]. rewrite CF by reflexivity. unfold d0. look. reflexivity.
  - eapply control_kept_frame; [|exact CK]. intros k I. cbn in I.
    destruct I as [<-|[<-|[<-|[<-|[]]]]]; apply Y; first [reflexivity | discriminate].
  - split; [exact LE|]. split.
    + unfold int. rewrite X by first [reflexivity | discriminate]. rewrite LF by (apply is_lim_mono; [exact LE|reflexivity]). unfold d2. look. reflexivity.
    + intros j en N. destruct (LS j en N) as [_ K]. eapply limit_kept_frame; [|exact K]. intros f IF.
      assert (j < 3)%nat by (assert (j < length (the_ends part))%nat by (apply nth_error_Some; congruence); lia).
      apply X; [apply lim_not_rec; assumption|]. intros E. destruct j as [|[|[|j]]]; discriminate E.
  - split; [exact LR|]. split.
    + unfold int. rewrite RF by (apply is_rec_mono; [exact LR|reflexivity]). unfold d4. look. reflexivity.
    + intros j r N. exact (RS j r N).
  - intros j en N. destruct (LS j en N) as [G _].
    assert (J : (j < 3)%nat) by (assert (j < length (the_ends part))%nat by (apply nth_error_Some; congruence); lia).
    destruct G as (g & s & A1 & A2 & A3 & A4 & A5 & A6 & A7). exists g, s. unfold int, txt in *. cbn [Nat.add] in *.
    assert (XL : forall f, In f lim_fields -> sget d (lim_key j f) = sget d3 (lim_key j f)).
    { intros f IF. apply X; [apply lim_not_rec; assumption|]. intros E. destruct j as [|[|[|j]]]; discriminate E. }
    rewrite !XL by (cbn; tauto). repeat (split; [assumption|]). intros E. rewrite A7 by exact E.
    assert (sget d2 (lim_key j "action") = sget d1 (lim_key j "action")) as ->.
    { unfold d2, sset_int. apply get_set_other. destruct j as [|[|[|j]]]; [reflexivity|reflexivity|reflexivity|lia]. }
    rewrite CF by (destruct j as [|[|[|j]]]; [reflexivity|reflexivity|reflexivity|lia]).
    unfold d0. unfold sset_int. destruct j as [|[|[|j]]]; [| | |lia]; repeat rewrite get_set_other by reflexivity; reflexivity.
Qed.

(** ** Where the sequences of a step are *)
Lemma convert_parts_spec blank nums sn lb ub e : forall l ds, convert_parts blank nums sn lb ub e l = Ok ds ->
  length ds = length l /\
  forall p q part, nth_error l p = Some (q, part) -> exists d, nth_error ds p = Some d /\ convert_part blank nums sn lb ub e q part = Ok d.
Proof.
  induction l as [|[q0 part0] l IH]; intros ds H; cbn [convert_parts] in H.
  - injection H as <-. split; [reflexivity|]. intros [|p] q part E; discriminate E.
  - destruct (convert_part blank nums sn lb ub e q0 part0) as [d0|] eqn:C; [|discriminate H]. cbn [bind] in H.
    destruct (convert_parts blank nums sn lb ub e l) as [ds'|] eqn:R; [|discriminate H]. cbn [bind] in H. injection H as <-.
    destruct (IH _ eq_refl) as [L N]. split; [cbn; rewrite L; reflexivity|]. intros [|p] q part E.
    + cbn in E. injection E as <- <-. exists d0. split; [reflexivity|exact C].
    + exact (N p q part E).
Qed.
Lemma nth_concat {A} : forall (dss : list (list A)) k ds p, nth_error dss k = Some ds -> (p < length ds)%nat ->
  nth_error (concat dss) (length (concat (firstn k dss)) + p) = nth_error ds p.
Proof.
  induction dss as [|ds0 dss IH]; intros k ds p E L; [destruct k; discriminate E|].
  destruct k as [|k]; cbn [firstn concat length].
  - cbn in E. injection E as ->. cbn. apply nth_error_app1. exact L.
  - cbn in E. rewrite app_length. rewrite nth_error_app2 by lia.
    replace (length ds0 + length (concat (firstn k dss)) + p - length ds0)%nat with (length (concat (firstn k dss)) + p)%nat by lia.
    apply IH; assumption.
Qed.
Lemma concat_lengths : forall (dss : list (list seq_dict)) (steps : list step), length dss = length steps ->
  (forall k st ds, nth_error steps k = Some st -> nth_error dss k = Some ds -> length ds = n_seqs st) ->
  forall k, length (concat (firstn k dss)) = first_seq steps k.
Proof.
  induction dss as [|ds dss IH]; intros [|st steps] L H k; cbn in L; try discriminate L.
  - destruct k; reflexivity.
  - destruct k as [|k]; [reflexivity|]. cbn [firstn concat]. rewrite app_length, first_seq_cons. f_equal.
    + exact (H 0%nat st ds eq_refl eq_refl).
    + apply IH; [lia|]. intros j s d E1 E2. exact (H (S j) s d E1 E2).
Qed.
Lemma n_seqs_open st : is_open (st_type st) || is_adv (st_type st) = true -> n_seqs st = 0%nat.
Proof. intros H. unfold n_seqs. rewrite <- no_parts, H. reflexivity. Qed.
Lemma n_seqs_close st : is_open (st_type st) || is_adv (st_type st) = false -> is_close (st_type st) = true -> n_seqs st = 1%nat.
Proof. intros H C. unfold n_seqs. rewrite <- no_parts, H. unfold is_close, str_in in C. rewrite C. reflexivity. Qed.
Lemma nums_at_length q n : (0 < n)%nat -> length (nums_at q n) = n.
Proof. destruct n; [lia|]. intros _. unfold nums_at. rewrite map_length, seq_length. reflexivity. Qed.
Lemma nums_at_nth q n p : (p < n)%nat -> nth_error (nums_at q n) p = Some (q + Z.of_nat p)%Z.
Proof.
  destruct n; [lia|]. intros P. unfold nums_at. rewrite nth_error_map.
  assert (E : nth_error (seq 0 (S n)) p = Some p).
  { rewrite (nth_error_nth' _ 0%nat) by (rewrite seq_length; exact P). rewrite seq_nth by exact P. reflexivity. }
  rewrite E. reflexivity.
Qed.
Lemma nums_at_first q n : exists r, nums_at q n = q :: r.
Proof. destruct n; [exists []; reflexivity|]. cbn [nums_at seq map]. rewrite Z.add_0_r. eexists. reflexivity. Qed.
Lemma nth_combine {A B} : forall (l : list A) (l' : list B) p a b, nth_error l p = Some a -> nth_error l' p = Some b -> nth_error (combine l l') p = Some (a, b).
Proof.
  induction l as [|x l IH]; intros l' p a b E1 E2; [destruct p; discriminate E1|].
  destruct l' as [|y l']; [destruct p; discriminate E2|]. destruct p as [|p]; cbn in *; [congruence|]. apply IH; assumption.
Qed.
Lemma bookkeeping_iff st : bookkeeping st <-> is_open (st_type st) || is_adv (st_type st) = true.
Proof. unfold bookkeeping. rewrite no_parts. symmetry. apply existsb_in. Qed.
Lemma opens_iff st : opens_loop st <-> is_open (st_type st) = true.
Proof. unfold opens_loop, is_open. symmetry. apply str_in_in. Qed.
Lemma closes_iff st : closes_loop st <-> is_close (st_type st) = true.
Proof. unfold closes_loop, is_close. symmetry. apply str_in_in. Qed.
Lemma close_not_open st : is_close (st_type st) = true -> is_open (st_type st) = false /\ is_adv (st_type st) = false.
Proof.
  intros H. apply closes_iff in H. unfold closes_loop in H. cbn in H.
  destruct H as [<-|[<-|[]]]; split; reflexivity.
Qed.
Lemma bool_ne b : ~ b = true -> b = false.
Proof. destruct b; [intros H; contradiction H; reflexivity|reflexivity]. Qed.

Section Located.
Variables (blank : seq_dict) (steps : list step) (offset e : Z) (seqs : list seq_dict) (nums : list (Z * list Z)).
Hypothesis OK : convert_steps_to_seqs blank steps offset e = Ok (seqs, nums).
Hypothesis OFF : (0 <= offset)%Z.
Let num (k : nat) : Z := (offset + 1 + Z.of_nat k)%Z.
Lemma nums_first k : (k < length steps)%nat -> exists r, d_get Z.eqb nums (num k) = Some (Z.of_nat (first_seq steps k) :: r).
Proof.
  intros K. assert (OK' := OK). unfold convert_steps_to_seqs in OK'. destruct (number_steps steps (offset + 1) 0) as [[nums' l]|] eqn:N; [|discriminate OK'].
  cbn [bind fst snd] in OK'. destruct (convert_pass _ _ _ _ _ _ _ _); [|discriminate OK']. cbn [bind] in OK'. injection OK' as _ E.
  rewrite E in N.
  destruct (number_spec _ _ _ _ _ N) as (_ & A & _). destruct (nth_error steps k) as [st|] eqn:S; [|apply nth_error_None in S; lia].
  destruct (A k st S) as (ps & _ & _ & G). unfold num. destruct (nums_at_first (0 + Z.of_nat (first_seq steps k)) (n_seqs st)) as [r R].
  rewrite R in G. exists r. exact G.
Qed.
Lemma nums_only g n r : d_get Z.eqb nums g = Some (n :: r) -> exists m, (m < length steps)%nat /\ g = num m /\ n = Z.of_nat (first_seq steps m).
Proof.
  intros G. assert (OK' := OK). unfold convert_steps_to_seqs in OK'. destruct (number_steps steps (offset + 1) 0) as [[nums' l]|] eqn:N; [|discriminate OK'].
  cbn [bind fst snd] in OK'. destruct (convert_pass _ _ _ _ _ _ _ _) eqn:CP in OK'; [|discriminate OK']. cbn [bind] in OK'. injection OK' as _ E.
  rewrite E in N. clear CP.
  destruct (number_spec _ _ _ _ _ N) as (_ & _ & B). destruct (B g _ G) as [m [M1 M2]]. exists m. split; [exact M1|]. split; [exact M2|].
  destruct (nums_first m M1) as [r' R]. unfold num in R. rewrite <- M2 in R. rewrite G in R. injection R as R _. exact R.
Qed.
Lemma located :
  length seqs = n_all steps /\
  (forall k st, nth_error steps k = Some st -> physical st ->
     exists parts lb, split_step st (num k) = Ok parts /\ length parts = n_seqs st /\
       (forall m st', (m < k)%nat -> nth_error steps m = Some st' -> opens_loop st' \/ closes_loop st' -> (num m < lb)%Z) /\
       forall p part, nth_error parts p = Some part ->
         exists d, nth_error seqs (first_seq steps k + p) = Some d /\
           convert_part blank nums (num k) lb (offset + Z.of_nat (length steps) + 1) e (Z.of_nat (first_seq steps k + p)) part = Ok d) /\
  (forall k st, nth_error steps k = Some st -> closes_loop st ->
     exists j st' n, (j < k)%nat /\ nth_error steps j = Some st' /\ opens_loop st' /\
       (forall m st'', (j < m < k)%nat -> nth_error steps m = Some st'' -> ~ opens_loop st'' /\ ~ closes_loop st'') /\
       loop_count st = Ok n /\
       nth_error seqs (first_seq steps k) = Some (create_loop_seq blank (Z.of_nat (first_seq steps k)) (Z.of_nat (first_seq steps j)) (Z.max (n - 1) 0))).
Proof.
  assert (NF := nums_first). assert (NO := nums_only).
  assert (OK' := OK). unfold convert_steps_to_seqs in OK'. destruct (number_steps steps (offset + 1) 0) as [[nums' l]|] eqn:N; [|discriminate OK'].
  cbn [bind fst snd] in OK'. destruct (convert_pass _ _ _ _ _ _ _ _) as [seqs'|] eqn:CP in OK'; [|discriminate OK']. cbn [bind] in OK'.
  injection OK' as ES EN. subst seqs' nums'.
  destruct (number_spec _ _ _ _ _ N) as (MF & A & _).
  destruct (pass_spec _ _ _ _ _ _ _ _ _ CP) as (dss & ED & LD & P).
  assert (LL : length l = length steps) by (rewrite <- MF, map_length; reflexivity).
  assert (LEN : forall k st ds, nth_error steps k = Some st -> nth_error dss k = Some ds -> length ds = n_seqs st).
  { intros k st ds E1 E2. destruct (A k st E1) as (parts & L1 & L2 & L3). destruct (P k st parts L1) as (ds' & D1 & D2).
    rewrite E2 in D1. injection D1 as <-. unfold piece in D2.
    destruct (is_open (st_type st) || is_adv (st_type st)) eqn:O; [subst ds; symmetry; apply n_seqs_open; exact O|].
    destruct (is_close (st_type st)) eqn:C.
    - destruct D2 as (_ & q & to & r & n & _ & _ & _ & ->). symmetry. apply n_seqs_close; assumption.
    - destruct D2 as (ns & _ & L & CC). destruct (convert_parts_spec _ _ _ _ _ _ _ _ CC) as [LC _].
      rewrite LC, combine_length, <- L, Nat.min_id. eapply parts_length. exact L2. }
  assert (POS : forall k, length (concat (firstn k dss)) = first_seq steps k) by (apply concat_lengths; [congruence|exact LEN]).
  split; [|split].
  - rewrite ED. rewrite <- (firstn_all dss), POS, LD, LL. unfold first_seq. rewrite firstn_all. reflexivity.
  - intros k st E1 [PH1 PH2]. rewrite bookkeeping_iff in PH1. rewrite closes_iff in PH2. apply bool_ne in PH1, PH2.
    destruct (A k st E1) as (parts & L1 & L2 & L3). destruct (P k st parts L1) as (ds & D1 & D2).
    unfold piece in D2. rewrite PH1, PH2 in D2. destruct D2 as (ns & G & L & CC).
    assert (SP : split_step st (num k) = Ok parts) by (unfold parts_of in L2; rewrite PH1, PH2 in L2; exact L2).
    exists parts, (lb_at l (offset + 1) offset k). split; [exact SP|]. split; [eapply parts_length; exact L2|]. split.
    + intros m st' M E2 T. destruct (A m st' E2) as (ps & M1 & _). eapply lb_after; [lia|exact M|exact M1|].
      destruct T as [T|T]; [left; apply opens_iff; exact T|right; apply closes_iff in T; split; [apply close_not_open; exact T|exact T]].
    + intros p part EP. assert (PL : (p < length parts)%nat) by (apply nth_error_Some; congruence).
      destruct (convert_parts_spec _ _ _ _ _ _ _ _ CC) as [LC NC].
      assert (LP := parts_length _ _ _ L2). unfold num in G. rewrite L3 in G. injection G as <-.
      destruct (NC p (0 + Z.of_nat (first_seq steps k) + Z.of_nat p)%Z part) as (d & DD1 & DD2).
      { apply nth_combine; [|exact EP]. apply nums_at_nth. lia. }
      exists d. split.
      * rewrite ED, <- POS. rewrite (nth_concat _ _ ds); [exact DD1|exact D1|]. rewrite (LEN k st ds E1 D1). lia.
      * replace (Z.of_nat (first_seq steps k + p))%Z with (0 + Z.of_nat (first_seq steps k) + Z.of_nat p)%Z by lia. exact DD2.
  - intros k st E1 C. apply closes_iff in C. destruct (close_not_open _ C) as [NOP NAD].
    destruct (A k st E1) as (parts & L1 & L2 & L3). destruct (P k st parts L1) as (ds & D1 & D2).
    unfold piece in D2. rewrite NOP, NAD, C in D2. cbn [orb] in D2. destruct D2 as (NE & q & to & r & n & G1 & G2 & LC & DS).
    assert (KL : (k < length steps)%nat) by (apply nth_error_Some; congruence).
    destruct (open_before l (offset + 1) (-1) k) as [[E _]|(j & st' & ps & J1 & J2 & J3 & J4 & J5)]; [lia|exact NE|lia|lia|congruence|].
    assert (JS : nth_error steps j = Some st').
    { rewrite <- MF, nth_error_map, J2. reflexivity. }
    exists j, st', n. split; [exact J1|]. split; [exact JS|]. split; [apply opens_iff; exact J3|]. split.
    { intros m st'' M EM. destruct (A m st'' EM) as (ps' & M1 & _). destruct (J5 m st'' ps' M M1) as [X1 X2].
      rewrite opens_iff, closes_iff. split; [congruence|]. intros X3. destruct X2 as [X2|X2]; [|congruence].
      destruct (close_not_open _ X3). congruence. }
    split; [exact LC|].
    rewrite L3 in G1. destruct (nums_at_first (0 + Z.of_nat (first_seq steps k)) (n_seqs st)) as [r1 R1]. rewrite R1 in G1. injection G1 as EQ _.
    assert (JL : (j < length steps)%nat) by lia. destruct (NF j JL) as [r2 R2]. unfold num in R2. rewrite <- J4, G2 in R2. injection R2 as ET _.
    rewrite ED, <- (Nat.add_0_r (first_seq steps k)), <- POS, (nth_concat _ _ ds); [|exact D1|rewrite DS; cbn; lia].
    rewrite DS. cbn [nth_error]. rewrite POS, <- EQ, ET, Nat.add_0_r. reflexivity.
Qed.
Lemma goes_target k q lb ub en j d st :
  nth_error steps k = Some st -> (q + 1 = Z.of_nat (first_seq steps (S k)))%Z ->
  goes nums (num k) q lb ub e en j blank d ->
  exists g s, parse_int (e_step en) = Some g /\ (lb <= g)%Z /\ (g <= ub \/ g = e)%Z /\ int d (lim_key j "seq") s /\
    goto_target steps offset e k g s /\
    (g <> (num k + 1)%Z -> txt d (lim_key j "action") "Goto sequence") /\
    (g = (num k + 1)%Z -> sget d (lim_key j "action") = sget blank (lim_key j "action")).
Proof.
  intros E1 QN (g & s & A1 & A2 & A3 & A4 & A5 & A6 & A7). exists g, s. repeat (split; [assumption|]). split; [|split; assumption].
  unfold goto_seq in A4. unfold goto_target. fold (num k).
  destruct (Z.eqb_spec g (num k + 1)) as [->|N1]; [injection A4 as <-; left; split; [reflexivity|exact QN]|].
  destruct (Z.eqb_spec g e) as [->|N2]; [injection A4 as <-; right; left; auto|].
  destruct (d_get Z.eqb nums g) as [[|n r]|] eqn:G; [discriminate A4| |discriminate A4]. injection A4 as <-.
  right. right. split; [exact N1|]. split; [exact N2|]. destruct (nums_only _ _ _ G) as (m & M1 & M2 & M3). exists m. auto.
Qed.
End Located.

Lemma split_cases st n parts : split_step st n = Ok parts ->
  (st_limits st = None /\ parts = [st]) \/
  exists ls lim opp oper p1 p2, st_limits st = Some ls /\ parts = [p1; p2] /\ opposite (st_mode st) opp /\ sget ls opp = Some lim /\
    (st_type st = "Charge"%string /\ oper = ">="%string \/ st_type st = "Dischrge"%string /\ oper = "<="%string) /\
    (st_type p1 = st_type st /\ st_mode p1 = st_mode st /\ st_value p1 = st_value st /\ the_reports p1 = the_reports st /\
     the_ends p1 = [{| e_type := opp; e_oper := oper; e_value := lim; e_step := zfill 3 (str_int (n + 1)) |}]) /\
    (st_type p2 = st_type st /\ st_mode p2 = opp /\ st_value p2 = lim /\ the_reports p2 = the_reports st /\ the_ends p2 = the_ends st).
Proof.
  unfold split_step. destruct (st_limits st) as [ls|] eqn:LS; [|intros [= <-]; left; split; reflexivity].
  destruct (_ || _) eqn:M; [|discriminate].
  set (opp := if String.eqb (st_mode st) "Current" then _ else _).
  assert (OP : opposite (st_mode st) opp).
  { unfold opp, opposite. apply orb_true_iff in M. destruct (String.eqb_spec (st_mode st) "Current") as [->|].
    - left. auto.
    - destruct M as [M|M]; [discriminate|]. apply String.eqb_eq in M. right. auto. }
  clearbody opp. destruct (sget ls opp) as [lim|] eqn:G; [|discriminate].
  destruct (String.eqb_spec (st_type st) "Charge") as [T|T]; cbn [bind].
  - intros [= <-]. right. exists ls, lim, opp, ">="%string. do 2 eexists. split; [reflexivity|]. split; [reflexivity|].
    split; [exact OP|]. split; [exact G|]. split; [left; auto|]. cbn. unfold the_reports, the_ends. cbn. repeat split; exact T || reflexivity.
  - destruct (String.eqb_spec (st_type st) "Dischrge") as [T'|]; [|discriminate]. cbn [bind].
    intros [= <-]. right. exists ls, lim, opp, "<="%string. do 2 eexists. split; [reflexivity|]. split; [reflexivity|].
    split; [exact OP|]. split; [exact G|]. split; [right; auto|]. cbn. unfold the_reports, the_ends. cbn. repeat split; exact T' || reflexivity.
Qed.
Lemma n_seqs_physical st : physical st -> n_seqs st = match st_limits st with None => 1%nat | Some _ => 2%nat end.
Proof.
  intros [A B]. unfold n_seqs.
  destruct (existsb _ ["Do 1"; "Do 2"; "AdvCycle"]%string) eqn:E; [apply existsb_in in E; contradiction|].
  destruct (existsb _ ["Loop 1"; "Loop 2"]%string) eqn:E2; [apply existsb_in in E2; contradiction|]. reflexivity.
Qed.
Lemma first_seq_S : forall steps k st, nth_error steps k = Some st -> first_seq steps (S k) = (first_seq steps k + n_seqs st)%nat.
Proof.
  induction steps as [|s steps IH]; intros k st E; [destruct k; discriminate E|]. destruct k as [|k].
  - cbn in E. injection E as ->. rewrite first_seq_cons. unfold first_seq, n_all. cbn. lia.
  - cbn in E. rewrite !first_seq_cons. rewrite (IH k st E). lia.
Qed.
Lemma covers : forall steps i, (i < n_all steps)%nat ->
  exists k st p, nth_error steps k = Some st /\ (p < n_seqs st)%nat /\ i = (first_seq steps k + p)%nat.
Proof.
  induction steps as [|s steps IH]; intros i L; [cbn in L; lia|].
  change (n_all (s :: steps)) with (n_seqs s + n_all steps)%nat in L.
  destruct (lt_dec i (n_seqs s)) as [H|H].
  - exists 0%nat, s, i. split; [reflexivity|]. split; [exact H|]. reflexivity.
  - destruct (IH (i - n_seqs s)%nat) as (k & st & p & A & B & C); [lia|]. exists (S k), st, p. split; [exact A|]. split; [exact B|].
    rewrite first_seq_cons. lia.
Qed.

Theorem numbered blank steps offset e seqs nums : (0 <= offset)%Z -> convert_steps_to_seqs blank steps offset e = Ok (seqs, nums) ->
  length seqs = n_all steps /\ forall i d, nth_error seqs i = Some d -> int d "Ns" (Z.of_nat i).
Proof.
  intros O H. destruct (located _ _ _ _ _ _ H O) as (L & PH & LO). split; [exact L|]. intros i d E.
  destruct (covers steps i) as (k & st & p & A & B & ->).
  { rewrite <- L. apply nth_error_Some. congruence. }
  destruct (is_close (st_type st)) eqn:C.
  - apply closes_iff in C. destruct (LO k st A C) as (j & st' & n & _ & _ & _ & _ & _ & D).
    assert (p = 0%nat).
    { apply closes_iff in C. destruct (close_not_open _ C) as [X Y]. rewrite n_seqs_close in B; [lia|rewrite X, Y; reflexivity|exact C]. }
    subst p. rewrite Nat.add_0_r in *. rewrite D in E. injection E as <-. unfold int, create_loop_seq. look. reflexivity.
  - assert (P : physical st).
    { split; [|rewrite closes_iff; congruence]. rewrite bookkeeping_iff. intros X. rewrite (n_seqs_open _ X) in B. lia. }
    destruct (PH k st A P) as (parts & lb & SP & LP & _ & N).
    destruct (nth_error parts p) as [part|] eqn:EP; [|apply nth_error_None in EP; lia].
    destruct (N p part EP) as (d' & D1 & D2). rewrite D1 in E. injection E as ->.
    apply part_spec in D2. exact (proj1 D2).
Qed.
Theorem gotos blank steps offset e seqs nums k st : (0 <= offset)%Z -> convert_steps_to_seqs blank steps offset e = Ok (seqs, nums) ->
  nth_error steps k = Some st -> physical st ->
  exists d, nth_error seqs (first_seq steps (S k) - 1) = Some d /\
  forall j en, nth_error (the_ends st) j = Some en ->
  exists g s, parse_int (e_step en) = Some g /\ int d (lim_key j "seq") s /\ goto_target steps offset e k g s /\
    (g <> (offset + 1 + Z.of_nat k + 1)%Z -> txt d (lim_key j "action") "Goto sequence") /\
    (g = (offset + 1 + Z.of_nat k + 1)%Z -> sget d (lim_key j "action") = sget blank (lim_key j "action")) /\
    (forall m st', (m < k)%nat -> nth_error steps m = Some st' -> opens_loop st' \/ closes_loop st' -> (offset + 1 + Z.of_nat m < g)%Z).
Proof.
  intros O H A P. destruct (located _ _ _ _ _ _ H O) as (L & PH & _). destruct (PH k st A P) as (parts & lb & SP & LP & LB & N).
  assert (X : exists p part, nth_error parts p = Some part /\ the_ends part = the_ends st /\ S p = n_seqs st).
  { rewrite (n_seqs_physical _ P). destruct (split_cases _ _ _ SP) as [[E ->]|(ls & lim & opp & oper & p1 & p2 & E & -> & _ & _ & _ & _ & B)]; rewrite E.
    - exists 0%nat, st. auto.
    - exists 1%nat, p2. split; [reflexivity|]. split; [apply B|reflexivity]. }
  destruct X as (p & part & EP & EE & SPn). destruct (N p part EP) as (d & D1 & D2). exists d.
  assert (FS := first_seq_S _ _ _ A). split; [rewrite FS; replace (first_seq steps k + n_seqs st - 1)%nat with (first_seq steps k + p)%nat by lia; exact D1|].
  intros j en EN. destruct (part_spec _ _ _ _ _ _ _ _ _ D2) as (_ & _ & _ & _ & G). rewrite EE in G. specialize (G j en EN).
  assert (QN : (Z.of_nat (first_seq steps k + p) + 1 = Z.of_nat (first_seq steps (S k)))%Z) by lia.
  destruct (goes_target _ _ _ _ _ _ H _ _ _ _ _ _ _ st A QN G) as (g & s & A1 & A2 & A3 & A4 & A5 & A6 & A7).
  exists g, s. repeat (split; [assumption|]). intros m st' M1 M2 M3. pose proof (LB m st' M1 M2 M3). lia.
Qed.
Theorem loops blank steps offset e seqs nums k st : (0 <= offset)%Z -> convert_steps_to_seqs blank steps offset e = Ok (seqs, nums) ->
  nth_error steps k = Some st -> closes_loop st ->
  exists d j st' en n, nth_error seqs (first_seq steps k) = Some d /\
    (j < k)%nat /\ nth_error steps j = Some st' /\ opens_loop st' /\
    (forall m st'', (j < m < k)%nat -> nth_error steps m = Some st'' -> ~ opens_loop st'' /\ ~ closes_loop st'') /\
    st_ends st = One en /\ parse_int (e_value en) = Some n /\
    txt d "ctrl_type" "Loop" /\ int d "ctrl_seq" (Z.of_nat (first_seq steps j)) /\ int d "ctrl_repeat" (Z.max (n - 1) 0).
Proof.
  intros O H A C. destruct (located _ _ _ _ _ _ H O) as (_ & _ & LO). destruct (LO k st A C) as (j & st' & n & A1 & A2 & A3 & A4 & A5 & A6).
  unfold loop_count, py_int in A5. destruct (st_ends st) as [|en|] eqn:EE; [discriminate A5| |discriminate A5].
  destruct (parse_int (e_value en)) as [n'|] eqn:PI; [|discriminate A5]. injection A5 as ->.
  eexists. exists j, st', en, n. split; [exact A6|]. repeat (split; [first [assumption|reflexivity]|]). unfold txt, int, create_loop_seq. look. auto.
Qed.
Lemma zfill_int n : (0 <= n)%Z -> parse_int (zfill 3 (str_int n)) = Some n.
Proof. intros P. apply parse_zfill. exact P. Qed.
Theorem contents blank steps offset e seqs nums k st : (0 <= offset)%Z -> convert_steps_to_seqs blank steps offset e = Ok (seqs, nums) ->
  nth_error steps k = Some st -> physical st ->
  (st_limits st = None ->
     exists d, nth_error seqs (first_seq steps k) = Some d /\
       control_kept (st_type st) (st_mode st) (st_value st) d /\ limits_kept (the_ends st) d /\ reports_kept (the_reports st) d) /\
  (forall ls, st_limits st = Some ls ->
     exists d1 d2 opp lim oper to, nth_error seqs (first_seq steps k) = Some d1 /\ nth_error seqs (S (first_seq steps k)) = Some d2 /\
       opposite (st_mode st) opp /\ sget ls opp = Some lim /\
       (st_type st = "Charge"%string /\ oper = ">="%string \/ st_type st = "Dischrge"%string /\ oper = "<="%string) /\
       control_kept (st_type st) (st_mode st) (st_value st) d1 /\
       limits_kept [{| e_type := opp; e_oper := oper; e_value := lim; e_step := to |}] d1 /\
       int d1 "lim1_seq" (Z.of_nat (S (first_seq steps k))) /\ sget d1 "lim1_action" = sget blank "lim1_action" /\
       reports_kept (the_reports st) d1 /\
       control_kept (st_type st) opp lim d2 /\ limits_kept (the_ends st) d2 /\ reports_kept (the_reports st) d2).
Proof.
  intros O H A P. destruct (located _ _ _ _ _ _ H O) as (L & PH & _). destruct (PH k st A P) as (parts & lb & SP & LP & LB & N).
  destruct (split_cases _ _ _ SP) as [[E ->]|(ls & lim & opp & oper & p1 & p2 & E & -> & B1 & B2 & B3 & (C1 & C2 & C3 & C4 & C5) & (F1 & F2 & F3 & F4 & F5))].
  - split; [|intros ls X; congruence]. intros _. destruct (N 0%nat st eq_refl) as (d & D1 & D2). rewrite Nat.add_0_r in D1.
    apply part_spec in D2. destruct D2 as (_ & K1 & K2 & K3 & _). exists d. auto.
  - split; [congruence|]. intros ls' E'. rewrite E in E'. injection E' as <-.
    destruct (N 0%nat p1 eq_refl) as (d1 & D1 & D2). destruct (N 1%nat p2 eq_refl) as (d2 & D3 & D4).
    rewrite Nat.add_0_r in D1, D2. rewrite Nat.add_1_r in D3.
    apply part_spec in D2. destruct D2 as (_ & K1 & K2 & K3 & K4). apply part_spec in D4. destruct D4 as (_ & L1 & L2 & L3 & _).
    rewrite C1, C2, C3 in K1. rewrite C5 in K2, K4. rewrite C4 in K3. rewrite F1, F2, F3 in L1. rewrite F5 in L2. rewrite F4 in L3.
    destruct (K4 0%nat _ eq_refl) as (g & s & G1 & _ & _ & G4 & G5 & _ & G7). cbn [e_step] in G1.
    rewrite zfill_int in G1 by lia. injection G1 as <-. unfold goto_seq in G4. rewrite Z.eqb_refl in G4. injection G4 as <-.
    do 6 eexists. split; [exact D1|]. split; [exact D3|]. split; [exact B1|]. split; [exact B2|]. split; [exact B3|].
    split; [exact K1|]. split; [exact K2|]. split; [|split; [exact (G7 eq_refl)|auto]].
    unfold int in *. change (lim_key 0 "seq") with "lim1_seq"%string in G5. rewrite G5. do 2 f_equal. lia.
Qed.
