(** Well formed procedures are converted. *)
From Verif Require Import Py Model_Text Proofs_Text Model_Units Spec_Units Proofs_Units Model_Biologic Model_M2B Spec_M2B
  Proofs_Datapath Proofs_M2B.

Lemma conv_total units n conv s : keeps_value units n conv -> is_number s -> exists p, conv s = Ok p.
Proof. intros K (v & D). destruct (K s v D) as (t & u & _ & _ & C & _). eauto. Qed.
Lemma time_total s : is_duration s -> exists p, convert_time s = Ok p.
Proof.
  intros D. destruct (convert_time s) as [p|e] eqn:E; [eauto|]. exfalso. apply (proj1 (time_rejects s)); [eauto|exact D].
Qed.
Lemma limit_total e : end_ok e -> exists l, limit_of e = Ok l.
Proof.
  unfold limit_of. intros [(T & O & D)|([T|T] & O & N)]; rewrite T.
  - cbn [String.eqb Ascii.eqb Bool.eqb]. rewrite O. cbn [String.eqb Ascii.eqb Bool.eqb negb]. destruct (time_total _ D) as (p & ->). cbn [bind]. eauto.
  - cbn [String.eqb Ascii.eqb Bool.eqb]. assert (X : exists c, operator_map (e_oper e) = Ok c) by (destruct O as [->| ->]; cbn; eauto).
    destruct X as (c & ->). cbn [bind]. destruct (conv_total _ _ _ _ volts_ok N) as (p & ->). cbn [bind]. eauto.
  - cbn [String.eqb Ascii.eqb Bool.eqb]. assert (X : exists c, operator_map (e_oper e) = Ok c) by (destruct O as [->| ->]; cbn; eauto).
    destruct X as (c & ->). cbn [bind]. destruct (conv_total _ _ _ _ amps_ok N) as (p & ->). cbn [bind]. eauto.
Qed.
Lemma reports_total : forall rs n d, (forall r, In r rs -> report_ok r) -> exists d', set_reports n d rs = Ok d'.
Proof.
  induction rs as [|r rs IH]; intros n d F; [cbn; eauto|]. cbn [set_reports].
  assert (X : exists d', set_report n d r = Ok d').
  { unfold set_report. destruct (F r (or_introl eq_refl)) as [(T & D)|([T|T] & N)]; rewrite T; cbn [String.eqb Ascii.eqb Bool.eqb].
    - destruct (time_total _ D) as ([v u] & ->). cbn [bind]. eauto.
    - destruct (conv_total _ _ _ _ volts_ok N) as ([v u] & ->). cbn [bind]. eauto.
    - destruct (conv_total _ _ _ _ amps_ok N) as ([v u] & ->). cbn [bind]. eauto. }
  destruct X as (d' & ->). cbn [bind]. apply IH. intros x X. apply F. right. exact X.
Qed.
Definition goto_free (nums : list (Z * list Z)) (sn lb ub e : Z) (en : end_entry) : Prop :=
  exists g, parse_int (e_step en) = Some g /\ (lb <= g)%Z /\ (g <= ub \/ g = e)%Z /\
    (g = (sn + 1)%Z \/ g = e \/ exists n r, d_get Z.eqb nums g = Some (n :: r)).
Lemma limits_total nums sn q lb ub e : forall es n d, (forall en, In en es -> end_ok en /\ goto_free nums sn lb ub e en) ->
  exists d', set_limits nums sn q lb ub e n d es = Ok d'.
Proof.
  induction es as [|en es IH]; intros n d F; [cbn; eauto|]. cbn [set_limits].
  destruct (F en (or_introl eq_refl)) as (EO & g & P & L & U & G).
  assert (X : exists d', set_limit nums sn q lb ub e n d en = Ok d').
  { unfold set_limit, py_int. rewrite P. cbn [bind].
    destruct (Z.ltb_spec g lb); [lia|]. cbn [orb].
    assert (U' : (ub <? g)%Z && negb (g =? e)%Z = false) by (destruct U as [U| ->]; [destruct (Z.ltb_spec ub g); [lia|reflexivity]|rewrite Z.eqb_refl; apply andb_false_r]).
    rewrite U'. assert (Y : exists s, goto_seq nums sn q e g = Ok s).
    { unfold goto_seq. destruct (Z.eqb_spec g (sn + 1)); [eauto|]. destruct (Z.eqb_spec g e); [eauto|]. destruct G as [G|[G|(m & r & ->)]]; [contradiction|contradiction|eauto]. }
    destruct Y as (s & ->). cbn [bind]. destruct (limit_total en EO) as ([[ty c] [v u]] & ->). cbn [bind]. eauto. }
  destruct X as (d' & ->). cbn [bind]. apply IH. intros x X. apply F. right. exact X.
Qed.
Definition drives (ty mode value : string) : Prop :=
  ty = "Rest"%string \/ (ty = "Charge"%string \/ ty = "Dischrge"%string) /\ (mode = "Current"%string \/ mode = "Voltage"%string) /\ is_number value.
Lemma control_total d st : drives (st_type st) (st_mode st) (st_value st) -> exists d', set_control d st = Ok d'.
Proof.
  unfold set_control. intros [->|(T & M & N)]; [cbn; eauto|].
  assert (T' : String.eqb (st_type st) "Rest" = false) by (destruct T as [->| ->]; reflexivity). rewrite T'.
  assert (T2 : negb (str_in (st_type st) ["Charge"; "Dischrge"]%string) = false) by (destruct T as [->| ->]; reflexivity). rewrite T2.
  destruct M as [-> | ->]; cbn [String.eqb Ascii.eqb Bool.eqb].
  - destruct (conv_total _ _ _ _ amps_ok N) as (p & ->). cbn [bind]. eauto.
  - destruct (conv_total _ _ _ _ volts_ok N) as (p & ->). cbn [bind]. eauto.
Qed.
Lemma part_total blank nums sn lb ub e q part : drives (st_type part) (st_mode part) (st_value part) ->
  (length (the_ends part) <= 3)%nat -> (length (the_reports part) <= 3)%nat ->
  (forall en, In en (the_ends part) -> end_ok en /\ goto_free nums sn lb ub e en) -> (forall r, In r (the_reports part) -> report_ok r) ->
  exists d, convert_part blank nums sn lb ub e q part = Ok d.
Proof.
  intros D LE LR E R. unfold convert_part. match goal with |- context[set_control ?x part] => set (d0 := x) end.
  destruct (control_total d0 part D) as (d1 & ->). cbn [bind].
  change (many_list (st_ends part)) with (the_ends part). change (many_list (st_reports part)) with (the_reports part).
  destruct (Nat.ltb_spec 3 (length (the_ends part))); [lia|].
  match goal with |- context[set_limits nums sn q lb ub e 1 ?x _] => destruct (limits_total nums sn q lb ub e (the_ends part) 1 x E) as (d2 & ->) end. cbn [bind].
  destruct (Nat.ltb_spec 3 (length (the_reports part))); [lia|]. apply reports_total. exact R.
Qed.
Lemma split_total st n : physical st -> control_ok st -> exists parts, split_step st n = Ok parts.
Proof.
  intros PH [(T & L)|(T & opp & O & N & L)]; unfold split_step; [rewrite L; eauto|].
  destruct (st_limits st) as [ls|]; [|eauto]. destruct (L ls eq_refl) as (lim & G & NL).
  assert (X : exists oper, (if String.eqb (st_type st) "Charge" then Ok ">="%string else if String.eqb (st_type st) "Dischrge" then Ok "<="%string else Exception) = Ok oper)
    by (destruct T as [->| ->]; cbn; eauto).
  destruct O as [(M & ->)|(M & ->)]; rewrite M; cbn [String.eqb Ascii.eqb Bool.eqb orb]; rewrite G; destruct X as (oper & ->); cbn [bind]; eauto.
Qed.
Lemma parts_total blank nums sn lb ub e : forall l, (forall q part, In (q, part) l -> exists d, convert_part blank nums sn lb ub e q part = Ok d) ->
  exists ds, convert_parts blank nums sn lb ub e l = Ok ds.
Proof.
  induction l as [|[q part] l IH]; intros F; [cbn; eauto|]. cbn [convert_parts]. destruct (F q part (or_introl eq_refl)) as (d & ->). cbn [bind].
  destruct IH as (ds & ->). { intros q' p' I. apply F. right. exact I. } cbn [bind]. eauto.
Qed.
Lemma number_total steps : forall sn q, (forall k st, nth_error steps k = Some st -> exists ps, parts_of st (sn + Z.of_nat k) = Ok ps) ->
  exists p, number_steps steps sn q = Ok p.
Proof.
  induction steps as [|st steps IH]; intros sn q F; [cbn; eauto|]. cbn [number_steps].
  destruct (F 0%nat st eq_refl) as (ps & P). rewrite Z.add_0_r in P. rewrite P. cbn [bind].
  destruct (IH (sn + 1)%Z (q + Z.of_nat (length ps))%Z) as (p & ->). { intros k st' E. destruct (F (S k) st' E) as (ps' & P'). replace (sn + 1 + Z.of_nat k)%Z with (sn + Z.of_nat (S k))%Z by lia. eauto. }
  cbn [bind]. eauto.
Qed.
Lemma kinds st : {bookkeeping st} + {closes_loop st} + {physical st}.
Proof.
  destruct (is_open (st_type st) || is_adv (st_type st)) eqn:B; [left; left; apply bookkeeping_iff; exact B|].
  destruct (is_close (st_type st)) eqn:C; [left; right; apply closes_iff; exact C|]. right. split; [rewrite bookkeeping_iff, B; discriminate|rewrite closes_iff, C; discriminate].
Qed.
Section Total.
Variables (blank : seq_dict) (steps : list step) (offset e : Z).
Hypothesis OFF : (0 <= offset)%Z.
Hypothesis END : (offset + Z.of_nat (length steps) < e)%Z.
Hypothesis OK : forall k st, nth_error steps k = Some st -> step_ok steps offset e k st.
Let num (k : nat) : Z := (offset + 1 + Z.of_nat k)%Z.
Variables (nums : list (Z * list Z)) (l : list (step * list step)).
Hypothesis NUM : number_steps steps (offset + 1) 0 = Ok (nums, l).
Lemma pass_total : forall l' k lb open,
  (forall i, nth_error l' i = nth_error l (k + i)) ->
  (lb <= num k)%Z -> (forall m, (m <= k)%nat -> no_loop_between steps m k -> (lb <= num m)%Z) ->
  (forall j o, (j < k)%nat -> nth_error steps j = Some o -> opens_loop o -> no_loop_between steps (S j) k -> open = num j) ->
  exists seqs, convert_pass blank nums (offset + Z.of_nat (length steps) + 1) e l' (num k) lb open = Ok seqs.
Proof.
  destruct (number_spec _ _ _ _ _ NUM) as (MF & A & _).
  induction l' as [|[st parts] l' IH]; intros k lb open SUF LB LBM OPN; [cbn; eauto|].
  assert (NK : nth_error l k = Some (st, parts)) by (rewrite <- (Nat.add_0_r k), <- SUF; reflexivity).
  assert (SK : nth_error steps k = Some st) by (rewrite <- MF, nth_error_map, NK; reflexivity).
  destruct (A k st SK) as (parts' & L1 & L2 & L3). rewrite NK in L1. injection L1 as <-. fold (num k) in L2, L3.
  assert (SUF' : forall i, nth_error l' i = nth_error l (S k + i)) by (intros i; replace (S k + i)%nat with (k + S i)%nat by lia; rewrite <- SUF; reflexivity).
  assert (NS : (num k + 1 = num (S k))%Z) by (unfold num; lia).
  assert (KEEP : is_open (st_type st) = false -> is_close (st_type st) = false ->
    exists seqs, convert_pass blank nums (offset + Z.of_nat (length steps) + 1) e l' (num k + 1) lb open = Ok seqs).
  { intros O C. rewrite NS. apply IH; [exact SUF'|lia| |].
    - intros m M NL. destruct (Nat.eq_dec m (S k)) as [->|]; [lia|]. apply LBM; [lia|]. intros j x J. apply NL. lia.
    - intros j o J E OO NL. destruct (Nat.eq_dec j k) as [->|].
      + rewrite SK in E. injection E as <-. apply opens_iff in OO. congruence.
      + apply (OPN j o); [lia|exact E|exact OO|]. intros i x I. apply NL. lia. }
  assert (FRESH : forall open', (opens_loop st \/ closes_loop st) -> (opens_loop st -> open' = num k) ->
    exists seqs, convert_pass blank nums (offset + Z.of_nat (length steps) + 1) e l' (num k + 1) (num k + 1) open' = Ok seqs).
  { intros open' OC OE. rewrite NS. apply IH; [exact SUF'|lia| |].
    - intros m M NL. destruct (Nat.eq_dec m (S k)) as [->|]; [lia|]. exfalso. destruct (NL k st ltac:(lia) SK). tauto.
    - intros j o J E OO NL. destruct (Nat.eq_dec j k) as [->|].
      + rewrite SK in E. injection E as <-. apply OE. exact OO.
      + exfalso. destruct (NL k st ltac:(lia) SK). tauto. }
  cbn [convert_pass].
  destruct (is_open (st_type st)) eqn:O.
  { apply opens_iff in O. apply FRESH; [left; exact O|reflexivity]. }
  destruct (is_adv (st_type st)) eqn:AD.
  { apply KEEP; [reflexivity|]. destruct (is_close (st_type st)) eqn:C; [destruct (close_not_open _ C); congruence|reflexivity]. }
  destruct (is_close (st_type st)) eqn:C.
  { assert (CL : closes_loop st) by (apply closes_iff; exact C). destruct (OK k st SK) as (_ & X). destruct (X CL) as ((en & n & EE & PI) & j & o & J & E & OO & NL).
    rewrite (OPN j o J E OO NL). destruct (Z.eqb_spec (num j) (-1)) as [Y|_]; [unfold num in Y; lia|].
    rewrite L3. assert (O' : is_open (st_type st) || is_adv (st_type st) = false) by (rewrite O, AD; reflexivity). rewrite (n_seqs_close st O' C). cbn [nums_at seq map].
    assert (JL : (j < length steps)%nat) by (apply nth_error_Some; congruence). destruct (A j o E) as (pj & _ & _ & GJ). fold (num j) in GJ. rewrite GJ.
    destruct (nums_at_first (0 + Z.of_nat (first_seq steps j)) (n_seqs o)) as [r ->].
    unfold loop_count, py_int. rewrite EE, PI. cbn [bind]. destruct (FRESH (-1)%Z) as (seqs & ->).
    - right. exact CL.
    - intros OS. apply opens_iff in OS. congruence.
    - cbn [bind]. eauto. }
  assert (PH : physical st) by (split; [rewrite bookkeeping_iff, O, AD; discriminate|rewrite closes_iff, C; discriminate]).
  destruct (OK k st SK) as (X & _). destruct (X PH) as (CO & LE & LR & EN & RP).
  rewrite L3. rewrite nums_at_length by (rewrite (n_seqs_physical st PH); destruct (st_limits st); lia).
  rewrite (parts_length _ _ _ L2), Nat.eqb_refl. cbn [negb].
  assert (GF : forall en, In en (the_ends st) -> end_ok en /\ goto_free nums (num k) lb (offset + Z.of_nat (length steps) + 1) e en).
  { intros en I. destruct (EN en I) as (E1 & g & P & G). split; [exact E1|]. exists g. split; [exact P|].
    assert (KL : (k < length steps)%nat) by (apply nth_error_Some; congruence).
    destruct G as [-> |[-> |(m & M & -> & NL)]].
    - unfold num. split; [unfold num in LB; lia|]. split; [left; lia|]. left. lia.
    - split; [unfold num in LB; lia|]. split; [right; reflexivity|]. right. left. reflexivity.
    - split; [|split; [left; lia|]].
      + destruct (le_lt_dec m k) as [Y|Y]; [apply (LBM m Y NL)|]. unfold num in LB. lia.
      + right. right. destruct (nth_error steps m) as [sm|] eqn:SM; [|apply nth_error_None in SM; lia]. destruct (A m sm SM) as (pm & _ & _ & GM). rewrite GM.
        destruct (nums_at_first (0 + Z.of_nat (first_seq steps m)) (n_seqs sm)) as [r ->]. eauto. }
  assert (SP : split_step st (num k) = Ok parts) by (unfold parts_of in L2; rewrite O, AD, C in L2; exact L2).
  destruct (parts_total blank nums (num k) lb (offset + Z.of_nat (length steps) + 1) e (combine (nums_at (0 + Z.of_nat (first_seq steps k)) (n_seqs st)) parts)) as (ds & ->).
  { intros q part I. apply in_combine_r in I. destruct (split_cases _ _ _ SP) as [(NL & ->)|(ls & lim & opp & oper & p1 & p2 & LS & -> & OP & G & TY & (T1 & M1 & V1 & R1 & E1) & (T2 & M2 & V2 & R2 & E2))].
    - destruct I as [<-|[]]. apply part_total; try assumption. destruct CO as [(T & _)|(T & opp & OP & N & _)]; [left; exact T|]. right. split; [exact T|]. split; [|exact N].
      destruct OP as [(-> & _)|(-> & _)]; auto.
    - destruct CO as [(_ & NL)|(T & opp' & OP' & N & HL)]; [congruence|]. destruct (HL ls LS) as (lim' & G' & NLIM).
      assert (opp' = opp) by (destruct OP as [(a & b)|(a & b)], OP' as [(c & d)|(c & d)]; congruence). subst opp'. rewrite G in G'. injection G' as <-.
      assert (GOTO : goto_free nums (num k) lb (offset + Z.of_nat (length steps) + 1) e {| e_type := opp; e_oper := oper; e_value := lim; e_step := zfill 3 (str_int (num k + 1)) |}).
      { exists (num k + 1)%Z. cbn [e_step]. assert (KL : (k < length steps)%nat) by (apply nth_error_Some; congruence).
        split; [apply zfill_int; unfold num; lia|]. split; [lia|]. split; [left; unfold num; lia|]. left. reflexivity. }
      destruct I as [<-|[<-|[]]]; apply part_total.
      + rewrite T1, M1, V1. right. split; [exact T|]. split; [destruct OP as [(-> & _)|(-> & _)]; auto|exact N].
      + rewrite E1. cbn. lia.
      + rewrite R1. exact LR.
      + rewrite E1. intros en [<-|[]]. split; [|exact GOTO]. right. cbn [e_type e_oper e_value]. split; [destruct OP as [(_ & ->)|(_ & ->)]; auto|]. split; [destruct TY as [(_ & ->)|(_ & ->)]; auto|exact NLIM].
      + rewrite R1. exact RP.
      + rewrite T2, M2, V2. right. split; [exact T|]. split; [destruct OP as [(_ & ->)|(_ & ->)]; auto|exact NLIM].
      + rewrite E2. exact LE.
      + rewrite R2. exact LR.
      + rewrite E2. exact GF.
      + rewrite R2. exact RP. }
  cbn [bind]. destruct (KEEP eq_refl eq_refl) as (seqs & ->). cbn [bind]. eauto.
Qed.
End Total.
Theorem converts blank steps offset e : (0 <= offset)%Z -> (offset + Z.of_nat (length steps) < e)%Z ->
  (forall k st, nth_error steps k = Some st -> step_ok steps offset e k st) ->
  exists seqs nums, convert_steps_to_seqs blank steps offset e = Ok (seqs, nums).
Proof.
  intros OFF END OK. unfold convert_steps_to_seqs.
  destruct (number_total steps (offset + 1) 0) as ([nums l] & N).
  { intros k st E. unfold parts_of. destruct (is_open (st_type st) || is_adv (st_type st)) eqn:B; [eauto|]. destruct (is_close (st_type st)) eqn:C; [eauto|].
    assert (PH : physical st) by (split; [rewrite bookkeeping_iff, B; discriminate|rewrite closes_iff, C; discriminate]).
    apply split_total; [exact PH|]. apply (OK k st E). exact PH. }
  rewrite N. cbn [bind fst snd].
  destruct (pass_total blank steps offset e OFF END OK nums l N l 0 offset (-1)%Z) as (seqs & P).
  - reflexivity.
  - lia.
  - intros m M _. lia.
  - intros j o J. lia.
  - replace (offset + 1 + Z.of_nat 0)%Z with (offset + 1)%Z in P by lia. rewrite P. cbn [bind]. eauto.
Qed.
