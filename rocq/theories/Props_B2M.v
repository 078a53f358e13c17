(** C35 - C37, C64 - C66: a Biologic Modulo Bat technique converted to the steps of a
    Maccor procedure.  The vocabulary is in Spec_B2M. *)
From Verif Require Import Py Model_Text Model_Units Spec_Units Spec_Numeral Model_B2M Spec_B2M Proofs_B2M Proofs_B2M_Steps Proofs_B2M_Values.

(** C35: the steps come in one group for each sequence, each of the expected kinds;
    Loop steps lead back to the Do step of the sequence that is named. *)
Theorem C35_steps_follow_the_sequences :
  forall show seqs out, create_steps show seqs = Ok out -> well_numbered seqs -> zero_plain seqs ->
  exists groups, grouped seqs groups out /\ loops_point_back seqs groups.
Proof.
  intros show seqs out H WN ZP. destruct (passes_of _ _ _ H) as (l & w & n & blocks & PS & ->).
  exists blocks. split; [exact (steps_grouped show seqs l w n blocks PS WN ZP)|exact (steps_loop_back show seqs l w n blocks PS WN ZP)].
Qed.
(** C35: every Loop step has a Do step before it, to which it leads, with no other Do
    or Loop step in between; every Do step is led to by a Loop step. *)
Theorem C35_loops_have_their_do :
  forall show seqs out, create_steps show seqs = Ok out -> well_numbered seqs -> zero_plain seqs ->
  forall q lp, nth_error out q = Some lp -> is_loop lp ->
  exists p d en, (p < q)%nat /\ nth_error out p = Some d /\ is_do d /\ bs_ends lp = [en] /\ points_to en (Z.of_nat p + 1) /\
    forall r x, (p < r < q)%nat -> nth_error out r = Some x -> ~ is_do x /\ ~ is_loop x.
Proof.
  intros show seqs out H WN ZP. destruct (passes_of _ _ _ H) as (l & w & n & blocks & PS & ->).
  exact (loops_matched show seqs l w n blocks PS WN ZP).
Qed.
Theorem C35_dos_have_their_loop :
  forall show seqs out, create_steps show seqs = Ok out -> well_numbered seqs -> zero_plain seqs ->
  forall p d, nth_error out p = Some d -> is_do d ->
  exists q lp en, nth_error out q = Some lp /\ is_loop lp /\ bs_ends lp = [en] /\ points_to en (Z.of_nat p + 1).
Proof.
  intros show seqs out H WN ZP. destruct (passes_of _ _ _ H) as (l & w & n & blocks & PS & ->).
  exact (dos_matched show seqs l w n blocks PS WN ZP).
Qed.
(** C35: every limit leads to an existing step; "End" to the End step, "Next
    sequence" to the step after the sequence's own.  A goto leads to the step of
    the sequence that is named, except in the case [leads] names. *)
Theorem C35_limits_lead_to_their_sequences_partial :
  forall show seqs out, create_steps show seqs = Ok out -> well_numbered seqs -> zero_plain seqs ->
  exists groups, grouped seqs groups out /\
  forall i k d en, limit_of_step seqs groups i k d en ->
  exists n, points_to en n /\ (1 <= n <= Z.of_nat (length out))%Z /\ leads seqs groups i d k n.
Proof.
  intros show seqs out H WN ZP. destruct (passes_of _ _ _ H) as (l & w & n & blocks & PS & ->).
  exists blocks. split; [exact (steps_grouped show seqs l w n blocks PS WN ZP)|exact (limits_lead show seqs l w n blocks PS WN ZP)].
Qed.
(** C37: loops that are not passed over do not overlap in an accepted file. *)
Theorem C37_overlapping_loops_rejected :
  forall show seqs out, create_steps show seqs = Ok out -> well_numbered seqs ->
  forall e1 a1 r1 e2 a2 r2, loop_at seqs e1 a1 r1 -> loop_at seqs e2 a2 r2 -> r1 <> 0%Z -> r2 <> 0%Z -> (e1 < e2)%nat ->
    (a1 <= e1)%nat /\ (e1 < a2 <= e2)%nat.
Proof.
  intros show seqs out H WN. destruct (passes_of _ _ _ H) as (l & w & n & blocks & PS & ->).
  exact (disjoint_loops show seqs l w n blocks PS WN).
Qed.
(** C65: in an accepted file no limit leads back to or before a loop that is already
    done, nor into the middle of a loop from outside of it. *)
Theorem C65_accepted_gotos_are_legal :
  forall show seqs out, create_steps show seqs = Ok out -> well_numbered seqs -> zero_plain seqs ->
  forall i d k m g, works seqs i -> nth_error seqs i = Some d -> shows d "lim_nb" m -> (k < Z.to_nat m)%nat -> (k < 3)%nat ->
    shows d (lim_key k "seq") g ->
  forall e a rep, loop_at seqs e a rep -> rep <> 0%Z ->
    ((e < i)%nat -> (Z.of_nat e < g)%Z) /\ ((Z.of_nat a < g <= Z.of_nat e)%Z -> (a <= i <= e)%nat).
Proof.
  intros show seqs out H WN ZP. destruct (passes_of _ _ _ H) as (l & w & n & blocks & PS & ->).
  exact (gotos_legal show seqs l w n blocks PS WN ZP).
Qed.
(** C64: steps control, end and record by the same quantities and amounts as their
    sequences; every limit and record is converted and none is added. *)
Theorem C64_steps_say_what_the_sequences_say :
  forall show seqs out, create_steps show seqs = Ok out -> well_numbered seqs -> zero_plain seqs ->
  exists groups, grouped seqs groups out /\
  forall i d st, works seqs i -> nth_error seqs i = Some d -> working groups i st ->
    controls_the_same d st /\
    shows d "lim_nb" (Z.of_nat (length (bs_ends st))) /\ (forall k en, nth_error (bs_ends st) k = Some en -> ends_the_same show d k en) /\
    shows d "rec_nb" (Z.of_nat (length (bs_reports st))) /\ (forall k r, nth_error (bs_reports st) k = Some r -> records_the_same show d k r).
Proof.
  intros show seqs out H WN ZP. destruct (passes_of _ _ _ H) as (l & w & n & blocks & PS & ->).
  exists blocks. split; [exact (steps_grouped show seqs l w n blocks PS WN ZP)|]. intros i d st WK D W.
  destruct (says_the_same show seqs l w n blocks PS WN ZP i d st WK D W) as (nums & sts & en & C).
  destruct (create_step_says _ _ _ _ _ _ C) as (A & _ & B1 & _ & B2 & B3 & _ & B4). auto.
Qed.
(** C64: the repeat count of a loop is written, but not to the value of the end condition. *)
Theorem C64_loop_counts_partial :
  forall show seqs out, create_steps show seqs = Ok out -> well_numbered seqs -> zero_plain seqs ->
  exists groups, grouped seqs groups out /\
  forall e a rep, repeats seqs e a -> loop_at seqs e a rep ->
  exists ad lp en t, nth_error groups e = Some [ad; lp] /\ bs_ends lp = [en] /\ be_type en = "Loop Cnt"%string /\ be_value en = ""%string /\
    be_stepvalue en = Some t /\ integer t rep.
Proof.
  intros show seqs out H WN ZP. destruct (passes_of _ _ _ H) as (l & w & n & blocks & PS & ->).
  exists blocks. split; [exact (steps_grouped show seqs l w n blocks PS WN ZP)|exact (loop_counts show seqs l w n blocks PS WN ZP)].
Qed.
(** C36: discharging sequences become Dischrge steps. *)
Theorem C36_discharge_kept_partial :
  forall show seqs out, create_steps show seqs = Ok out -> well_numbered seqs -> zero_plain seqs ->
  exists groups, grouped seqs groups out /\
  forall i d st, works seqs i -> nth_error seqs i = Some d -> working groups i st -> ~ text_of d "ctrl_type" "Rest" ->
    text_of d "charge/discharge" "Discharge" -> bs_type st = "Dischrge "%string.
Proof.
  intros show seqs out H WN ZP. destruct (passes_of _ _ _ H) as (l & w & n & blocks & PS & ->).
  exists blocks. split; [exact (steps_grouped show seqs l w n blocks PS WN ZP)|]. intros i d st WK D W NR _.
  destruct (says_the_same show seqs l w n blocks PS WN ZP i d st WK D W) as (nums & sts & en & C).
  pose proof C as C0. destruct (create_step_says _ _ _ _ _ _ C) as (_ & (cd & CD & IC & IT) & _).
  cbn in IT. destruct IT as [IT|[IT|[]]]; [auto|]. exfalso. apply NR. clear -C0 IT.
  unfold create_step in C0. destruct (int_fld d "Ns") as [ns|]; cbn [bind] in C0; [|discriminate].
  destruct (fld d "ctrl_type") as [ty|] eqn:TY; cbn [bind] in C0; [|discriminate].
  destruct (fld d "ctrl1_val") as [v|]; cbn [bind] in C0; [|discriminate]. destruct (fld d "ctrl1_val_unit") as [u|]; cbn [bind] in C0; [|discriminate].
  destruct (fld d "ctrl1_val_vs") as [vs|]; cbn [bind] in C0; [|discriminate]. destruct (d_get Z.eqb nums ns); cbn [bind] in C0; [|discriminate].
  destruct (fld d "charge/discharge") as [cd|]; cbn [bind] in C0; [|discriminate].
  destruct (b_direction cd) as [dir|] eqn:DR; cbn [bind] in C0; [|discriminate].
  assert (DD : dir <> "  Rest  "%string) by (unfold b_direction in DR; destruct (_ && _); [discriminate|]; injection DR as <-; destruct (String.eqb cd " Charge "); discriminate).
  destruct (b_control ty vs v u dir) as [[[x y] z0]|] eqn:CT; cbn [bind fst snd] in C0; [|discriminate].
  assert (TX : bs_type st = x).
  { destruct (int_fld d "lim_nb"); cbn [bind] in C0; [|discriminate]. destruct (negb _) in C0; [discriminate|]. destruct (mapM _ _) in C0; cbn [bind] in C0; [|discriminate].
    destruct (int_fld d "rec_nb"); cbn [bind] in C0; [|discriminate]. destruct (negb _) in C0; [discriminate|]. destruct (mapM _ _) in C0; cbn [bind] in C0; [|discriminate].
    injection C0 as <-. reflexivity. }
  unfold b_control in CT.
  destruct (String.eqb_spec ty "CC"). { destruct (b_convert_current v u); cbn in CT; [|discriminate]. exfalso. congruence. }
  destruct (String.eqb ty "CV" && String.eqb vs "Ref"). { destruct (b_convert_voltage v u); cbn in CT; [|discriminate]. exfalso. congruence. }
  destruct (String.eqb ty "CV"); [discriminate|].
  destruct (String.eqb ty "CR"). { destruct (b_convert_resistance v u); cbn in CT; [|discriminate]. exfalso. congruence. }
  destruct (String.eqb ty "CP"). { destruct (b_convert_power v u); cbn in CT; [|discriminate]. exfalso. congruence. }
  destruct (String.eqb_spec ty "Rest") as [->|]; [|discriminate]. apply fld_text. exact TY.
Qed.
(** C66: values written for Biologic and read back are the same number. *)
Theorem C66_volts_come_back :
  forall s x, decimal s x -> (exists z, x * (10 # 1) ^ 6 == inject_Z z) ->
  exists t u r, convert_volts s = Ok (t, u) /\ b_convert_voltage t u = Ok r /\ decimal r x.
Proof. exact volts_back. Qed.
Theorem C66_amps_come_back :
  forall s x, decimal s x -> (exists z, x * (10 # 1) ^ 15 == inject_Z z) ->
  exists t u r, convert_amps s = Ok (t, u) /\ b_convert_current t u = Ok r /\ decimal r x.
Proof. exact amps_back. Qed.
Theorem C66_watts_come_back :
  forall s x, decimal s x -> (exists z, x * (10 # 1) ^ 9 == inject_Z z) ->
  exists t u r, convert_watts s = Ok (t, u) /\ b_convert_power t u = Ok r /\ decimal r x.
Proof. exact watts_back. Qed.
(** C66: times of whole hundredths of a second come back. *)
Theorem C66_times_come_back :
  forall show text hs ms ss h m sec,
  str_split ":" text = [hs; ms; ss] -> field_is hs h -> field_is ms m -> field_is ss sec ->
  whole h -> whole m -> (exists z, sec * 100 == inject_Z z) ->
  exists t u v, convert_time text = Ok (t, u) /\ py_float t = Ok v /\
    (shown_plainly show v -> exists r, b_convert_time show v u = Ok r /\ time_text r (h * 3600 + m * 60 + sec)).
Proof. exact time_back. Qed.
(** Finding (C66): a resistance never comes back; the units are spelled differently. *)
Theorem C66_ohms_come_back_refuted : forall s t u, convert_ohms s = Ok (t, u) -> b_convert_resistance t u = B2M_Exception.
Proof. exact ohms_not_back. Qed.

(** * Concrete cases *)
Definition work_seq (ns ty cd : string) (lims : list (string * string)) : bseq :=
  [("Ns", ns); ("ctrl_type", ty); ("ctrl1_val", "50.000"); ("ctrl1_val_unit", "mA"); ("ctrl1_val_vs", ""); ("ctrl_seq", "0"); ("ctrl_repeat", "0");
   ("charge/discharge", cd); ("lim_nb", if match lims with [] => true | _ => false end then "0" else "1"); ("rec_nb", "1");
   ("rec1_type", "Time"); ("rec1_value", "10.000"); ("rec1_value_unit", "s")]%string ++ lims.
Definition volt_limit (action seq : string) : list (string * string) :=
  [("lim1_type", "Ecell"); ("lim1_comp", ">"); ("lim1_value", "4.200"); ("lim1_value_unit", "V"); ("lim1_action", action); ("lim1_seq", seq)]%string.
Definition loop_seq (ns to count : string) : bseq :=
  [("Ns", ns); ("ctrl_type", "Loop"); ("ctrl_seq", to); ("ctrl_repeat", count); ("lim_nb", "0"); ("rec_nb", "0")]%string.
Lemma texts_int s z : parse_int s = Some z -> integer s z. Proof. apply is_int. Qed.
Ltac numbering := let i := fresh in let d := fresh in intros i d;
  repeat (destruct i as [|i]; [let H := fresh in intro H; injection H as <-; eexists; split; [reflexivity|apply texts_int; reflexivity]|]); let H := fresh in intro H; destruct i; discriminate H.
Ltac zeros_plain := let d := fresh in let I := fresh in let t := fresh in let T := fresh in let N := fresh in
  intros d I (t & T & N); cbn in I; repeat (destruct I as [<-|I]; [vm_compute in T; injection T as <-; first [reflexivity|exfalso; apply Proofs_Numeral.integer_iff in N; vm_compute in N; discriminate N]|]); destruct I.

(** a loop over two sequences with a forward goto out of it, a passed-over loop and an advance *)
Definition sample : list bseq :=
  [work_seq "0" "CC" "Charge" (volt_limit "Next sequence" "1"); work_seq "1" "CC" "Discharge" (volt_limit "Goto sequence" "4");
   loop_seq "2" "0" "0"; loop_seq "3" "2" "1"; work_seq "4" "Rest" "Charge" []; work_seq "5" "CC" "Discharge" (volt_limit "End" "6"); loop_seq "6" "4" "10"]%string.
Example C35_sample_numbered : well_numbered sample /\ zero_plain sample.
Proof. split; [numbering|zeros_plain]. Qed.
Definition show1 (x : Q) : string := if Qeq_bool x (42 # 10) then "4.2"%string else "10.0"%string.
Example C35_sample_converts : exists out, create_steps show1 sample = Ok out /\
  map bs_type out = ["Dischrge "; "Dischrge "; "AdvCycle"; "  Do 1  "; "  Rest  "; "Dischrge "; "AdvCycle"; " Loop 1 "; "  End   "]%string /\
  map (fun s => map be_step (bs_ends s)) out = [["002"]; ["005"]; []; []; []; ["009"]; []; ["004"]; []]%string /\
  map (fun s => map be_value (bs_ends s)) out = [["4.2"]; ["4.2"]; []; []; []; ["4.2"]; []; [""]; []]%string /\
  map bs_value out = ["50.000E-3"; "50.000E-3"; ""; ""; ""; "50.000E-3"; ""; ""; ""]%string.
Proof. eexists. split; [vm_compute; reflexivity|]. repeat split. Qed.
Example C37_sample_loops : loop_at sample 3 2 1 /\ loop_at sample 6 4 10 /\ ~ exists a, loop_at sample 5 a 1.
Proof.
  split; [|split].
  - eexists. split; [reflexivity|]. split; [reflexivity|]. split; (eexists; split; [reflexivity|apply texts_int; reflexivity]).
  - eexists. split; [reflexivity|]. split; [reflexivity|]. split; (eexists; split; [reflexivity|apply texts_int; reflexivity]).
  - intros (a & d & D & T & _). injection D as <-. discriminate T.
Qed.
Example C37_overlap_rejected : forall show, exists e, create_steps show
  [work_seq "0" "Rest" "Charge" []; work_seq "1" "Rest" "Charge" []; loop_seq "2" "0" "3"; work_seq "3" "Rest" "Charge" []; loop_seq "4" "1" "3"]%string = Err e.
Proof. intro show. eexists. vm_compute. reflexivity. Qed.
Example C65_goto_into_loop_rejected : forall show, create_steps show
  [work_seq "0" "CC" "Charge" (volt_limit "Goto sequence" "2"); work_seq "1" "Rest" "Charge" []; work_seq "2" "Rest" "Charge" []; loop_seq "3" "1" "3"]%string = B2M_Exception.
Proof. intro show. vm_compute. reflexivity. Qed.
Example C64_shown : shown_plainly show1 (42 # 10).
Proof.
  intros y Y. unfold show1. apply Qeq_bool_iff in Y. rewrite Y. split.
  - apply Proofs_Numeral.decimal_iff. eexists. split; [vm_compute; reflexivity|]. vm_compute. reflexivity.
  - intros c I. cbn in I. repeat (destruct I as [<-|I]; [split; discriminate|]). destruct I.
Qed.
Example C66_time_case : exists t u v, convert_time "00:00:0.25" = Ok (t, u) /\ py_float t = Ok v /\ b_convert_time show1 v u = Ok "00:00:0.25"%string.
Proof. eexists _, _, _. split; [vm_compute; reflexivity|]. split; vm_compute; reflexivity. Qed.

(** Finding (C35): the set passed as the loop starts (747) holds step numbers, and 438
    looks a sequence number up in it.  Here the forward goto to sequence 4 leads
    to the Loop step before it, because a loop starts at step number 4. *)
Definition collision : list bseq :=
  [work_seq "0" "CC" "Charge" (volt_limit "Goto sequence" "4"); work_seq "1" "CC" "Charge" []; work_seq "2" "CC" "Charge" [];
   loop_seq "3" "2" "5"; work_seq "4" "Rest" "Charge" []]%string.
Theorem C35_gotos_reach_their_sequence_refuted :
  well_numbered collision /\ zero_plain collision /\
  forall show, exists out st en lp, create_steps show collision = Ok out /\ nth_error out 0 = Some st /\ nth_error (bs_ends st) 0 = Some en /\
    points_to en 6 /\ nth_error out 5 = Some lp /\ is_loop lp /\
    (forall p x, nth_error out p = Some x -> bs_type x = "  Rest  "%string -> p = 6%nat).
Proof.
  split; [numbering|]. split; [zeros_plain|]. intro show. eexists _, _, _, _. split; [vm_compute; reflexivity|]. split; [reflexivity|]. split; [reflexivity|].
  split; [apply texts_int; vm_compute; reflexivity|]. split; [reflexivity|]. split; [reflexivity|].
  intros p x H T. do 8 (destruct p as [|p]; [injection H as <-; first [reflexivity|discriminate T]|]). destruct p; discriminate H.
Qed.
(** Finding (C35): for the same reason a forward goto to the start of a loop leads past its Do step. *)
Definition into_loop : list bseq :=
  [work_seq "0" "CC" "Charge" (volt_limit "Goto sequence" "2"); work_seq "1" "CC" "Charge" []; work_seq "2" "Rest" "Charge" []; loop_seq "3" "2" "5"]%string.
Theorem C35_forward_gotos_enter_loops_at_their_do_refuted :
  well_numbered into_loop /\ zero_plain into_loop /\
  forall show, exists out st en d, create_steps show into_loop = Ok out /\ nth_error out 0 = Some st /\ nth_error (bs_ends st) 0 = Some en /\
    points_to en 4 /\ nth_error out 2 = Some d /\ is_do d.
Proof.
  split; [numbering|]. split; [zeros_plain|]. intro show. eexists _, _, _, _. split; [vm_compute; reflexivity|]. split; [reflexivity|]. split; [reflexivity|].
  split; [apply texts_int; vm_compute; reflexivity|]. split; reflexivity.
Qed.
(** Finding (C36): no sequence is ever converted to a Charge step (321 compares with
    " Charge "). *)
Theorem C36_direction_kept_refuted :
  well_numbered [work_seq "0" "CC" "Charge" []] /\
  forall show, exists st, create_steps show [work_seq "0" "CC" "Charge" []] = Ok [st; end_step] /\ bs_type st = "Dischrge "%string.
Proof. split; [numbering|]. intro show. eexists. split; [vm_compute; reflexivity|reflexivity]. Qed.
(** Finding (C64): the loop count is not where Maccor looks for it (259). *)
Theorem C64_loop_counts_refuted :
  forall show, exists out lp en, create_steps show [work_seq "0" "Rest" "Charge" []; loop_seq "1" "0" "5"]%string = Ok out /\
    In lp out /\ is_loop lp /\ bs_ends lp = [en] /\ be_type en = "Loop Cnt"%string /\ ~ exists z, integer (be_value en) z.
Proof.
  intro show. eexists _, _, _. split; [vm_compute; reflexivity|]. split; [do 3 right; left; reflexivity|]. split; [reflexivity|]. split; [reflexivity|]. split; [reflexivity|].
  intros (z & I). apply Proofs_Numeral.integer_iff in I. discriminate I.
Qed.
(** Finding (C66): a current limit as the other converter writes it ("|I|") is always rejected. *)
Theorem C66_current_limits_come_back_refuted :
  forall show nums sts sn en ns d k, text_of d (nth_key "lim" k "_type") "|I|" ->
  exists e, create_end show nums sts sn en ns d k = Err e.
Proof.
  intros show nums sts sn en ns d k T. unfold create_end. unfold fld at 1. unfold text_of in T. rewrite T. cbn [bind].
  destruct (fld d (nth_key "lim" k "_comp")); cbn [bind]; [|eauto]. destruct (fld d (nth_key "lim" k "_value_unit")); cbn [bind]; [|eauto].
  destruct (fld d (nth_key "lim" k "_action")); cbn [bind]; [|eauto]. destruct (fld d (nth_key "lim" k "_value")); cbn [bind]; [|eauto].
  destruct (py_float _); cbn [bind]; [|eauto]. destruct (int_fld _ _); cbn [bind]; [|eauto]. destruct (b_oper _ _); cbn [bind]; [|eauto]. cbn. eauto.
Qed.

Lemma last_error_app {A} (l : list A) x : last_error (l ++ [x]) = Some x.
Proof. induction l as [|a [|b l] IH]; [reflexivity | reflexivity | exact IH]. Qed.
(** The sequences that are converted are those of the only technique of the file, a Modulo Bat
    technique; one blank sequence at the end is left out. *)
Theorem C35_sequences_of_the_file : forall techniques seqs,
  get_seqs techniques = Ok seqs <->
  exists all, techniques = [("1", ("Modulo Bat", all))]%string /\
    ((exists blank, all = seqs ++ [blank] /\ text_of blank "Ns" "") \/
     (all = seqs /\ (seqs = [] \/ exists others final t, seqs = others ++ [final] /\ text_of final "Ns" t /\ t <> ""%string))).
Proof.
  intros T seqs. split.
  - unfold get_seqs. destruct T as [|[k [ty all]] [|x T]]; try discriminate. cbn [sget d_get]. unfold sget. cbn [d_get].
    destruct (String.eqb_spec "1" k) as [<-|]; [|discriminate]. destruct (String.eqb_spec ty "Modulo Bat") as [->|]; [|discriminate]. cbn [negb].
    intros H. exists all. split; [reflexivity|]. destruct (rev all) as [|l r] eqn:R.
    + assert (all = []) as -> by (rewrite <- (rev_involutive all), R; reflexivity). cbn in H. injection H as <-. right. auto.
    + assert (E : all = rev r ++ [l]) by (rewrite <- (rev_involutive all), R; reflexivity). rewrite E in *.
      rewrite last_error_app in H. unfold fld in H. destruct (sget l "Ns") as [ns|] eqn:N; [|discriminate]. cbn [bind] in H.
      destruct (String.eqb_spec ns "") as [->|NE]; injection H as <-.
      * left. exists l. split; [|exact N]. rewrite app_length. cbn [length]. replace (length (rev r) + 1 - 1)%nat with (length (rev r)) by lia. rewrite firstn_app, firstn_all, Nat.sub_diag. cbn. rewrite app_nil_r. reflexivity.
      * right. split; [reflexivity|]. right. exists (rev r), l, ns. auto.
  - intros (all & -> & [(blank & -> & B)|(-> & [->|(o & f & t & -> & F & N)])]); unfold get_seqs, sget; cbn [d_get]; rewrite !String.eqb_refl; cbn [negb].
    + rewrite last_error_app. unfold fld. unfold text_of in B. rewrite B. cbn [bind]. rewrite String.eqb_refl, app_length. cbn [length].
      replace (length seqs + 1 - 1)%nat with (length seqs) by lia. rewrite firstn_app, firstn_all, Nat.sub_diag. cbn. rewrite app_nil_r. reflexivity.
    + reflexivity.
    + rewrite last_error_app. unfold fld. unfold text_of in F. rewrite F. cbn [bind]. apply String.eqb_neq in N. rewrite N. reflexivity.
Qed.

Print Assumptions C35_sequences_of_the_file.
Print Assumptions C35_steps_follow_the_sequences.
Print Assumptions C35_loops_have_their_do.
Print Assumptions C35_dos_have_their_loop.
Print Assumptions C35_limits_lead_to_their_sequences_partial.
Print Assumptions C35_gotos_reach_their_sequence_refuted.
Print Assumptions C35_forward_gotos_enter_loops_at_their_do_refuted.
Print Assumptions C36_discharge_kept_partial.
Print Assumptions C36_direction_kept_refuted.
Print Assumptions C37_overlapping_loops_rejected.
Print Assumptions C64_steps_say_what_the_sequences_say.
Print Assumptions C64_loop_counts_partial.
Print Assumptions C64_loop_counts_refuted.
Print Assumptions C65_accepted_gotos_are_legal.
Print Assumptions C66_volts_come_back.
Print Assumptions C66_amps_come_back.
Print Assumptions C66_watts_come_back.
Print Assumptions C66_times_come_back.
Print Assumptions C66_ohms_come_back_refuted.
Print Assumptions C66_current_limits_come_back_refuted.
