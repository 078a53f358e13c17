(** Arbin schedules: C38, C39, C67, C68. *)
From Verif Require Import Py Num Model_Arbin Spec_Numeral Spec_Arbin Proofs_Diagnostic Proofs_Arbin Proofs_Arbin_Set.

(** C38.  A schedule of sections, each with at least one setting of its own, is read
    back with the same settings; if settings come before inner sections it is the
    same dictionary, order included. *)
Theorem C38_schedules_round_trip_partial kvs : tidy_schedule kvs ->
  exists text s', schedule_text (Dict kvs) = Ok text /\ schedule_of text = Ok s' /\
    (forall p v, holds s' p v <-> holds (Dict kvs) p v) /\ (ordered kvs -> s' = Dict kvs).
Proof.
  intro T. destruct (reload kvs T) as (text & W & R). exists text, (arrange (Dict kvs)). split; [exact W|]. split; [exact R|]. split; [apply arrange_holds|].
  intro O. exact (arrange_ordered _ kvs eq_refl O).
Qed.
(** Finding: a section that only contains sections is written as a heading followed by
    an empty line, and reading that fails with ValueError. *)
Theorem C38_inner_sections_only_refuted :
  exists kvs text, schedule_text (Dict kvs) = Ok text /\ schedule_of text = Err ValueError /\
    kvs = [("Schedule", Dict [("Step0", Dict [("m_szLabel", Leaf "CC1")])])]%string.
Proof. eexists _, _. split; [|split; [|reflexivity]]; vm_compute; reflexivity. Qed.
(** Finding: a setting outside of all sections is not written. *)
Theorem C38_loose_settings_refuted :
  exists kvs text s', schedule_text (Dict kvs) = Ok text /\ schedule_of text = Ok s' /\
    holds (Dict kvs) ["Version"]%string "7" /\ ~ holds s' ["Version"]%string "7".
Proof.
  exists [("Version", Leaf "7"); ("Global", Dict [("a", Leaf "1")])]%string. eexists _, _. split; [vm_compute; reflexivity|]. split; [vm_compute; reflexivity|]. split.
  - eapply holds_in; [left; reflexivity|constructor].
  - intro H. inversion H as [|? ? ? ? ? I _]; subst. destruct I as [I|[]]. discriminate I.
Qed.
(** Finding: an underscore in the name of a section starts an inner section when read. *)
Theorem C38_underscore_refuted :
  exists kvs text, schedule_text (Dict kvs) = Ok text /\ kvs = [("Step_1", Dict [("a", Leaf "1")])]%string /\
    schedule_of text = Ok (Dict [("Step", Dict [("1", Dict [("a", Leaf "1")])])])%string.
Proof. eexists _, _. split; [|split; [reflexivity|]]; vm_compute; reflexivity. Qed.

(** C39.  In mode 'all' every labelled step gets the setting and nothing else changes ... *)
Theorem C39_all_labelled_steps s names label key value :
  distinct s -> steps_are s names -> plain_names names -> avoids ["."]%char key ->
  exists s', set_labelled_steps s label key value false = Ok s' /\ steps_are s' names /\
    updates s (fun p v => exists k, labelled s label k /\ p = ["Schedule"; k; key]%string /\ v = value) s'.
Proof. intros D SA PN AY. destruct (set_all_labelled s names label key value D SA PN AY) as (s' & E & _ & SA' & U). eauto. Qed.
(** ... in mode 'first' the first one. *)
Theorem C39_first_labelled_step s names label key value :
  distinct s -> steps_are s names -> plain_names names -> avoids ["."]%char key ->
  exists s', set_labelled_steps s label key value true = Ok s' /\ steps_are s' names /\
    updates s (fun p v => exists k, first_labelled s names label k /\ p = ["Schedule"; k; key]%string /\ v = value) s'.
Proof. intros D SA PN AY. destruct (set_first_labelled s names label key value D SA PN AY) as (s' & E & _ & SA' & U). eauto. Qed.
Theorem C39_without_steps kvs label key value mode : (forall n, ~ In ("Schedule"%string, n) kvs) -> set_labelled_steps (Dict kvs) label key value mode = Err KeyError.
Proof.
  intro H. unfold set_labelled_steps, schedule_keys. destruct (sget kvs "Schedule") as [n|] eqn:G; [|reflexivity]. destruct (H n).
  unfold sget in G. clear H. induction kvs as [|[a b] kvs IH]; [discriminate|]. cbn [d_get] in G. destruct (String.eqb_spec "Schedule" a) as [<-|]; [injection G as ->; left; reflexivity|right; apply IH; exact G].
Qed.

(** C67.  set_labelled_limits changes the comparison and the value of the limits that
    stop a labelled step on the variable, in every labelled step, and nothing else. *)
Theorem C67_labelled_limits s names label var comp value :
  distinct s -> steps_are s names -> plain_names names -> (forall k, labelled s label k -> limits_complete s k) ->
  exists s', set_labelled_limits s label var comp value = Ok s' /\ steps_are s' names /\
    updates s (fun p v => exists k l, labelled s label k /\ stops_on s k l var /\
      (p = ["Schedule"; k; l; "Equation0_szCompareSign"]%string /\ v = comp \/ p = ["Schedule"; k; l; "Equation0_szRight"]%string /\ v = value)) s'.
Proof. intros D SA PN LC. destruct (set_limits s names label var comp value D SA PN LC) as (s' & E & _ & SA' & U & _). eauto. Qed.

(** C68.  from_fast_charge: the current of the first step labelled CC1, the capacity
    limits of the steps labelled CC1, the current of the first step labelled CC2. *)
Theorem C68_fast_charge s names cc1 cap cc2 :
  distinct s -> steps_are s names -> plain_names names -> (forall k, labelled s "CC1" k -> limits_complete s k) ->
  exists s' t1 t2 t3, from_fast_charge cc1 cap cc2 s = Ok s' /\ steps_are s' names /\ to_three_decimals t1 cc1 /\ to_three_decimals t2 cap /\ to_three_decimals t3 cc2 /\
    updates s (fun p v =>
      (exists k, first_labelled s names "CC1" k /\ p = ["Schedule"; k; "m_szCtrlValue"]%string /\ v = t1) \/
      (exists k l, labelled s "CC1" k /\ stops_on s k l "PV_CHAN_Charge_Capacity" /\
         (p = ["Schedule"; k; l; "Equation0_szCompareSign"]%string /\ v = ">"%string \/ p = ["Schedule"; k; l; "Equation0_szRight"]%string /\ v = t2)) \/
      (exists k, first_labelled s names "CC2" k /\ p = ["Schedule"; k; "m_szCtrlValue"]%string /\ v = t3)) s'.
Proof. exact (fast_charge s names cc1 cap cc2). Qed.

(** ** Concrete cases *)
Definition limit0 (right : string) : list (string * node) :=
  [("m_bStepLimit", Leaf "1"); ("Equation0_szLeft", Leaf "PV_CHAN_Charge_Capacity"); ("Equation0_szCompareSign", Leaf ">="); ("Equation0_szRight", Leaf right)]%string.
Definition step (label value : string) : list (string * node) :=
  [("m_szLabel", Leaf label); ("m_szCtrlValue", Leaf value); ("Limit0", Dict (limit0 "1"))]%string.
Definition sample : list (string * node) :=
  [("Global", Dict [("name", Leaf "x=y z")]); ("Schedule", Dict [("n", Leaf "3"); ("Step0", Dict (step "CC1" "2")); ("Step1", Dict (step "CC2" "4")); ("Step2", Dict (step "CC1" "2"))])]%string.
Lemma lit_avoids cs s : forallb (fun c => negb (existsb (Ascii.eqb c) cs)) (list_ascii_of_string s) = true -> avoids cs s.
Proof.
  intros H c I J. rewrite forallb_forall in H. apply H in I. apply negb_true_iff in I. assert (existsb (Ascii.eqb c) cs = true); [|congruence].
  apply existsb_exists. exists c. split; [exact J|apply Ascii.eqb_refl].
Qed.
Lemma lit_first s : match s with String c _ => is_space c = false | EmptyString => True end -> no_blank_first s.
Proof. intros H c r -> I. apply is_space_iff in I. congruence. Qed.
Lemma lit_last s : match rev (list_ascii_of_string s) with c :: _ => is_space c = false | [] => True end -> no_blank_last s.
Proof.
  intros H a c -> I. apply is_space_iff in I. assert (E : list_ascii_of_string (a ++ String c "") = list_ascii_of_string a ++ [c]).
  { clear. induction a as [|x a IH]; [reflexivity|]. cbn. rewrite IH. reflexivity. }
  rewrite E, rev_app_distr in H. cbn in H. congruence.
Qed.
Ltac names := repeat match goal with
  | |- _ /\ _ => split
  | |- section_name _ => split; [discriminate|apply lit_avoids; reflexivity]
  | |- setting_name _ => split; [apply lit_avoids; reflexivity|apply lit_first; reflexivity]
  | |- setting_value _ => split; [apply lit_avoids; reflexivity|apply lit_last; reflexivity]
  | |- NoDup _ => repeat (apply NoDup_cons; [cbn; intuition discriminate|]); apply NoDup_nil
  | |- exists k v, In _ _ => eexists _, _; left; reflexivity
  | |- forall k v, In _ _ -> _ => intros ? ? ?; repeat match goal with H : In _ _ |- _ => destruct H as [H|H]; [try discriminate H; injection H as <- <-|] | H : In _ [] |- _ => destruct H end
  end.
Lemma limit_tidy r : setting_value r -> tidy (limit0 r).
Proof. intro R. constructor; names; try exact R. Qed.
Lemma step_tidy l v : setting_value l -> setting_value v -> tidy (step l v).
Proof. intros L V. constructor; names; try assumption. apply limit_tidy. names. Qed.
Example sample_tidy : tidy_schedule sample /\ ordered sample.
Proof.
  split.
  - split; [names|]. intros k n [H|[H|[]]]; injection H as <- <-; (split; [names|]); eexists; (split; [reflexivity|]).
    + constructor; names.
    + constructor; names; apply step_tidy; names.
  - assert (OL : forall r, ordered (limit0 r)).
    { intro r. rewrite <- (app_nil_r (limit0 r)). constructor; [|intros k n []]. names; eauto. }
    assert (OS : forall l v, ordered (step l v)).
    { intros l v. change (step l v) with ([("m_szLabel", Leaf l); ("m_szCtrlValue", Leaf v)]%string ++ [("Limit0"%string, Dict (limit0 "1"))]). constructor; names; eauto. }
    change sample with ([] ++ sample). constructor; [intros k n []|]. intros k n [H|[H|[]]]; injection H as <- <-; eexists; (split; [reflexivity|]).
    + change [("name", Leaf "x=y z")]%string with ([("name"%string, Leaf "x=y z")] ++ []). constructor; [|intros k n []]. names; eauto.
    + match goal with |- ordered (?a :: ?r) => change (a :: r) with ([a] ++ r) end. constructor; names; eauto.
Qed.
Example sample_text : schedule_text (Dict sample) = Ok (join crlf
  ["[Global]"; "name=x=y z"; "[Schedule]"; "n=3";
   "[Schedule_Step0]"; "m_szLabel=CC1"; "m_szCtrlValue=2"; "[Schedule_Step0_Limit0]"; "m_bStepLimit=1"; "Equation0_szLeft=PV_CHAN_Charge_Capacity"; "Equation0_szCompareSign=>="; "Equation0_szRight=1";
   "[Schedule_Step1]"; "m_szLabel=CC2"; "m_szCtrlValue=4"; "[Schedule_Step1_Limit0]"; "m_bStepLimit=1"; "Equation0_szLeft=PV_CHAN_Charge_Capacity"; "Equation0_szCompareSign=>="; "Equation0_szRight=1";
   "[Schedule_Step2]"; "m_szLabel=CC1"; "m_szCtrlValue=2"; "[Schedule_Step2_Limit0]"; "m_bStepLimit=1"; "Equation0_szLeft=PV_CHAN_Charge_Capacity"; "Equation0_szCompareSign=>="; "Equation0_szRight=1"; ""])%string.
Proof. vm_compute. reflexivity. Qed.
Lemma sample_distinct : distinct (Dict sample).
Proof. apply schedule_distinct. apply sample_tidy. Qed.
Example sample_meets : distinct (Dict sample) /\ steps_are (Dict sample) ["n"; "Step0"; "Step1"; "Step2"]%string /\ plain_names ["n"; "Step0"; "Step1"; "Step2"]%string /\
  first_labelled (Dict sample) ["n"; "Step0"; "Step1"; "Step2"]%string "CC1" "Step0" /\ labelled (Dict sample) "CC1" "Step2" /\ stops_on (Dict sample) "Step2" "Limit0" "PV_CHAN_Charge_Capacity" /\
  (forall k, labelled (Dict sample) "CC1" k -> limits_complete (Dict sample) k).
Proof.
  pose proof sample_distinct as D. split; [exact D|]. split; [eexists _, _; split; [reflexivity|]; split; [right; left; reflexivity|reflexivity]|].
  split; [repeat constructor; apply lit_avoids; reflexivity|]. split.
  - exists ["n"]%string, ["Step1"; "Step2"]%string. split; [reflexivity|]. split; [apply (holds_get _ _ _ D); reflexivity|]. intros j [<-|[]] H. apply (holds_get _ _ _ D) in H. discriminate H.
  - split; [apply (holds_get _ _ _ D); reflexivity|]. split; [split; [reflexivity|split; apply (holds_get _ _ _ D); reflexivity]|].
    intros k L l sub LS. pose proof (labelled_in _ ["n"; "Step0"; "Step1"; "Step2"]%string _ _ D ltac:(eexists _, _; split; [reflexivity|]; split; [right; left; reflexivity|reflexivity]) L) as IK.
    apply (limit_section_iff _ _ _ _ D) in LS. destruct LS as [P G]. apply (holds_get _ _ _ D) in L.
    assert (X : l = "Limit0"%string /\ sub = limit0 "1").
    { destruct IK as [<-|[<-|[<-|[<-|[]]]]]; try discriminate L; cbn in G;
      repeat match type of G with context [String.eqb l ?x] => destruct (String.eqb_spec l x) as [->|]; [try discriminate P; try (injection G as <-; auto)|] end; discriminate G. }
    destruct X as [-> ->]. split; [apply lit_avoids; reflexivity|]. split; [|split].
    + intros x n I. repeat (destruct I as [I|I]; [injection I as <- <-; eauto|]). destruct I.
    + exists "1"%string. left. reflexivity.
    + intros _. eexists. right. left. reflexivity.
Qed.
Example sample_fast : from_fast_charge (18 # 10) (1 # 2) 3 (Dict sample) = Ok (Dict
  [("Global", Dict [("name", Leaf "x=y z")]); ("Schedule", Dict [("n", Leaf "3");
     ("Step0", Dict [("m_szLabel", Leaf "CC1"); ("m_szCtrlValue", Leaf "1.8"); ("Limit0", Dict [("m_bStepLimit", Leaf "1"); ("Equation0_szLeft", Leaf "PV_CHAN_Charge_Capacity"); ("Equation0_szCompareSign", Leaf ">"); ("Equation0_szRight", Leaf "0.5")])]);
     ("Step1", Dict [("m_szLabel", Leaf "CC2"); ("m_szCtrlValue", Leaf "3."); ("Limit0", Dict (limit0 "1"))]);
     ("Step2", Dict [("m_szLabel", Leaf "CC1"); ("m_szCtrlValue", Leaf "2"); ("Limit0", Dict [("m_bStepLimit", Leaf "1"); ("Equation0_szLeft", Leaf "PV_CHAN_Charge_Capacity"); ("Equation0_szCompareSign", Leaf ">"); ("Equation0_szRight", Leaf "0.5")])])])])%string.
Proof. vm_compute. reflexivity. Qed.
(** Finding: the documentation of set_labelled_limits says that only the first step with
    the label is changed. *)
Theorem C67_first_step_only_refuted :
  exists s label k1 k2, distinct s /\ k1 <> k2 /\ labelled s label k1 /\ labelled s label k2 /\
    exists s', set_labelled_limits s label "PV_CHAN_Charge_Capacity" ">" "5" = Ok s' /\
      forall k, k = k1 \/ k = k2 -> holds s ["Schedule"; k; "Limit0"; "Equation0_szRight"]%string "1" /\ holds s' ["Schedule"; k; "Limit0"; "Equation0_szRight"]%string "5".
Proof.
  pose proof sample_distinct as D. exists (Dict sample), "CC1"%string, "Step0"%string, "Step2"%string. split; [exact D|]. split; [discriminate|].
  split; [apply (holds_get _ _ _ D); reflexivity|]. split; [apply (holds_get _ _ _ D); reflexivity|].
  destruct sample_meets as (_ & SA & PN & _ & _ & _ & LC).
  destruct (set_limits (Dict sample) _ "CC1" "PV_CHAN_Charge_Capacity" ">" "5" D SA PN LC) as (s' & E & D' & _). exists s'. split; [exact E|].
  vm_compute in E. injection E as <-. intros k [K|K]; rewrite K; (split; [apply (holds_get _ _ _ D)|apply (holds_get _ _ _ D')]); reflexivity.
Qed.

Print Assumptions C38_schedules_round_trip_partial.
Print Assumptions C38_inner_sections_only_refuted.
Print Assumptions C38_loose_settings_refuted.
Print Assumptions C38_underscore_refuted.
Print Assumptions C39_all_labelled_steps.
Print Assumptions C39_first_labelled_step.
Print Assumptions C39_without_steps.
Print Assumptions C67_labelled_limits.
Print Assumptions C67_first_step_only_refuted.
Print Assumptions C68_fast_charge.
