(** Lemmas for C116-C119: the procedures that are made from templates can be written. *)
From Verif Require Import Py Num Model_Text Proofs_Text Proofs_Diagnostic Proofs_Strings Model_Arbin Spec_Arbin Proofs_Arbin Model_Procedure Model_MaccorFile Spec_MaccorFile Proofs_MaccorFile Proofs_MaccorFile_Text Proofs_MaccorFile_Read Proofs_MaccorFile_Main Proofs_MaccorFile_File Proofs_MaccorFile_Lines Proofs_MaccorFile_Plain Proofs_Datapath Proofs_Generate Spec_MaccorGen.
Local Open Scope string_scope.

(** ** Texts without blanks *)
Notation solid := visible.
Lemma solid_good s : solid s -> good_text s.
Proof.
  intro S. assert (B : forall c, In c (list_ascii_of_string s) -> ~ In c blanks).
  { intros c C X. apply is_space_iff in X. specialize (S c C). unfold is_space in X. remember (nat_of_ascii c) as n. 
    rewrite !orb_true_iff, !andb_true_iff, !Nat.leb_le, !Nat.eqb_eq in X. lia. }
  split; [intros c C; right; right; specialize (S c C); lia|]. split.
  - intros c r ->. apply B. left. reflexivity.
  - intros a c ->. apply B. rewrite list_app. apply in_or_app. right. left. reflexivity.
Qed.
Lemma solid_app a b : solid a -> solid b -> solid (a ++ b).
Proof. intros A B c C. rewrite list_app in C. apply in_app_or in C. destruct C; auto. Qed.
Lemma digits_solid ds : Forall is_digit ds -> solid (digits_text ds).
Proof.
  induction 1 as [|d ds D _ IH]; [intros ? []|]. intros c [<- | C]; [|apply IH, C]. unfold is_digit in D.
  do 10 (destruct d as [|d]; [cbn; lia|]). lia.
Qed.
Lemma hms_solid s : solid (hms s).
Proof.
  assert (T : forall z, (0 <= z)%Z -> solid (two z)). { intros z Z. unfold two. destruct (zfill_digits 2 z Z) as (ds & -> & D). apply digits_solid, D. }
  assert (C : solid ":") by (intros c [<- |[]]; cbn; lia).
  unfold hms. pose proof (Z.mod_pos_bound s 86400 ltac:(lia)) as M. apply solid_app; [apply T|apply solid_app; [exact C|apply solid_app; [apply T|apply solid_app; [exact C|apply T]]]].
  - apply Z.div_pos; lia.
  - apply Z.mod_pos_bound. lia.
  - apply Z.mod_pos_bound. lia.
Qed.

(** ** Putting a value into a step *)
Notation fine := (shaped good_text).
Notation fine_field := (shaped_field good_text).
Definition named_place (q : place) : Prop := forall s, In (K s) q -> field_name s.
Lemma in_set_nth {A} (l : list A) n x y : In y (set_nth l n x) -> y = x \/ In y l.
Proof. revert n. induction l as [|z l IH]; intros [|n]; cbn; [tauto|tauto|intros [<- |H]; auto|intros [<- |H]; auto]. destruct (IH _ H); auto. Qed.
Lemma set_nth_len {A} (l : list A) n x : length (set_nth l n x) = length l.
Proof. revert n. induction l as [|z l IH]; intros [|n]; cbn; [reflexivity|reflexivity|reflexivity|rewrite IH; reflexivity]. Qed.
Lemma sset_fine d k v : field_name k -> fine_field v -> fine (VDict d) -> fine (VDict (sset d k v)).
Proof.
  intros N V S. inversion S as [| | |? NE ND IN]; subst. constructor; [apply sset_not_nil|apply keys_sset, ND|].
  intros k' v' J. assert (X : (k', v') = (k, v) \/ In (k', v') d).
  { clear - J. unfold sset in J. induction d as [|[k0 v0] d IH]; cbn in J; [destruct J as [J|[]]; auto|]. destruct (String.eqb_spec k k0); destruct J as [J|J]; cbn; auto.
    - subst. auto.
    - destruct (IH J); auto. }
  destruct X as [X|X]; [injection X as -> ->; auto|apply IN, X].
Qed.
Lemma sget_fine d k v : fine (VDict d) -> sget d k = Some v -> fine_field v.
Proof.
  intros S G. inversion S as [| | |? NE ND IN]; subst. apply (IN k v). clear - G. unfold sget in G. induction d as [|[k0 v0] d IH]; [discriminate|]. cbn in G. destruct (String.eqb_spec k k0); [injection G as <-; left; subst; reflexivity|right; auto].
Qed.
Lemma put_fine q w : named_place q -> fine w -> forall v v', (fine_field v -> put q w v = Ok v' -> fine_field v') /\ (fine v -> put q w v = Ok v' -> fine v').
Proof.
  intros N W. induction q as [|k q IH]; intros v v'; cbn [put].
  - split; intros _ E; injection E as <-; [constructor|]; exact W.
  - assert (NQ : named_place q) by (intros s S; apply N; right; exact S). specialize (IH NQ).
    assert (A : fine v -> (forall l, v <> VList l) -> (match q, k, v with
      | [], K s, VDict d => Ok (VDict (sset d s w))
      | [], _, _ => Err TypeError
      | _, _, _ => let! x := get1 k v in let! x' := put q w x in match k, v with K s, VDict d => Ok (VDict (sset d s x')) | I n, VList l => Ok (VList (set_nth l n x')) | _, _ => Err TypeError end
      end) = Ok v' -> fine v').
    { intros S NL E. destruct v as [| | |d|l]; try (destruct q, k; discriminate E); [|destruct (NL l eq_refl)].
      destruct k as [s|n]; [|destruct q; discriminate E]. assert (F : field_name s) by (apply N; left; reflexivity).
      destruct q as [|k2 q]; [injection E as <-; apply sset_fine; [exact F|constructor; exact W|exact S]|].
      cbn [get1] in E. destruct (sget d s) as [x|] eqn:G; [|discriminate]. cbn [bind] in E. destruct (put (k2 :: q) w x) as [x'|] eqn:Q; [|discriminate]. injection E as <-.
      apply sset_fine; [exact F| |exact S]. exact (proj1 (IH x x') (sget_fine _ _ _ S G) Q). }
    split.
    + intros S E. inversion S as [? S1|l L SL]; subst; [constructor; apply A; [exact S1|apply (shaped_not_list _ _ S1)|exact E]|].
      destruct k as [s|n]; [destruct q; discriminate E|]. destruct q as [|k2 q]; [discriminate E|]. cbn [get1] in E. destruct (nth_error l n) as [x|] eqn:G; [|discriminate]. cbn [bind] in E.
      destruct (put (k2 :: q) w x) as [x'|] eqn:Q; [|discriminate]. injection E as <-. apply shaped_many; [rewrite set_nth_len; exact L|].
      intros y Y. apply in_set_nth in Y. destruct Y as [-> | Y]; [|apply SL, Y]. exact (proj2 (IH x x') (SL x (nth_error_In _ _ G)) Q).
    + intros S E. apply A; [exact S|apply (shaped_not_list _ _ S)|exact E].
Qed.
Lemma with_fields_put req a r w v v' : put (K a :: r) w v = Ok v' -> with_fields req v ->
  (forall ok x x', In (a, ok) req -> ok x -> put r w x = Ok x' -> ok x') -> with_fields req v'.
Proof.
  intros E (d & -> & R) H. assert (X : exists y, v' = VDict (sset d a y) /\ (forall x, sget d a = Some x -> put r w x = Ok y)).
  { cbn [put] in E. destruct r as [|k r]; [injection E as <-; exists w; split; [reflexivity|intros; reflexivity]|]. cbn [get1] in E. destruct (sget d a) as [x|]; [|discriminate]. cbn [bind] in E.
    destruct (put (k :: r) w x) as [x'|] eqn:Q; [|discriminate]. injection E as <-. exists x'. split; [reflexivity|]. intros z Z. injection Z as <-. exact Q. }
  destruct X as (y & -> & Y). exists (sset d a y). split; [reflexivity|]. intros k ok J. destruct (R k ok J) as (x & G & O). unfold has. rewrite sget_sset.
  destruct (String.eqb_spec a k) as [-> | NE].
  - exists y. destruct (String.eqb_spec k k); [|congruence]. split; [reflexivity|]. exact (H ok x y J O (Y x G)).
  - exists x. destruct (String.eqb_spec k a); [congruence|]. auto.
Qed.

Lemma put_put q w v v' : put q w v = Ok v' -> q = [] -> v' = w.
Proof. intros E ->. injection E as <-. reflexivity. Qed.
(** the places and values of the statements *)
Inductive allowed : place -> val -> Prop :=
| al_value w : allowed StepValue w
| al_limit s w : field_name s -> allowed (Limit s) w
| al_end n w : allowed (EndField n "Value") w
| al_only w : allowed (OnlyEnd "Value") w
| al_other s w : In s ["Range"; "Option1"; "Option2"; "Option3"] -> allowed [K s] w
| al_type s : allowed StepType (VText s)
| al_mode s : allowed StepMode (VText s)
| al_ends : allowed [K "Ends"] VNone
| al_reports : allowed [K "Reports"] VNone.
Lemma allowed_named q w : allowed q w -> named_place q.
Proof.
  assert (F : forall l : list string, forallb (fun s => match s with EmptyString => false | String c r => existsb (Ascii.eqb c) letters && forallb (fun x => existsb (Ascii.eqb x) name_letters) (list_ascii_of_string r) end) l = true -> forall s, In s l -> field_name s).
  { intros l H s S. rewrite forallb_forall in H. specialize (H s S). destruct s as [|c r]; [discriminate|]. apply andb_prop in H. destruct H as [H1 H2]. exists c, r. split; [reflexivity|].
    apply existsb_exists in H1. destruct H1 as (x & X & E). apply Ascii.eqb_eq in E. subst x. split; [exact X|]. rewrite forallb_forall in H2. intros y Y. specialize (H2 y Y).
    apply existsb_exists in H2. destruct H2 as (z & Z & E). apply Ascii.eqb_eq in E. subst z. exact Z. }
  intro A. destruct A; intros t T; cbn in T; repeat destruct T as [T|T]; try contradiction; try discriminate T; injection T as <-; try assumption;
    try (apply (F ["StepValue"; "Limits"; "Ends"; "EndEntry"; "Value"; "StepType"; "StepMode"; "Reports"] eq_refl); cbn; tauto).
  apply (F ["Range"; "Option1"; "Option2"; "Option3"] eq_refl), H.
Qed.
Ltac not_there := let ok := fresh in let x := fresh in let x' := fresh in let J := fresh in intros ok x x' J; exfalso; cbn in J; repeat destruct J as [J|J]; try contradiction; discriminate J.
Lemma end_value w x x' : put [K "Value"] w x = Ok x' -> end_complete x -> end_complete x'.
Proof. intros E H. eapply with_fields_put; [exact E|exact H|]. not_there. Qed.
Lemma step_complete_put q w v v' : allowed q w -> put q w v = Ok v' -> step_complete v -> step_complete v'.
Proof.
  intros A E S. destruct A; (eapply with_fields_put; [exact E|exact S|]); try not_there.
  - intros ok x x' J O Q. cbn in J. destruct J as [J|[J|[J|[J|[]]]]]; try discriminate J. injection J as <-. destruct O as [-> | O]; [discriminate Q|]. right.
    eapply with_fields_put; [exact Q|exact O|]. clear O Q; intros ok x0 x0' J O Q. destruct J as [J|[]]. injection J as <-. destruct O as [[NL O]|(l & -> & O)].
    + destruct O as (d & -> & _). discriminate Q.
    + right. cbn [put get1] in Q. destruct (nth_error l n) as [y|] eqn:G; [|discriminate]. cbn [bind] in Q. change (match y with VDict d => Ok (VDict (sset d "Value" w)) | _ => Err TypeError end) with (put [K "Value"] w y) in Q.
      destruct (put [K "Value"] w y) as [y'|] eqn:Y; [|discriminate]. injection Q as <-. eexists. split; [reflexivity|]. intros z Z. apply in_set_nth in Z. destruct Z as [-> | Z]; [|apply O, Z].
      eapply end_value; [exact Y|]. apply O. eapply nth_error_In, G.
  - intros ok x x' J O Q. cbn in J. destruct J as [J|[J|[J|[J|[]]]]]; try discriminate J. injection J as <-. destruct O as [-> | O]; [discriminate Q|]. right.
    eapply with_fields_put; [exact Q|exact O|]. intros ok x0 x0' J O' Q'. destruct J as [J|[]]. injection J as <-. destruct O' as [[NL O']|(l & -> & O')]; [|discriminate Q'].
    left. split; [|eapply end_value; eassumption]. intros l ->. destruct O' as (d & -> & _). discriminate Q'.
  - intros ok x x' J O Q. exfalso. cbn in J, H. repeat destruct H as [<- |H]; try contradiction; repeat destruct J as [J|J]; try contradiction; discriminate J.
  - intros ok x x' J O Q. injection Q as <-. cbn in J. repeat destruct J as [J|J]; try contradiction; try discriminate J. injection J as <-. exists s. reflexivity.
  - intros ok x x' J O Q. injection Q as <-. cbn in J. repeat destruct J as [J|J]; try contradiction; try discriminate J. injection J as <-. right. exists s. reflexivity.
  - intros ok x x' J O Q. injection Q as <-. cbn in J. repeat destruct J as [J|J]; try contradiction; try discriminate J. injection J as <-. left. reflexivity.
  - intros ok x x' J O Q. injection Q as <-. cbn in J. repeat destruct J as [J|J]; try contradiction; try discriminate J. injection J as <-. left. reflexivity.
Qed.

Notation good_steps p := (forall s, In s p -> plain s /\ step_complete s).
Definition safe (i : instr) : Prop := match i_act i with Put q (Ok w) => allowed q w /\ plain w | _ => True end.
Lemma exec_good i p p' e : safe i -> good_steps p -> exec i p = (p', e) -> good_steps p' /\ length p' = length p.
Proof.
  intros S G E. assert (Same : (p, e) = (p', e) -> good_steps p' /\ length p' = length p) by (intro H; injection H as <-; auto).
  assert (AS : forall r, asserted r p = (p', e) -> good_steps p' /\ length p' = length p). { intros [[]|x] H; injection H as <- _; auto. }
  assert (Go : match i_act i with
    | Is q f => asserted (let! v := step_get p (i_step i) q in f v) p
    | Rel q m r f => asserted (let! v := step_get p (i_step i) q in let! w := step_get p m r in f v w) p
    | Put q v => match v with Err x => (p, Some x) | Ok w => match step_put p (i_step i) q w with Ok p'' => (p'', None) | Err x => (p, Some x) end end
    end = (p', e) -> good_steps p' /\ length p' = length p).
  { destruct (i_act i) as [q f|q m r f|q [w|x]] eqn:A; try (apply AS); [|intro H; injection H as <- _; auto].
    unfold safe in S. rewrite A in S. destruct S as [S1 S2]. unfold step_put. destruct (nth_error p (i_step i)) as [s|] eqn:N; [|intro H; injection H as <- _; auto].
    destruct (put q w s) as [s'|] eqn:Q; [|intro H; injection H as <- _; auto]. cbn [bind]. intro H. injection H as <- _. split; [|apply set_nth_len].
    intros z Z. apply in_set_nth in Z. destruct Z as [-> | Z]; [|apply G, Z]. destruct (G s (nth_error_In _ _ N)) as [G1 G2]. split.
    - exact (proj2 (put_fine q w (allowed_named q w S1) S2 s s') G1 Q).
    - exact (step_complete_put q w s s' S1 Q G2). }
  unfold exec in E. destruct (i_if i) as [t|]; [|exact (Go E)]. destruct (step_get p (i_step i) [K "StepType"]) as [v|x]; [|injection E as <- _; auto].
  destruct (text_is t v); [exact (Go E)|injection E as <- _; auto].
Qed.
Lemma run_good prog : Forall safe prog -> forall p p' e, good_steps p -> Model_Procedure.run prog p = (p', e) -> good_steps p' /\ length p' = length p.
Proof.
  induction 1 as [|i prog S _ IH]; intros p p' e G E; cbn in E; [injection E as <- _; auto|].
  destruct (exec i p) as [p1 [x|]] eqn:X.
  - injection E as <- _. exact (exec_good i p p1 _ S G X).
  - destruct (exec_good i p p1 _ S G X) as [G1 L1]. destruct (IH _ _ _ G1 E) as [G2 L2]. split; [exact G2|congruence].
Qed.
Lemma safe_shift n i : safe i -> safe (shift n i).
Proof. unfold safe, shift. cbn. destruct (i_act i) as [| |q [w|]]; auto. Qed.
Lemma safe_at n l : Forall safe l -> Forall safe (at_step n l).
Proof. intro H. unfold at_step. induction H; constructor; auto using safe_shift. Qed.
Lemma num_fine q : plain (VNum q). Proof. constructor. Qed.
Lemma seconds_fine x w : seconds x = Ok w -> plain w.
Proof. intro H. injection H as <-. constructor. apply solid_good, hms_solid. Qed.
Lemma put_rounded n q d x : (forall w, allowed q w) -> safe (a_put n q (rounded d x)).
Proof. intro A. split; [apply A|constructor]. Qed.
Lemma put_seconds n q x : (forall w, allowed q w) -> safe (a_put n q (seconds x)).
Proof. intro A. split; [apply A|apply (seconds_fine x); reflexivity]. Qed.
Lemma put_seconds_down n q x : (forall w, allowed q w) -> safe (a_put n q (seconds_down x)).
Proof. intro A. split; [apply A|constructor; apply solid_good, hms_solid]. Qed.
Lemma put_seconds_over n q a b c : (forall w, allowed q w) -> safe (a_put n q (seconds_over a b c)).
Proof. intro A. unfold seconds_over. destruct (Qeq_bool b 0); [exact Logic.I|apply put_seconds, A]. Qed.
Lemma limit_names s : In s ["Voltage"; "Current"] -> field_name s.
Proof.
  intros [<- |[<- |[]]].
  - exists "V"%char, "oltage". split; [reflexivity|]. split; [cbn; tauto|]. intros x X. cbn in X. repeat destruct X as [<- |X]; try contradiction; cbn; tauto.
  - exists "C"%char, "urrent". split; [reflexivity|]. split; [cbn; tauto|]. intros x X. cbn in X. repeat destruct X as [<- |X]; try contradiction; cbn; tauto.
Qed.
Ltac safes := repeat (apply Forall_app; split); repeat (apply Forall_nil || apply Forall_cons);
  try (exact Logic.I); try (apply put_rounded || apply put_seconds || apply put_seconds_down || apply put_seconds_over); try (intro; constructor; try (apply limit_names; cbn; tauto));
  try (split; [constructor; try (apply limit_names; cbn; tauto)|constructor]).
Lemma resistance_safe r : Forall safe (resistance r). Proof. unfold resistance. safes. Qed.
Lemma charge_v2_safe r : Forall safe (charge_v2 r). Proof. unfold charge_v2, charge_first, charge_rest. safes. Qed.
Lemma charge_v3_safe r : Forall safe (charge_v3 r). Proof. unfold charge_v3, charge_first, charge_rest. safes. Qed.
Lemma discharge_v2_safe r : Forall safe (discharge_v2 r). Proof. unfold discharge_v2. safes. Qed.
Lemma storage_v2_safe r : Forall safe (storage_v2 r). Proof. unfold storage_v2, storage. safes. Qed.
Lemma storage_v3_safe r : Forall safe (storage_v3 r). Proof. unfold storage_v3, storage. safes. Qed.
Lemma initial_rest_safe i : Forall safe (initial_rest i). Proof. unfold initial_rest. safes. Qed.
Lemma reset_v2_safe c d : Forall safe (reset_v2 c d). Proof. unfold reset_v2. safes. Qed.
Lemma hppc_v2_safe c d : Forall safe (hppc_v2 c d). Proof. unfold hppc_v2. safes. Qed.
Lemma rpt_v2_safe c d : Forall safe (rpt_v2 c d). Proof. unfold rpt_v2, rpt_part. safes. Qed.
#[local] Hint Resolve resistance_safe charge_v2_safe charge_v3_safe discharge_v2_safe storage_v2_safe storage_v3_safe initial_rest_safe reset_v2_safe hppc_v2_safe rpt_v2_safe : safe.
Ltac whole := repeat (apply Forall_app; split); try (apply safe_at; auto with safe); repeat (apply Forall_nil || apply Forall_cons); exact Logic.I.

Definition keeps (n : nat) (f : steps -> steps * option exn) : Prop := forall p p' e, (n <= length p)%nat -> good_steps p -> f p = (p', e) -> good_steps p' /\ length p' = length p.
Lemma run_keeps n prog : Forall safe prog -> keeps n (Model_Procedure.run prog).
Proof. intros S p p' e _. apply run_good, S. Qed.
Lemma demand_keeps n b f : keeps n f -> keeps n (fun p => demand b p (f p)).
Proof. intros K p p' e L G E. unfold demand in E. destruct b; [exact (K _ _ _ L G E)|]. injection E as <- _. auto. Qed.
Lemma next_keeps n f g : keeps n f -> keeps n g -> keeps n (fun p => next (f p) g).
Proof.
  intros A B p p' e L G E. unfold next in E. destruct (f p) as [p1 [e1|]] eqn:F; [injection E as <- _; exact (A _ _ _ L G F)|]. destruct (A _ _ _ L G F) as [G1 L1].
  destruct (B _ _ _ ltac:(rewrite L1; exact L) G1 E) as [G2 L2]. split; [exact G2|congruence].
Qed.
Lemma regcycle_v2_keeps n r : keeps n (from_regcyclev2 r).
Proof. apply demand_keeps, run_keeps. unfold regcycle_v2. whole. Qed.
Lemma regcycle_v3_keeps n i r : keeps n (generate_procedure_regcyclev3 i r).
Proof. apply demand_keeps, run_keeps. unfold regcycle_v3. whole. Qed.
Lemma diagcycle_v2_safe c d : Forall safe (diagcycle_v2 c d). Proof. unfold diagcycle_v2. whole. Qed.
Lemma diagcycle_v2_keeps n c d : keeps n (add_procedure_diagcyclev2 c d).
Proof. apply run_keeps, diagcycle_v2_safe. Qed.
Lemma diagcycle_v3_keeps n c d : keeps n (generate_procedure_diagcyclev3 c d).
Proof. apply run_keeps. unfold diagcycle_v3. apply Forall_app. split; [apply diagcycle_v2_safe|]. whole. Qed.
Lemma text_fine s : good_text s -> plain (VText s). Proof. constructor. assumption. Qed.
Lemma empty_good : good_text "". Proof. apply solid_good. intros ? []. Qed.
Lemma wave_keeps m n file : good_text (wave_name file) -> (n < m)%nat -> keeps m (insert_maccor_waveform n file).
Proof.
  intros W NM p p' e L G E. unfold insert_maccor_waveform, make_step in E. assert (L' : (n < length p)%nat) by lia. clear L. rename L' into L. apply Nat.ltb_lt in L. rewrite L in E.
  assert (S : Forall safe (at_step n wave_fields)).
  { apply safe_at. unfold wave_fields. repeat (apply Forall_nil || apply Forall_cons); try exact Logic.I; (split; [constructor; cbn; tauto|]); try (apply text_fine, empty_good); try constructor. apply solid_good. intros c C. cbn in C. repeat destruct C as [<- |C]; try contradiction; cbn; lia. }
  destruct (Model_Procedure.run (at_step n wave_fields) p) as [p1 [x|]] eqn:R; destruct (run_good _ S _ _ _ G R) as [G1 L1]; [injection E as <- _; auto|].
  destruct (_ && _); [|injection E as <- _; auto]. destruct (run_good [a_put n StepValue (Ok (VText (wave_name file)))] (Forall_cons (a_put n StepValue (Ok (VText (wave_name file)))) (conj (al_value _) (text_fine _ W)) (Forall_nil _)) _ _ _ G1 E) as [G2 L2]. split; [exact G2|congruence].
Qed.
Lemma driving_keeps i r file : good_text (wave_name file) -> keeps 65 (generate_procedure_drivingv1 i r file).
Proof.
  intro W. apply demand_keeps, demand_keeps, next_keeps; [apply run_keeps; whole|]. apply next_keeps; [apply wave_keeps; [exact W|lia]|]. apply next_keeps; [apply run_keeps; whole|].
  apply next_keeps; [apply wave_keeps; [exact W|lia]|]. apply run_keeps. whole.
Qed.
Lemma charging_keeps i r c4 soc file limits : good_text (wave_name file) -> keeps 65 (generate_procedure_chargingv1 i r c4 soc file limits).
Proof.
  intro W. apply demand_keeps, next_keeps; [apply run_keeps; whole|]. apply next_keeps; [apply wave_keeps; [exact W|lia]|]. apply next_keeps; [apply run_keeps; whole|].
  apply next_keeps; [apply wave_keeps; [exact W|lia]|]. apply run_keeps. whole.
Qed.
Lemma put_good q w s s' : allowed q w -> plain w -> plain s /\ step_complete s -> put q w s = Ok s' -> plain s' /\ step_complete s'.
Proof. intros A W [G1 G2] Q. split; [exact (proj2 (put_fine q w (allowed_named q w A) W s s') G1 Q)|exact (step_complete_put q w s s' A Q G2)]. Qed.
Lemma exp_step_good c h d a b i s s' : plain c -> plain h -> plain d -> plain s /\ step_complete s -> exp_step c h d a b i s = Ok s' -> plain s' /\ step_complete s'.
Proof.
  intros C H D G E. unfold exp_step in E. destruct (get StepType s) as [t|]; [|discriminate]. cbn [bind] in E. destruct (text_is "Charge" t).
  - destruct (get [K "Limits"] s) as [l|]; [|discriminate]. cbn [bind] in E. destruct (has_voltage_limit l) as [hl|]; [|discriminate]. cbn [bind] in E.
    assert (X : exists s1, (if hl then put [K "Limits"; K "Voltage"] c s else Ok s) = Ok s1 /\ (plain s1 /\ step_complete s1)).
    { destruct hl; [|exists s; auto]. destruct (put [K "Limits"; K "Voltage"] c s) as [s1|] eqn:Q; [|discriminate]. exists s1. split; [reflexivity|]. apply (put_good (Limit "Voltage") c s s1); auto. constructor. apply limit_names. left. reflexivity. }
    destruct X as (s1 & X & G1). rewrite X in E. cbn [bind] in E. destruct (get StepMode s1) as [m|]; [|discriminate]. cbn [bind] in E.
    destruct (_ && _); [|injection E as <-; exact G1]. exact (put_good StepValue h s1 s' (al_value _) H G1 E).
  - destruct (text_is "Dischrge" t); [|injection E as <-; exact G]. destruct (get StepMode s) as [m|]; [|discriminate]. cbn [bind] in E.
    destruct (_ && _); [|injection E as <-; exact G]. exact (put_good StepValue d s s' (al_value _) D G E).
Qed.
Lemma exp_good c h d p p' : plain c -> plain h -> plain d -> good_steps p -> from_exp c h d p = Ok p' -> good_steps p' /\ length p' = length p.
Proof.
  intros C H D G E. unfold from_exp in E. destruct (last_of_type "Do 1" 0 p None) as [a|]; [|discriminate]. cbn [bind] in E. destruct (last_of_type "Loop 1" 0 p None) as [b|]; [|discriminate]. cbn [bind] in E.
  destruct a as [a|]; [|discriminate]. destruct b as [b|]; [|discriminate]. revert E G. generalize 0%nat as i. revert p'. induction p as [|s p IH]; intros p' i E G; cbn [exp_steps] in E; [injection E as <-; auto|].
  destruct (exp_step c h d a b i s) as [s'|] eqn:S; [|discriminate]. cbn [bind] in E. destruct (exp_steps c h d a b (Datatypes.S i) p) as [r|] eqn:R; [|discriminate]. injection E as <-.
  destruct (IH _ _ R) as [G2 L2]; [intros x X; apply G; right; exact X|]. split; [|cbn; rewrite L2; reflexivity]. intros x [<- | X]; [|apply G2, X]. apply (exp_step_good c h d a b i s); auto. apply G. left. reflexivity.
Qed.

(** ** Whole procedures *)
Lemma procedure_good header p : fine (VDict (header ++ [("ProcSteps", VDict [("TestStep", VNone)])])%list) -> (2 <= length p)%nat -> good_steps p -> plain (procedure_of header p) /\ complete (procedure_of header p).
Proof.
  intros H L G. inversion H as [| | |? NE ND IN]; subst.
  assert (N1 : field_name "ProcSteps"). { apply (IN "ProcSteps" (VDict [("TestStep", VNone)])). apply in_or_app. right. left. reflexivity. }
  assert (N2 : field_name "TestStep").
  { assert (X : fine_field (VDict [("TestStep", VNone)])) by (apply (IN "ProcSteps"); apply in_or_app; right; left; reflexivity). inversion X as [? X1|]; subst. inversion X1 as [| | |? _ _ X2]; subst. apply (X2 "TestStep" VNone). left. reflexivity. }
  split.
  - constructor; [discriminate|repeat constructor; intros []|]. intros k v [E|[]]. injection E as <- <-. split; [apply root_name|]. constructor. constructor.
    + destruct header; discriminate.
    + rewrite map_app in *. exact ND.
    + intros k v J. apply in_app_or in J. destruct J as [J|[J|[]]]; [apply IN, in_or_app; auto|]. injection J as <- <-. split; [exact N1|]. constructor. constructor; [discriminate|repeat constructor; intros []|].
      intros k v [J|[]]. injection J as <- <-. split; [exact N2|]. apply shaped_many; [exact L|]. intros v J. apply G, J.
  - eexists. split; [reflexivity|]. eexists. split; [reflexivity|]. intros k ok [J|[]]. injection J as <- <-. eexists. split.
    + apply (sget_mid header [] "ProcSteps" (VDict [("TestStep", VList p)])). rewrite map_app in ND. cbn in ND. apply NoDup_remove_2 in ND. rewrite app_nil_r in ND. exact ND.
    + eexists. split; [reflexivity|]. intros k ok [J|[]]. injection J as <- <-. exists (VList p). split; [reflexivity|]. exists p. split; [reflexivity|]. intros x X. apply G, X.
Qed.
