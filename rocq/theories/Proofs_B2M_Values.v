(** Lemmas for C36, C64, C66: what the converted steps say. *)
From Verif Require Import Py Num Model_Text Proofs_Text Model_Units Spec_Units Spec_Numeral Proofs_Numeral Proofs_Units Model_B2M Spec_B2M Proofs_B2M Proofs_Structure Proofs_Strings.
From Verif Require Import Proofs_B2M_Steps.
From Coq Require Import Qpower.

Lemma list_ascii_app : forall a b, list_ascii_of_string (a ++ b) = (list_ascii_of_string a ++ list_ascii_of_string b)%list.
Proof. induction a as [|c a IH]; intro b; [reflexivity|]. cbn. rewrite IH. reflexivity. Qed.
Lemma in_app_chars c a b : In c (list_ascii_of_string (a ++ b)) <-> In c (list_ascii_of_string a) \/ In c (list_ascii_of_string b).
Proof. rewrite list_ascii_app, in_app_iff. reflexivity. Qed.

Lemma decimal_q t x y : decimal t x -> x == y -> decimal t y.
Proof.
  intros (sgn & neg & ip & is & fp & fs & ex & es & H & S & W & NE & F & X & V) E.
  exists sgn, neg, ip, is, fp, fs, ex, es. repeat (split; [assumption|]). rewrite <- E. exact V.
Qed.
Lemma plain_exp t x c e z : plain t x -> integer e z -> (c = "e"%string \/ c = "E"%string) -> decimal (t ++ c ++ e) (x * (10 # 1) ^ z).
Proof.
  intros [(sgn & neg & ip & is & fp & fs & ex & es & -> & S & W & NE & F & X & V) N] I C.
  assert (E0 : ex = 0%Z /\ es = ""%string).
  { destruct X as [X|(t & c' & _ & CC & ->)]; [exact X|]. exfalso.
    destruct CC as [-> | ->].
    - destruct (N "e"%char); [|congruence]. rewrite !in_app_chars. right. right. right. cbn. auto.
    - destruct (N "E"%char); [|congruence]. rewrite !in_app_chars. right. right. right. cbn. auto. }
  destruct E0 as [-> ->].
  exists sgn, neg, ip, is, fp, fs, z, (c ++ e)%string. split; [rewrite app_nil_r_s, !app_assoc_s; reflexivity|].
  repeat (split; [assumption|]). split; [right; exists e, c; auto|].
  rewrite V. rewrite <- Qmult_assoc. apply Qmult_comp; [reflexivity|].
  rewrite <- Qpower_plus by discriminate. replace (0 - Z.of_nat (length fp) + z)%Z with (z - Z.of_nat (length fp))%Z by lia. reflexivity.
Qed.

Lemma plain_e t x e z : plain t x -> integer e z -> decimal (t ++ "E" ++ e) (x * (10 # 1) ^ z).
Proof. intros P I. apply plain_exp; auto. Qed.
Lemma is_int s z : parse_int s = Some z -> integer s z.
Proof. apply integer_iff. Qed.
Ltac factor P := eapply decimal_q; [eapply (plain_e _ _ _ _ P); apply is_int; vm_compute; reflexivity|]; apply Qmult_comp; reflexivity.
Lemma plain_same t x : plain t x -> decimal t (x * 1).
Proof. intros [P _]. eapply decimal_q; [exact P|]. rewrite Qmult_1_r. reflexivity. Qed.
Lemma mu_eq : micro = mu. Proof. reflexivity. Qed.
Lemma greek_eq : greek_mu = greek. Proof. reflexivity. Qed.

Lemma str_in_cases x l : str_in x l = true -> In x l.
Proof. unfold str_in. intro H. apply existsb_exists in H. destruct H as (y & Y & E). apply String.eqb_eq in E. subst. exact Y. Qed.

Ltac unit_case H := match type of H with
  | (if String.eqb ?u ?n then _ else _) = Ok _ => destruct (String.eqb_spec u n) as [->|]; [injection H as <-|]
  | (if str_in ?u ?n then _ else _) = Ok _ => let E := fresh in destruct (str_in u n) eqn:E; [injection H as <-; apply str_in_cases in E; destruct E as [<-|[<-|[]]]|]
  end.
Ltac one_unit := eexists; split; [cbn; repeat (first [left; reflexivity|right])|intros x P; first [exact (plain_same _ _ P)|factor P]].
Lemma current_ok v u r : b_convert_current v u = Ok r -> amount amps v u r.
Proof.
  unfold b_convert_current. intro H.
  unit_case H; [one_unit|]. unit_case H; [one_unit|]. unit_case H; [one_unit|one_unit|]. unit_case H; [one_unit|]. unit_case H; [one_unit|]. discriminate.
Qed.
Lemma voltage_ok v u r : b_convert_voltage v u = Ok r -> amount volts v u r.
Proof. unfold b_convert_voltage. intro H. unit_case H; [one_unit|]. unit_case H; [one_unit|]. discriminate. Qed.
Lemma resistance_ok v u r : b_convert_resistance v u = Ok r -> amount ohms v u r.
Proof.
  unfold b_convert_resistance. intro H.
  unit_case H; [one_unit|]. unit_case H; [one_unit|]. unit_case H; [one_unit|]. unit_case H; [one_unit|]. unit_case H; [one_unit|one_unit|]. discriminate.
Qed.
Lemma power_ok v u r : b_convert_power v u = Ok r -> amount watts v u r.
Proof. unfold b_convert_power. intro H. unit_case H; [one_unit|]. unit_case H; [one_unit|]. unit_case H; [one_unit|one_unit|]. discriminate. Qed.

(** ** Times *)
Lemma two_digits m : (0 <= m < 100)%Z -> length (pad2 (digits_of m)) = 2%nat.
Proof.
  intro B. assert (A : forallb (fun m => Nat.eqb (length (pad2 (digits_of m))) 2) (map Z.of_nat (seq 0 100)) = true) by (vm_compute; reflexivity).
  rewrite forallb_forall in A. apply Nat.eqb_eq, A, in_map_iff. exists (Z.to_nat m). split; [lia|]. apply in_seq. lia.
Qed.
Lemma hundredths_decimal z : decimal (hundredths_text z) (inject_Z z / 100).
Proof.
  unfold hundredths_text. set (a := Z.abs z). assert (A0 : (0 <= a)%Z) by (unfold a; lia).
  destruct (digits_of_spec (a / 100)) as (I1 & I2 & I3); [apply Z.div_pos; lia|].
  pose proof (Z.mod_pos_bound a 100 ltac:(lia)) as M.
  destruct (digits_of_spec (a mod 100)) as (F1 & F2 & F3); [lia|].
  assert (FP : Forall is_digit (pad2 (digits_of (a mod 100)))).
  { unfold pad2. apply Forall_app. split; [|exact F2]. apply Forall_forall. intros x X. assert (x = 0%nat) by (revert X; generalize (2 - length (digits_of (a mod 100)))%nat; intro n; induction n; cbn; intuition). subst. unfold is_digit. lia. }
  exists (if (z <? 0)%Z then "-"%string else ""%string), (z <? 0)%Z, (digits_of (a / 100)), (digits_text (digits_of (a / 100))),
    (pad2 (digits_of (a mod 100))), ("." ++ digits_text (pad2 (digits_of (a mod 100))))%string, 0%Z, ""%string.
  split; [rewrite app_nil_r_s; reflexivity|].
  split; [destruct (z <? 0)%Z; [right; auto|left; auto]|]. split; [apply written_iff; auto|].
  split; [destruct (digits_of (a / 100)); [congruence|discriminate]|].
  split; [right; eexists; split; [apply written_iff; split; [exact FP|reflexivity]|reflexivity]|]. split; [left; auto|].
  rewrite place_is_val, two_digits by exact M.
  assert (V : digits_val (digits_of (a / 100) ++ pad2 (digits_of (a mod 100))) = a).
  { rewrite digits_val_app, two_digits by exact M.
    assert (VP : digits_val (pad2 (digits_of (a mod 100))) = (a mod 100)%Z).
    { unfold pad2. rewrite digits_val_app. assert (Z0 : forall n, digits_val (zeros n) = 0%Z). { induction n; [reflexivity|]. cbn in *. exact IHn. }
      rewrite Z0, F3. lia. }
    rewrite VP, I3. change (10 ^ Z.of_nat 2)%Z with 100%Z. pose proof (Z.div_mod a 100). lia. }
  rewrite V. unfold Qdiv. change ((10 # 1) ^ (0 - Z.of_nat 2)) with (1 # 100). change (/ 100) with (1 # 100).
  destruct (Z.ltb_spec z 0).
  - replace z with (- a)%Z by (unfold a; lia). rewrite inject_Z_opp. ring.
  - replace a with z by (unfold a; lia). ring.
Qed.

Lemma round_near y : Qabs (inject_Z (round_even y) - y) <= 1 # 2.
Proof. apply round_even_near. Qed.
Lemma colon_time hs ms ss h m s : decimal hs h -> decimal ms m -> decimal ss s -> time_text (hs ++ ":" ++ ms ++ ":" ++ ss) (h * 3600 + m * 60 + s).
Proof. intros. exists hs, ms, ss, h, m, s. repeat (split; [auto|]). reflexivity. Qed.
Lemma time_q t a b : time_text t a -> a == b -> time_text t b.
Proof. intros (hs & ms & ss & h & m & s & X & H1 & H2 & H3 & E1) E. exists hs, ms, ss, h, m, s. repeat (split; [assumption|]). rewrite <- E. exact E1. Qed.
Lemma zero_decimal : decimal "00" 0.
Proof. apply decimal_iff. eexists. split; [vm_compute; reflexivity|]. vm_compute. reflexivity. Qed.
Lemma time_ok show t x u r v : decimal t x -> v == x -> b_convert_time show v u = Ok r -> duration show t u r.
Proof.
  intros T V H. exists x. split; [exact T|]. unfold b_convert_time in H.
  destruct (String.eqb_spec u "h") as [->|_].
  { injection H as <-. left. exists 3600. split; [cbn; auto|]. intro SP. destruct (SP v V) as [D _].
    eapply time_q; [apply (colon_time (show v) "00" "00" _ _ _ D zero_decimal zero_decimal)|]. ring. }
  destruct (String.eqb_spec u "mn") as [->|_].
  { injection H as <-. left. exists 60. split; [cbn; auto|]. intro SP. destruct (SP v V) as [D _].
    eapply time_q; [apply (colon_time "00" (show v) "00" _ _ _ zero_decimal D zero_decimal)|]. ring. }
  destruct (String.eqb_spec u "s") as [->|_].
  { injection H as <-. left. exists 1. split; [cbn; auto|]. intro SP. destruct (SP v V) as [D _].
    eapply time_q; [apply (colon_time "00" "00" (show v) _ _ _ zero_decimal zero_decimal D)|]. ring. }
  destruct (String.eqb_spec u "ms") as [->|_]; [|discriminate].
  right. split; [reflexivity|].
  set (f := Qfloor (v / 10)) in *. set (rm := v - 10 * inject_Z f) in *.
  destruct (Qle_bool (1 # 10) rm && Qle_bool rm (99 # 10)) eqn:C; [discriminate|]. injection H as <-.
  exists (round_even (v / 1000 * 100)). split.
  - eapply time_q; [apply (colon_time "00" "00" _ _ _ _ zero_decimal zero_decimal (hundredths_decimal (round_even (v / 1000 * 100))))|]. ring.
  - set (z := round_even (v / 1000 * 100)). pose proof (round_even_near (v / 1000 * 100)) as N. fold z in N.
    pose proof (Qfloor_le (v / 10)) as L. pose proof (Qlt_floor (v / 10)) as U. rewrite inject_Z_plus in U. change (inject_Z 1) with 1%Q in U. fold f in L, U.
    assert (Y : v / 1000 * 100 == v / 10) by field. rewrite Y in N. apply Qabs_Qle_condition in N. destruct N as [N1 N2].
    assert (VR : v == 10 * inject_Z f + rm) by (unfold rm; ring).
    assert (V10 : v / 10 == inject_Z f + rm / 10) by (rewrite VR at 1; field). rewrite V10 in *.
    apply Qabs_Qle_condition. rewrite <- V. assert (X1000 : v / 1000 == inject_Z f / 100 + rm / 1000) by (rewrite VR at 1; field). rewrite X1000.
    assert (Z100 : inject_Z z / 100 == inject_Z z * (1 # 100)) by reflexivity. assert (F100 : inject_Z f / 100 == inject_Z f * (1 # 100)) by reflexivity.
    assert (R1000 : rm / 1000 == rm * (1 # 1000)) by reflexivity. assert (R10 : rm / 10 == rm * (1 # 10)) by reflexivity. rewrite Z100, F100, R1000. rewrite R10 in *.
    apply andb_false_iff in C. destruct C as [C|C].
    + assert (RB : rm < 1 # 10). { destruct (Qlt_le_dec rm (1 # 10)) as [X|X]; [exact X|]. apply Qle_bool_iff in X. congruence. }
      assert (ZF : z = f).
      { assert (inject_Z z < inject_Z (f + 1)) as A1 by (rewrite inject_Z_plus; change (inject_Z 1) with 1; lra).
        assert (inject_Z (f - 1) < inject_Z z) as A2 by (unfold Z.sub; rewrite inject_Z_plus; change (inject_Z (- (1))) with (-(1)); lra).
        rewrite <- Zlt_Qlt in A1, A2. lia. }
      rewrite ZF. split; lra.
    + assert (RB : 99 # 10 < rm). { destruct (Qlt_le_dec (99 # 10) rm) as [X|X]; [exact X|]. apply Qle_bool_iff in X. congruence. }
      assert (ZF : z = (f + 1)%Z).
      { assert (inject_Z z < inject_Z (f + 2)) as A1 by (rewrite inject_Z_plus; change (inject_Z 2) with 2; lra).
        assert (inject_Z f < inject_Z z) as A2 by lra.
        rewrite <- Zlt_Qlt in A1, A2. lia. }
      rewrite ZF, inject_Z_plus. change (inject_Z 1) with 1. split; lra.
Qed.

Lemma float_decimal t v : py_float t = Ok v -> decimal t v.
Proof.
  unfold py_float. destruct (parse_lit t) as [li|] eqn:P; [|discriminate]. intros [= <-]. apply decimal_iff. exists li. split; [exact P|reflexivity].
Qed.
Lemma shown_ok show units conv t v u r : (forall a b c, conv a b = Ok c -> amount units a b c) -> py_float t = Ok v -> conv (show v) u = Ok r ->
  shown_amount show units t u r.
Proof.
  intros CV F H. destruct (CV _ _ _ H) as (k & K & X). exists v, k. split; [apply float_decimal; exact F|]. split; [exact K|].
  intro SP. apply X, SP. reflexivity.
Qed.
Lemma fld_text d k t : fld d k = Ok t -> text_of d k t.
Proof. unfold fld, text_of. destruct (sget d k); congruence. Qed.

Lemma create_end_says show nums st sn en ns d k e : (k < 3)%nat -> create_end show nums st sn en ns d (1 + k) = Ok e -> ends_the_same show d k e.
Proof.
  intros K H. unfold create_end in H.
  change "_type"%string with ("_" ++ "type")%string in H. change "_comp"%string with ("_" ++ "comp")%string in H. change "_value_unit"%string with ("_" ++ "value_unit")%string in H.
  change "_value"%string with ("_" ++ "value")%string in H. rewrite !key_eq in H by exact K.
  destruct (fld d (lim_key k "type")) as [ty|] eqn:TY; cbn [bind] in H; [|discriminate].
  destruct (fld d (lim_key k "comp")) as [cp|] eqn:CP; cbn [bind] in H; [|discriminate].
  destruct (fld d (lim_key k "value_unit")) as [un|] eqn:UN; cbn [bind] in H; [|discriminate].
  destruct (fld d (nth_key "lim" (1 + k) "_action")) as [ac|]; cbn [bind] in H; [|discriminate].
  destruct (fld d (lim_key k "value")) as [vt|] eqn:VT; cbn [bind] in H; [|discriminate].
  destruct (py_float vt) as [vq|] eqn:VQ; cbn [bind] in H; [|discriminate].
  destruct (int_fld d (nth_key "lim" (1 + k) "_seq")) as [go|]; cbn [bind] in H; [|discriminate].
  destruct (b_oper cp ty) as [op|] eqn:OP; cbn [bind] in H; [|discriminate].
  destruct (b_limit show ty un vq) as [[a b]|] eqn:BL; cbn [bind fst snd] in H; [|discriminate].
  destruct (b_goto nums st sn en ns go ac) as [v|]; cbn [bind] in H; [|discriminate]. injection H as <-.
  exists ty, cp, vt, un. repeat (split; [apply fld_text; assumption|]). cbn [be_type be_oper be_value]. split.
  - unfold b_limit in BL. destruct (str_in ty ["Ece"; "Ecell"]%string) eqn:SI.
    { apply str_in_cases in SI. left. split; [cbn in *; tauto|]. destruct (b_convert_voltage (show vq) un) eqn:C; cbn in BL; [|discriminate]. injection BL as <- <-.
      split; [reflexivity|]. eapply shown_ok; eauto using voltage_ok. }
    destruct (String.eqb_spec ty "Time") as [->|_].
    { right. right. destruct (b_convert_time show vq un) eqn:C; cbn in BL; [|discriminate]. injection BL as <- <-. split; [reflexivity|]. split; [reflexivity|].
      eapply time_ok; [apply float_decimal; exact VQ|reflexivity|exact C]. }
    destruct (String.eqb_spec ty "I") as [->|_]; [|discriminate].
    right. left. destruct (b_convert_current (show vq) un) eqn:C; cbn in BL; [|discriminate]. injection BL as <- <-. split; [reflexivity|]. split; [reflexivity|].
    eapply shown_ok; eauto using current_ok.
  - unfold b_oper in OP. destruct (String.eqb_spec cp "<") as [->|_]; [injection OP as <-; auto|].
    destruct (String.eqb_spec cp ">") as [->|_]; [|discriminate]. cbn [andb] in OP. destruct (String.eqb_spec ty "Time") as [->|N]; injection OP as <-; auto.
Qed.
Lemma rec_key_eq k f : (k < 3)%nat -> nth_key "rec" (1 + k) ("_" ++ f) = rec_key k f.
Proof. intro K. destruct k as [|[|[|]]]; [reflexivity..|lia]. Qed.
Lemma create_report_says show d k r : (k < 3)%nat -> create_report show d (1 + k) = Ok r -> records_the_same show d k r.
Proof.
  intros K H. unfold create_report in H.
  change "_type"%string with ("_" ++ "type")%string in H. change "_value_unit"%string with ("_" ++ "value_unit")%string in H.
  change "_value"%string with ("_" ++ "value")%string in H. rewrite !rec_key_eq in H by exact K.
  destruct (fld d (rec_key k "type")) as [ty|] eqn:TY; cbn [bind] in H; [|discriminate].
  destruct (fld d (rec_key k "value_unit")) as [un|] eqn:UN; cbn [bind] in H; [|discriminate].
  destruct (fld d (rec_key k "value")) as [vt|] eqn:VT; cbn [bind] in H; [|discriminate].
  destruct (py_float vt) as [vq|] eqn:VQ; cbn [bind] in H; [|discriminate].
  exists ty, vt, un. repeat (split; [apply fld_text; assumption|]).
  destruct (String.eqb_spec ty "Time") as [->|_].
  { right. right. right. destruct (b_convert_time show vq un) eqn:C; cbn in H; [|discriminate]. injection H as <-. split; [reflexivity|]. split; [reflexivity|].
    eapply time_ok; [apply float_decimal; exact VQ|reflexivity|exact C]. }
  destruct (str_in ty ["Ece"; "Ecell"]%string) eqn:SI.
  { apply str_in_cases in SI. left. split; [cbn in *; tauto|]. destruct (b_convert_voltage (show vq) un) eqn:C; cbn in H; [|discriminate]. injection H as <-.
    split; [reflexivity|]. eapply shown_ok; eauto using voltage_ok. }
  destruct (String.eqb_spec ty "I") as [->|_].
  { right. left. destruct (b_convert_current (show vq) un) eqn:C; cbn in H; [|discriminate]. injection H as <-. split; [reflexivity|]. split; [reflexivity|].
    eapply shown_ok; eauto using current_ok. }
  destruct (String.eqb_spec ty "Power") as [->|_]; [|discriminate].
  right. right. left. destruct (b_convert_power (show vq) un) eqn:C; cbn in H; [|discriminate]. injection H as <-. split; [reflexivity|]. split; [reflexivity|].
  eapply shown_ok; eauto using power_ok.
Qed.

Lemma seq_F2 {B} (R : nat -> B -> Prop) n ys : Forall2 R (seq 1 n) ys -> length ys = n /\ forall k y, nth_error ys k = Some y -> R (1 + k)%nat y.
Proof.
  intro F. pose proof (F2_length _ _ _ F) as L. rewrite seq_length in L. split; [auto|]. intros k y Y.
  pose proof (F2_nth _ _ _ F k) as X. rewrite Y in X. destruct (nth_error (seq 1 n) k) as [j|] eqn:J; [|destruct X].
  assert (K : (k < n)%nat) by (apply nth_lt in Y; lia). apply nth_error_nth with (d := 0%nat) in J. rewrite seq_nth in J by exact K. subst j. exact X.
Qed.
Lemma small_count m : existsb (Z.eqb m) [0; 1; 2; 3]%Z = true -> (0 <= m <= 3)%Z.
Proof. intro H. apply existsb_exists in H. destruct H as (y & Y & E). apply Z.eqb_eq in E. subst y. cbn in Y. lia. Qed.

(** Everything a converted step says comes from its sequence. *)
Theorem create_step_says show nums sts en d st : create_step show nums sts en d = Ok st ->
  controls_the_same d st /\
  (exists cd, text_of d "charge/discharge" cd /\ In cd ["Charge"; "Discharge"]%string /\ In (bs_type st) ["Dischrge "; "  Rest  "]%string) /\
  shows d "lim_nb" (Z.of_nat (length (bs_ends st))) /\ (length (bs_ends st) <= 3)%nat /\ (forall k e, nth_error (bs_ends st) k = Some e -> ends_the_same show d k e) /\
  shows d "rec_nb" (Z.of_nat (length (bs_reports st))) /\ (length (bs_reports st) <= 3)%nat /\ (forall k r, nth_error (bs_reports st) k = Some r -> records_the_same show d k r).
Proof.
  unfold create_step. intro H.
  destruct (int_fld d "Ns") as [ns|] eqn:NS; cbn [bind] in H; [|discriminate].
  destruct (fld d "ctrl_type") as [ty|] eqn:TY; cbn [bind] in H; [|discriminate].
  destruct (fld d "ctrl1_val") as [v|] eqn:CV; cbn [bind] in H; [|discriminate].
  destruct (fld d "ctrl1_val_unit") as [u|] eqn:CU; cbn [bind] in H; [|discriminate].
  destruct (fld d "ctrl1_val_vs") as [vs|] eqn:VS; cbn [bind] in H; [|discriminate].
  destruct (d_get Z.eqb nums ns) as [sn|] eqn:SN; cbn [bind] in H; [|discriminate].
  destruct (fld d "charge/discharge") as [cd|] eqn:CD; cbn [bind] in H; [|discriminate].
  destruct (b_direction cd) as [dir|] eqn:DIR; cbn [bind] in H; [|discriminate].
  destruct (b_control ty vs v u dir) as [[[a b] c]|] eqn:CT; cbn [bind fst snd] in H; [|discriminate].
  destruct (int_fld d "lim_nb") as [m|] eqn:NL; cbn [bind] in H; [|discriminate].
  destruct (existsb (Z.eqb m) [0; 1; 2; 3]%Z) eqn:ML; cbn [negb] in H; [|discriminate].
  destruct (mapM (create_end show nums sts sn en ns d) (seq 1 (Z.to_nat m))) as [ends|] eqn:EN; cbn [bind] in H; [|discriminate].
  destruct (int_fld d "rec_nb") as [m'|] eqn:NR; cbn [bind] in H; [|discriminate].
  destruct (existsb (Z.eqb m') [0; 1; 2; 3]%Z) eqn:MR; cbn [negb] in H; [|discriminate].
  destruct (mapM (create_report show d) (seq 1 (Z.to_nat m'))) as [reps|] eqn:RP; cbn [bind] in H; [|discriminate].
  injection H as <-. cbn [bs_type bs_mode bs_value bs_ends bs_reports].
  apply small_count in ML, MR. apply mapM_ok in EN, RP. apply seq_F2 in EN, RP. destruct EN as [LE EN], RP as [LR RP].
  apply int_fld_shows in NL, NR.
  assert (DX : In cd ["Charge"; "Discharge"]%string /\ dir = "Dischrge "%string).
  { unfold b_direction in DIR. destruct (String.eqb_spec cd "Charge") as [->|].
    - cbn in DIR. injection DIR as <-. cbn. auto.
    - destruct (String.eqb_spec cd "Discharge") as [->|]; cbn in DIR; [|discriminate]. injection DIR as <-. cbn. auto. }
  destruct DX as [DX ->].
  assert (CTL : controls_the_same d {| bs_type := a; bs_mode := b; bs_value := c; bs_ends := ends; bs_reports := reps |} /\ In a ["Dischrge "; "  Rest  "]%string).
  { unfold b_control in CT. unfold controls_the_same. cbn [bs_type bs_mode bs_value].
    destruct (String.eqb_spec ty "CC") as [->|_].
    { destruct (b_convert_current v u) eqn:C; cbn in CT; [|discriminate]. injection CT as <- <- <-. split; [|cbn; auto].
      eexists _, _, _. repeat (split; [apply fld_text; eassumption|]). left. repeat (split; [reflexivity|]). apply current_ok. exact C. }
    destruct (String.eqb_spec ty "CV") as [->|_].
    { destruct (String.eqb_spec vs "Ref") as [->|_]; cbn [andb] in CT; [|discriminate].
      destruct (b_convert_voltage v u) eqn:C; cbn in CT; [|discriminate]. injection CT as <- <- <-. split; [|cbn; auto].
      eexists _, _, _. repeat (split; [apply fld_text; eassumption|]). right. left. split; [reflexivity|]. split; [apply fld_text; assumption|].
      split; [reflexivity|]. apply voltage_ok. exact C. }
    cbn [andb] in CT. destruct (String.eqb_spec ty "CR") as [->|_].
    { destruct (b_convert_resistance v u) eqn:C; cbn in CT; [|discriminate]. injection CT as <- <- <-. split; [|cbn; auto].
      eexists _, _, _. repeat (split; [apply fld_text; eassumption|]). right. right. left. repeat (split; [reflexivity|]). apply resistance_ok. exact C. }
    destruct (String.eqb_spec ty "CP") as [->|_].
    { destruct (b_convert_power v u) eqn:C; cbn in CT; [|discriminate]. injection CT as <- <- <-. split; [|cbn; auto].
      eexists _, _, _. repeat (split; [apply fld_text; eassumption|]). right. right. right. left. repeat (split; [reflexivity|]). apply power_ok. exact C. }
    destruct (String.eqb_spec ty "Rest") as [->|_]; [|discriminate]. injection CT as <- <- <-. split; [|cbn; auto].
    eexists _, _, _. repeat (split; [apply fld_text; eassumption|]). right. right. right. right. auto. }
  destruct CTL as [CTL IA]. split; [exact CTL|]. split; [exists cd; split; [apply fld_text; assumption|auto]|].
  rewrite LE, LR, !Z2Nat.id by lia. split; [exact NL|]. split; [lia|].
  split; [intros k e KE; eapply create_end_says; [apply nth_lt in KE; lia|apply EN; exact KE]|].
  split; [exact NR|]. split; [lia|]. intros k r KR. eapply create_report_says; [apply nth_lt in KR; lia|apply RP; exact KR].
Qed.

(** ** The steps of a converted procedure *)
Lemma says_the_same show seqs l w n blocks : passes show seqs l w n blocks -> well_numbered seqs -> zero_plain seqs ->
  forall i d st, works seqs i -> nth_error seqs i = Some d -> working blocks i st ->
    exists nums sts en, create_step show nums sts en d = Ok st.
Proof.
  intros PS WN ZP i d st WK D (g & G & WG). destruct (to_info show seqs l w n blocks PS i d D) as (s & H & I).
  pose proof (proj1 (works_iff show seqs l w n blocks PS i s H) WK) as L.
  destruct (group_shape show seqs l w n blocks PS WN ZP i s g H G) as (_ & _ & _ & S4). destruct (S4 L) as (st' & C & GE).
  assert (st' = st) by (destruct WG as [->|(dd & ->)]; destruct (zmem (i_ns s) (w_starts w)); cbn in GE; congruence).
  subst st'. destruct (info_spec d s I) as (ID & _). rewrite ID in C. eauto.
Qed.
Lemma loop_counts show seqs l w n blocks : passes show seqs l w n blocks -> well_numbered seqs -> zero_plain seqs ->
  forall e a rep, repeats seqs e a -> loop_at seqs e a rep -> exists ad lp en t, nth_error blocks e = Some [ad; lp] /\ bs_ends lp = [en] /\
    be_type en = "Loop Cnt"%string /\ be_value en = ""%string /\ be_stepvalue en = Some t /\ integer t rep.
Proof.
  intros PS WN ZP e a rep R (d & D & _ & _ & RP). pose proof R as R0. destruct (to_info show seqs l w n blocks PS e d D) as (s & H & I).
  apply (repeats_iff show seqs l w n blocks PS WN ZP e a s H) in R. destruct R as (L & B & A & _).
  destruct (steps_loop_back show seqs l w n blocks PS WN ZP e a R0) as (ad & lp & en & G & EN & _).
  destruct (group_shape show seqs l w n blocks PS WN ZP e s _ H G) as (_ & _ & S3 & _). destruct (S3 B A L) as (lp' & C & [= -> ->]).
  destruct (info_spec d s I) as (ID & _). rewrite ID in C.
  unfold create_loop_step in C. destruct (int_fld d "ctrl_repeat") as [ct|] eqn:CT; cbn [bind] in C; [|discriminate].
  destruct (int_fld d "ctrl_seq") as [to|]; cbn [bind] in C; [|discriminate]. destruct (d_get Z.eqb (n_nums n) to) as [v|]; [|discriminate].
  destruct (negb _); [discriminate|]. injection C as <-. cbn in EN. injection EN as <-.
  apply int_fld_shows in CT. rewrite (shows_fun _ _ _ _ RP CT).
  eexists _, _, _, _. split; [exact G|]. cbn. repeat (split; [reflexivity|]). apply integer_iff, parse_str_int.
Qed.

(** ** There and back *)
Lemma digits_no_e ds c : Forall is_digit ds -> In c (list_ascii_of_string (digits_text ds)) -> c <> "e"%char /\ c <> "E"%char.
Proof.
  intros F I. assert (W : written ds (digits_text ds)) by (apply written_iff; auto). destruct W as [_ W]. rewrite W in I.
  apply in_map_iff in I. destruct I as (d & <- & DI). rewrite Forall_forall in F. specialize (F d DI). unfold is_digit in F.
  do 10 (destruct d as [|d]; [split; discriminate|]). lia.
Qed.
Lemma zeros_digits n : Forall is_digit (zeros n).
Proof. induction n; constructor; auto. unfold is_digit. lia. Qed.
Lemma fmt3_no_e x c : In c (list_ascii_of_string (fmt3 x)) -> c <> "e"%char /\ c <> "E"%char.
Proof.
  unfold fmt3, thousandths_text. generalize (round_even (x * 1000)). intros z. rewrite !in_app_chars. intros [I|[I|[I|I]]].
  - destruct (z <? 0)%Z; cbn in I; [destruct I as [<-|[]]; split; discriminate|destruct I].
  - eapply digits_no_e; [|exact I]. apply digits_of_spec. apply Z.div_pos; lia.
  - cbn in I. destruct I as [<-|[]]. split; discriminate.
  - eapply digits_no_e; [|exact I]. unfold pad3. apply Forall_app. split; [apply zeros_digits|].
    apply digits_of_spec. apply Z.mod_pos_bound. lia.
Qed.
Lemma fmt3_plain x y : denotes (fmt3 x) y -> plain (fmt3 x) y.
Proof. intro D. split; [apply decimal_iff; exact D|]. intros c I. eapply fmt3_no_e; eauto. Qed.
(** both directions, given that the writer uses fmt3 and the reader knows the unit *)
Lemma there_and_back units units' n conv back s x :
  keeps_value units n conv -> (forall v t u, conv v = Ok (t, u) -> exists y, t = fmt3 y) ->
  (forall u k, In (u, k) units -> In u (map fst units')) ->
  (forall v u, In u (map fst units') -> exists r, back v u = Ok r) -> (forall v u r, back v u = Ok r -> amount units' v u r) ->
  (forall u k k', In (u, k) units -> In (u, k') units' -> k = k') ->
  decimal s x -> (exists z, x * (10 # 1) ^ n == inject_Z z) ->
  exists t u r, conv s = Ok (t, u) /\ back t u = Ok r /\ decimal r x.
Proof.
  intros KV FM INC OKB AM SAME DX W. apply decimal_iff in DX. destruct (KV s x DX) as (t & u & q & k & C & DT & U & _ & EX). specialize (EX W).
  destruct (FM _ _ _ C) as (y & ->). destruct (OKB (fmt3 y) u (INC u k U)) as (r & R). exists (fmt3 y), u, r. split; [exact C|]. split; [exact R|].
  destruct (AM _ _ _ R) as (k' & K' & A). rewrite <- (SAME u k k' U K') in A. eapply decimal_q; [apply A, fmt3_plain; exact DT|exact EX].
Qed.
Ltac fm := let H := fresh in intros v t u H; unfold convert_volts, convert_amps, convert_watts, with_lit in H; destruct (parse_lit v); [|discriminate H]; injection H as H; repeat match type of H with (if ?c then _ else _) = _ => destruct c end; injection H as <- _; eauto.
Ltac inc := let H := fresh in intros u k H; cbn in *; repeat (destruct H as [H|H]; [injection H as <- <-; tauto|]); destruct H.
Ltac okb := let H := fresh in intros v u H; cbn in H; repeat (destruct H as [<-|H]; [eexists; reflexivity|]); destruct H.
Ltac same := let H := fresh in let G := fresh in intros u k k' H G; cbn in H, G;
  repeat (destruct H as [H|H]; [injection H as <- <-; repeat (destruct G as [G|G]; [first [discriminate G|injection G as <-; reflexivity]|]); destruct G|]); destruct H.
Lemma volts_back s x : decimal s x -> (exists z, x * (10 # 1) ^ 6 == inject_Z z) ->
  exists t u r, convert_volts s = Ok (t, u) /\ b_convert_voltage t u = Ok r /\ decimal r x.
Proof. apply (there_and_back volt_units volts 6 convert_volts b_convert_voltage s x volts_ok); [fm|inc|okb|exact voltage_ok|same]. Qed.
Lemma amps_back s x : decimal s x -> (exists z, x * (10 # 1) ^ 15 == inject_Z z) ->
  exists t u r, convert_amps s = Ok (t, u) /\ b_convert_current t u = Ok r /\ decimal r x.
Proof. apply (there_and_back amp_units amps 15 convert_amps b_convert_current s x amps_ok); [fm|inc|okb|exact current_ok|same]. Qed.
Lemma watts_back s x : decimal s x -> (exists z, x * (10 # 1) ^ 9 == inject_Z z) ->
  exists t u r, convert_watts s = Ok (t, u) /\ b_convert_power t u = Ok r /\ decimal r x.
Proof. apply (there_and_back watt_units watts 9 convert_watts b_convert_power s x watts_ok); [fm|inc|okb|exact power_ok|same]. Qed.
Lemma ohms_not_back s t u : convert_ohms s = Ok (t, u) -> b_convert_resistance t u = B2M_Exception.
Proof.
  unfold convert_ohms, with_lit. destruct (parse_lit s); [|discriminate]. intro H. injection H as H.
  repeat match type of H with (if ?c then _ else _) = _ => destruct c end; injection H as _ <-; reflexivity.
Qed.
Lemma time_back show text hs ms ss h m sec :
  str_split ":" text = [hs; ms; ss] -> field_is hs h -> field_is ms m -> field_is ss sec ->
  whole h -> whole m -> (exists z, sec * 100 == inject_Z z) ->
  exists t u v, convert_time text = Ok (t, u) /\ py_float t = Ok v /\
    (shown_plainly show v -> exists r, b_convert_time show v u = Ok r /\ time_text r (h * 3600 + m * 60 + sec)).
Proof.
  intros SP FH FM FS (zh & WH) (zm & WM) (zs & WS).
  destruct (time_exact text hs ms ss h m sec SP FH FM FS) as (t & u & q & k & C & DT & U & EX); [exists zh; exact WH|exists zm; exact WM|exists (10 * zs)%Z|].
  { rewrite inject_Z_mult, <- WS. change (inject_Z 10) with 10. ring. }
  destruct DT as (li & PL & LV). exists t, u, (lit_value li). split; [exact C|]. unfold py_float. rewrite PL. split; [reflexivity|]. intro SH.
  assert (DT : decimal t (lit_value li)) by (apply decimal_iff; exists li; split; [exact PL|reflexivity]).
  assert (TOT : h * 3600 + m * 60 + sec == inject_Z (zh * 360000 + zm * 6000 + zs) / 100).
  { rewrite !inject_Z_plus, !inject_Z_mult, <- WH, <- WM, <- WS. change (inject_Z 360000) with 360000. change (inject_Z 6000) with 6000. field. }
  set (z := (zh * 360000 + zm * 6000 + zs)%Z) in *.
  assert (OKR : exists r, b_convert_time show (lit_value li) u = Ok r).
  { unfold b_convert_time. cbn in U. destruct U as [U|[U|[U|[U|[]]]]]; injection U as <- <-; cbn [String.eqb Ascii.eqb Bool.eqb]; eauto.
    assert (V10 : lit_value li / 10 == inject_Z z). { rewrite LV. assert (Q1 : q == (q * (1 # 1000)) * 1000) by ring. rewrite Q1, EX, TOT. field. }
    rewrite (Qfloor_comp _ _ V10), Qfloor_Z.
    assert (R0 : lit_value li - 10 * inject_Z z == 0) by (rewrite <- V10; field).
    destruct (Qle_bool (1 # 10) (lit_value li - 10 * inject_Z z)) eqn:QL; [|cbn; eauto]. apply Qle_bool_iff in QL. rewrite R0 in QL. exfalso. lra. }
  destruct OKR as (r & R). exists r. split; [exact R|].
  destruct (time_ok show t _ u r _ DT (Qeq_refl _) R) as (x & DX & CASES).
  assert (XQ : x == q).
  { apply decimal_iff in DX. destruct DX as (l2 & P2 & E2). rewrite PL in P2. injection P2 as <-. rewrite <- E2. exact LV. }
  destruct CASES as [(k' & K' & T)|(-> & zz & T & NEAR)].
  - assert (KK : k' = k). { cbn in U, K'. destruct U as [U|[U|[U|[U|[]]]]]; injection U as <- <-; destruct K' as [K'|[K'|[K'|[]]]]; try discriminate K'; congruence. }
    eapply time_q; [apply T|]. + intros y Y. assert (Y' : y == lit_value li) by (rewrite Y, XQ, LV; reflexivity). destruct (SH y Y') as [A1 A2]. split; [|exact A2].
      eapply decimal_q; [exact A1|]. rewrite XQ, LV. reflexivity.
    + rewrite KK, XQ. exact EX.
  - assert (KK : k = 1 # 1000). { cbn in U. destruct U as [U|[U|[U|[U|[]]]]]; try discriminate U. congruence. }
    subst k. eapply time_q; [exact T|]. rewrite TOT. assert (XZ : x / 1000 == inject_Z z / 100) by (rewrite XQ, <- TOT, <- EX; field).
    rewrite XZ in NEAR. assert (zz = z); [|subst; reflexivity].
    apply Qabs_Qle_condition in NEAR. destruct NEAR as [N1 N2].
    assert (A : inject_Z zz / 100 == inject_Z zz * (1 # 100)) by reflexivity. assert (B : inject_Z z / 100 == inject_Z z * (1 # 100)) by reflexivity. rewrite A, B in *.
    assert (inject_Z zz < inject_Z (z + 1)) as A1 by (rewrite inject_Z_plus; change (inject_Z 1) with 1; lra).
    assert (inject_Z (z - 1) < inject_Z zz) as A2 by (unfold Z.sub; rewrite inject_Z_plus; change (inject_Z (- (1))) with (-(1)); lra).
    rewrite <- Zlt_Qlt in A1, A2. lia.
Qed.
