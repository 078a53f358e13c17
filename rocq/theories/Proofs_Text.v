(** Reading back what is printed. *)
From Verif Require Import Py Model_Text Proofs_Strings.
#[local] Ltac Zify.zify_post_hook ::= Z.to_euclidean_division_equations.

Definition is_digit (d : nat) : Prop := (d < 10)%nat.
Lemma digit_of_char d : is_digit d -> digit_of (digit_char d) = Some d.
Proof. unfold is_digit. intro H. do 10 (destruct d as [|d]; [reflexivity|]). lia. Qed.
Definition no_digit_head (s : string) : Prop := match s with EmptyString => True | String c _ => digit_of c = None end.
Lemma span_digits_text ds r : Forall is_digit ds -> no_digit_head r -> span_digits (digits_text ds ++ r) = (ds, r).
Proof.
  intros F N. induction F as [|d ds D F IH]; cbn [digits_text append span_digits].
  - destruct r as [|c r]; [reflexivity|]. cbn [span_digits no_digit_head] in *. rewrite N. reflexivity.
  - rewrite digit_of_char by exact D. rewrite IH. reflexivity.
Qed.
Lemma app_nil_r_s s : (s ++ "")%string = s.
Proof. induction s; simpl; congruence. Qed.

Lemma digits_val_app a b : digits_val (a ++ b) = (digits_val a * 10 ^ Z.of_nat (length b) + digits_val b)%Z.
Proof.
  unfold digits_val. rewrite fold_left_app. generalize (fold_left (fun a d => (10 * a + Z.of_nat d)%Z) a 0%Z). intro x. revert x.
  induction b as [|d b IH] using rev_ind; intro x; [simpl; lia|].
  rewrite !fold_left_app. cbn [fold_left]. rewrite IH, app_length. cbn [length].
  replace (Z.of_nat (length b + 1)) with (Z.of_nat (length b) + 1)%Z by lia. rewrite Z.pow_add_r by lia. lia.
Qed.
Lemma digits_val_cons d ds : digits_val (d :: ds) = (Z.of_nat d * 10 ^ Z.of_nat (length ds) + digits_val ds)%Z.
Proof. change (d :: ds) with ([d] ++ ds). rewrite digits_val_app. unfold digits_val at 1. cbn [fold_left]. lia. Qed.
Lemma digits_val_nonneg ds : (0 <= digits_val ds)%Z.
Proof. induction ds as [|d ds IH]; [reflexivity|]. rewrite digits_val_cons. assert (0 <= 10 ^ Z.of_nat (length ds))%Z by (apply Z.pow_nonneg; lia). nia. Qed.
Lemma digits_val_zeros n ds : digits_val (zeros n ++ ds) = digits_val ds.
Proof. induction n as [|n IH]; [reflexivity|]. cbn [zeros app]. rewrite digits_val_cons, IH. lia. Qed.

Lemma digits_aux_spec fuel : forall n acc, (0 <= n)%Z -> (n < 2 ^ Z.of_nat fuel)%Z -> (fuel > 0)%nat -> Forall is_digit acc ->
  exists ds, digits_aux fuel n acc = ds ++ acc /\ ds <> [] /\ Forall is_digit ds /\ digits_val ds = n.
Proof.
  induction fuel as [|k IH]; intros n acc N B P F; [lia|]. cbn [digits_aux].
  pose proof (Z.mod_pos_bound n 10 ltac:(lia)) as M. pose proof (Z.div_mod n 10 ltac:(lia)) as D.
  assert (ID : is_digit (Z.to_nat (n mod 10))) by (unfold is_digit; lia).
  destruct (n / 10 =? 0)%Z eqn:E.
  - apply Z.eqb_eq in E. exists [Z.to_nat (n mod 10)]. split; [reflexivity|]. split; [discriminate|]. split; [auto|].
    unfold digits_val. cbn [fold_left]. rewrite Z2Nat.id by lia. lia.
  - apply Z.eqb_neq in E. assert (Hq : (0 < n / 10)%Z) by (pose proof (Z.div_pos n 10 N ltac:(lia)); lia).
    destruct k as [|k].
    { change (2 ^ Z.of_nat 1)%Z with 2%Z in B. exfalso. lia. }
    destruct (IH (n / 10)%Z (Z.to_nat (n mod 10) :: acc)) as (ds & -> & NE & FD & V); [lia| |lia|auto|].
    { rewrite Nat2Z.inj_succ, Z.pow_succ_r in B by lia. lia. }
    exists (ds ++ [Z.to_nat (n mod 10)]). split; [rewrite <- app_assoc; reflexivity|]. split; [destruct ds; discriminate|].
    split; [apply Forall_app; auto|]. rewrite digits_val_app, V. unfold digits_val. cbn [fold_left length].
    change (10 ^ Z.of_nat 1)%Z with 10%Z. rewrite Z2Nat.id by lia. lia.
Qed.
Lemma digits_of_spec n : (0 <= n)%Z -> digits_of n <> [] /\ Forall is_digit (digits_of n) /\ digits_val (digits_of n) = n.
Proof.
  intro N. unfold digits_of. destruct (digits_aux_spec (S (Z.to_nat (Z.log2 n))) n []) as (ds & -> & A & B & C); auto; try lia.
  - rewrite Nat2Z.inj_succ, Z2Nat.id by apply Z.log2_nonneg. destruct (Z.eq_dec n 0) as [->|Z0]; [reflexivity|]. apply Z.log2_spec. lia.
  - rewrite app_nil_r. auto.
Qed.
Lemma digit_not_sign d : is_digit d -> Ascii.eqb (digit_char d) "-" = false /\ Ascii.eqb (digit_char d) "+" = false.
Proof. unfold is_digit. intro H. do 10 (destruct d as [|d]; [split; reflexivity|]). lia. Qed.
Lemma take_sign_digits ds r : Forall is_digit ds -> ds <> [] -> take_sign (digits_text ds ++ r) = (false, (digits_text ds ++ r)%string).
Proof.
  intros F N. destruct ds as [|d ds]; [contradiction|]. inversion F as [|? ? D F']; subst. cbn [digits_text]. cbn [append take_sign].
  destruct (digit_not_sign d D) as [-> ->]. reflexivity.
Qed.
Lemma parse_int_digits ds : Forall is_digit ds -> ds <> [] -> parse_int (digits_text ds) = Some (digits_val ds).
Proof.
  intros F N. unfold parse_int. pose proof (take_sign_digits ds "" F N) as T. rewrite app_nil_r_s in T. rewrite T.
  pose proof (span_digits_text ds "" F I) as S. rewrite app_nil_r_s in S. rewrite S. destruct ds; [contradiction|reflexivity].
Qed.
Lemma parse_str_int n : parse_int (str_int n) = Some n.
Proof.
  unfold str_int. destruct (n <? 0)%Z eqn:E.
  - apply Z.ltb_lt in E. destruct (digits_of_spec (- n) ltac:(lia)) as (A & B & C). unfold parse_int. cbn [take_sign]. rewrite Ascii.eqb_refl.
    pose proof (span_digits_text _ "" B I) as S. rewrite app_nil_r_s in S. rewrite S. destruct (digits_of (- n)); [contradiction|]. rewrite C. f_equal. lia.
  - apply Z.ltb_ge in E. destruct (digits_of_spec n E) as (A & B & C). rewrite parse_int_digits by assumption. congruence.
Qed.
Lemma zeros_digit n : Forall is_digit (zeros n).
Proof. induction n; simpl; constructor; auto. unfold is_digit. lia. Qed.
Lemma parse_zfill w n : (0 <= n)%Z -> parse_int (zfill w (str_int n)) = Some n.
Proof.
  intro N. unfold zfill, str_int. destruct (n <? 0)%Z eqn:E; [apply Z.ltb_lt in E; lia|]. destruct (digits_of_spec n N) as (A & B & C).
  assert (J : forall a b, (digits_text a ++ digits_text b)%string = digits_text (a ++ b)). { induction a as [|x a IH]; intro b; cbn [digits_text append app]; [reflexivity|rewrite IH; reflexivity]. }
  rewrite J, parse_int_digits.
  - rewrite digits_val_zeros, C. reflexivity.
  - apply Forall_app; split; [apply zeros_digit|exact B].
  - destruct (zeros _); [exact A|discriminate].
Qed.

Lemma round_even_near q : Qabs (inject_Z (round_even q) - q) <= 1 # 2.
Proof.
  unfold round_even. pose proof (Qfloor_le q) as L. pose proof (Qlt_floor q) as U. rewrite inject_Z_plus in U. change (inject_Z 1) with 1%Q in U.
  set (f := Qfloor q) in *. apply Qabs_Qle_condition.
  assert (P1 : inject_Z (f + 1) == inject_Z f + 1) by (rewrite inject_Z_plus; reflexivity).
  destruct (Qlt_bool (q - inject_Z f) (1 # 2)) eqn:A; unfold Qlt_bool in A.
  - apply negb_true_iff in A. assert (q - inject_Z f < 1 # 2). { apply Qnot_le_lt. intro K. apply Qle_bool_iff in K. congruence. } split; lra.
  - apply negb_false_iff in A. apply Qle_bool_iff in A. destruct (Qlt_bool (1 # 2) (q - inject_Z f)) eqn:B; unfold Qlt_bool in B.
    + rewrite P1. split; lra.
    + apply negb_false_iff in B. apply Qle_bool_iff in B. destruct (Z.even f); [|rewrite P1]; split; lra.
Qed.
Lemma round_even_int q z : q == inject_Z z -> round_even q = z.
Proof.
  intro E. unfold round_even. rewrite (Qfloor_comp _ _ E), Qfloor_Z. unfold Qlt_bool.
  assert (K : Qle_bool (1 # 2) (q - inject_Z z) = false).
  { destruct (Qle_bool (1 # 2) (q - inject_Z z)) eqn:K; [|reflexivity]. apply Qle_bool_iff in K. rewrite E in K. lra. }
  rewrite K. reflexivity.
Qed.

Lemma parse_thousandths z : exists l, parse_lit (thousandths_text z) = Some l /\ lit_value l == inject_Z z / 1000.
Proof.
  unfold thousandths_text. set (a := Z.abs z). assert (A0 : (0 <= a)%Z) by (unfold a; lia).
  destruct (digits_of_spec (a / 1000)) as (I1 & I2 & I3); [apply Z.div_pos; lia|].
  pose proof (Z.mod_pos_bound a 1000 ltac:(lia)) as M.
  destruct (digits_of_spec (a mod 1000)) as (F1 & F2 & F3); [lia|].
  set (ip := digits_of (a / 1000)) in *. set (fd := digits_of (a mod 1000)) in *.
  assert (LF : (length (pad3 fd) = 3)%nat).
  { assert (LZ : forall n, length (zeros n) = n) by (induction n; simpl; congruence).
    unfold pad3. rewrite app_length, LZ. assert (length fd <= 3)%nat; [|lia].
    unfold fd. clear -M. remember (a mod 1000)%Z as m eqn:Hm. clear Hm.
    assert (E : length (digits_of m) = if (m <? 10)%Z then 1%nat else if (m <? 100)%Z then 2%nat else 3%nat).
    { unfold digits_of.
      assert (G : forall fuel n acc, (0 <= n < 10)%Z -> length (digits_aux (S fuel) n acc) = S (length acc)).
      { intros fuel n acc H. cbn [digits_aux]. rewrite Z.div_small by lia. reflexivity. }
      assert (G2 : forall fuel n acc, (10 <= n < 100)%Z -> length (digits_aux (S (S fuel)) n acc) = S (S (length acc))).
      { intros fuel n acc H. cbn [digits_aux]. destruct (n / 10 =? 0)%Z eqn:E; [apply Z.eqb_eq in E; lia|].
        change (length (digits_aux (S fuel) (n / 10) (Z.to_nat (n mod 10) :: acc)) = S (S (length acc))). rewrite G by lia. reflexivity. }
      destruct (m <? 10)%Z eqn:E1; [apply Z.ltb_lt in E1; rewrite G by lia; reflexivity|apply Z.ltb_ge in E1].
      destruct (m <? 100)%Z eqn:E2.
      - apply Z.ltb_lt in E2. assert (LL : (3 <= Z.log2 m)%Z) by (apply Z.log2_le_pow2; simpl; lia).
        destruct (Z.to_nat (Z.log2 m)) as [|k] eqn:K; [lia|]. rewrite G2 by lia. reflexivity.
      - apply Z.ltb_ge in E2. assert (LL : (6 <= Z.log2 m)%Z) by (apply Z.log2_le_pow2; simpl; lia).
        destruct (Z.to_nat (Z.log2 m)) as [|[|k]] eqn:K; [lia|lia|]. remember (S (S k)) as k2. cbn [digits_aux].
        destruct (m / 10 =? 0)%Z eqn:E; [apply Z.eqb_eq in E; lia|]. subst k2. rewrite G2 by lia. reflexivity. }
    rewrite E. destruct (m <? 10)%Z; [lia|]. destruct (m <? 100)%Z; lia. }
  assert (FP : Forall is_digit (pad3 fd)) by (unfold pad3; apply Forall_app; split; [apply zeros_digit|exact F2]).
  assert (VP : digits_val (pad3 fd) = (a mod 1000)%Z) by (unfold pad3; rewrite digits_val_zeros; exact F3).
  set (neg := (z <? 0)%Z).
  exists {| l_neg := neg; l_int := ip; l_frac := pad3 fd; l_exp := 0 |}. split.
  - unfold parse_lit.
    assert (T : take_sign ((if neg then "-" else "") ++ digits_text ip ++ "." ++ digits_text (pad3 fd)) = (neg, (digits_text ip ++ "." ++ digits_text (pad3 fd))%string)).
    { destruct neg; [reflexivity|]. cbn [append]. apply take_sign_digits; assumption. }
    rewrite T. rewrite span_digits_text by (try exact I2; reflexivity). cbn [append]. rewrite Ascii.eqb_refl.
    pose proof (span_digits_text (pad3 fd) "" FP I) as S. rewrite app_nil_r_s in S. rewrite S. cbn [parse_exp].
    destruct ip; [contradiction|reflexivity].
  - unfold lit_value. cbn [l_neg l_int l_frac l_exp]. rewrite digits_val_app, I3, VP, LF.
    change (10 ^ Z.of_nat 3)%Z with 1000%Z. change (0 - Z.of_nat 3)%Z with (-3)%Z. change ((10 # 1) ^ -3)%Q with (1 # 1000).
    replace (a / 1000 * 1000 + a mod 1000)%Z with a by (pose proof (Z.div_mod a 1000 ltac:(lia)); lia).
    unfold neg, a. destruct (z <? 0)%Z eqn:E.
    + apply Z.ltb_lt in E. rewrite Z.abs_neq by lia. rewrite inject_Z_opp. field.
    + apply Z.ltb_ge in E. rewrite Z.abs_eq by lia. field.
Qed.
