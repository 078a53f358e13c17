(** The reader of Model_Text reads numerals as they are meant. *)
From Verif Require Import Py Model_Text Proofs_Text Proofs_Strings Spec_Units Spec_Numeral.

Lemma place_is_val ds : place_value ds = digits_val ds.
Proof. induction ds as [|d ds IH]; [reflexivity|]. rewrite digits_val_cons. cbn [place_value]. rewrite IH. reflexivity. Qed.
Lemma sign_char d : (d < 10)%nat -> digit_sign d = digit_char d.
Proof. intros H. do 10 (destruct d as [|d]; [reflexivity|]). lia. Qed.
Lemma list_ascii_inj : forall a b, list_ascii_of_string a = list_ascii_of_string b -> a = b.
Proof. induction a as [|x a IH]; intros [|y b]; cbn; try discriminate; [reflexivity|]. intros [= -> E]. f_equal. apply IH. exact E. Qed.
Lemma written_iff ds s : written ds s <-> Forall is_digit ds /\ s = digits_text ds.
Proof.
  unfold written. split.
  - intros (F & E). split; [exact F|]. apply list_ascii_inj. rewrite E. clear E. induction F as [|d ds D F IH]; [reflexivity|].
    cbn [map digits_text list_ascii_of_string]. rewrite IH, (sign_char d D). reflexivity.
  - intros (F & ->). split; [exact F|]. induction F as [|d ds D F IH]; [reflexivity|].
    cbn [map digits_text list_ascii_of_string]. rewrite IH, (sign_char d D). reflexivity.
Qed.
Lemma digit_of_inv c d : digit_of c = Some d -> is_digit d /\ c = digit_char d.
Proof.
  unfold digit_of, is_digit, digit_char. destruct (_ && _) eqn:E; [|discriminate]. intros [= <-]. apply andb_true_iff in E. destruct E as [E1 E2].
  apply Nat.leb_le in E1, E2. split; [lia|]. replace (48 + (nat_of_ascii c - 48))%nat with (nat_of_ascii c) by lia. symmetry. apply ascii_nat_embedding.
Qed.
Lemma span_inv : forall s ds r, span_digits s = (ds, r) -> s = (digits_text ds ++ r)%string /\ Forall is_digit ds /\ no_digit_head r.
Proof.
  induction s as [|c s IH]; intros ds r; cbn [span_digits].
  - intros [= <- <-]. repeat split. constructor.
  - destruct (digit_of c) as [d|] eqn:D.
    + destruct (span_digits s) as [ds' r'] eqn:E. intros [= <- <-]. destruct (IH _ _ eq_refl) as (-> & F & N). destruct (digit_of_inv c d D) as (D1 & ->).
      split; [reflexivity|]. split; [constructor; assumption|exact N].
    + intros [= <- <-]. split; [reflexivity|]. split; [constructor|exact D].
Qed.
Lemma sign_inv s neg r : take_sign s = (neg, r) -> exists sgn, s = (sgn ++ r)%string /\ signed sgn neg.
Proof.
  unfold take_sign. destruct s as [|c s]; [intros [= <- <-]; exists ""%string; split; [reflexivity|left; auto]|].
  destruct (Ascii.eqb_spec c "-") as [->|]; [intros [= <- <-]; exists "-"%string; split; [reflexivity|right; auto]|].
  destruct (Ascii.eqb_spec c "+") as [->|]; intros [= <- <-]; [exists "+"%string|exists ""%string]; (split; [reflexivity|left; auto]).
Qed.
Definition unsigned (s : string) : Prop := match s with String c _ => c <> "-"%char /\ c <> "+"%char | EmptyString => True end.
Lemma sign_take sgn neg r : signed sgn neg -> unsigned r -> take_sign (sgn ++ r) = (neg, r).
Proof.
  intros [([-> | ->] & ->)|(-> & ->)] U; cbn [append take_sign]; try reflexivity.
  unfold take_sign. destruct r as [|c r]; [reflexivity|]. destruct U as [U1 U2].
  destruct (Ascii.eqb_spec c "-"); [contradiction|]. destruct (Ascii.eqb_spec c "+"); [contradiction|]. reflexivity.
Qed.
Lemma digits_unsigned ds r : Forall is_digit ds -> ds <> [] -> unsigned (digits_text ds ++ r).
Proof.
  intros F N. destruct ds as [|d ds]; [contradiction|]. inversion F as [|? ? D F']; subst. destruct (digit_not_sign d D) as [A B]. cbn [digits_text append unsigned].
  split; intros E; [rewrite E, Ascii.eqb_refl in A; discriminate|rewrite E, Ascii.eqb_refl in B; discriminate].
Qed.
Theorem integer_iff s z : parse_int s = Some z <-> integer s z.
Proof.
  unfold parse_int, integer. split.
  - destruct (take_sign s) as [neg r] eqn:T. destruct (span_digits r) as [[|d ds] r'] eqn:S0; [discriminate|]. destruct r' as [|c r']; [|discriminate].
    intros [= <-]. destruct (sign_inv _ _ _ T) as (sgn & -> & SG). destruct (span_inv _ _ _ S0) as (-> & F & _). rewrite app_nil_r_s.
    exists sgn, neg, (d :: ds), (digits_text (d :: ds)). split; [reflexivity|]. split; [exact SG|]. split; [discriminate|]. split; [apply written_iff; auto|].
    rewrite place_is_val. reflexivity.
  - intros (sgn & neg & ds & body & -> & SG & NE & W & ->). apply written_iff in W. destruct W as (F & ->).
    rewrite (sign_take sgn neg _ SG). 2:{ pose proof (digits_unsigned ds "" F NE) as U. rewrite app_nil_r_s in U. exact U. }
    pose proof (span_digits_text ds "" F I) as E. rewrite app_nil_r_s in E. rewrite E, place_is_val. destruct ds; [contradiction|reflexivity].
Qed.
Lemma expo_head es ex : (ex = 0%Z /\ es = ""%string \/ exists t c, integer t ex /\ (c = "e"%string \/ c = "E"%string) /\ es = (c ++ t)%string) ->
  parse_exp es = Some ex /\ no_digit_head es /\ (forall s, es <> String "." s) /\ unsigned es.
Proof.
  intros [(-> & ->)|(t & c & T & C & ->)].
  - repeat split. discriminate.
  - destruct C as [-> | ->]; cbn; (split; [apply integer_iff; exact T|]); repeat split; discriminate.
Qed.
Theorem decimal_iff s x : denotes s x <-> decimal s x.
Proof.
  unfold denotes, decimal. split.
  - intros (l & P & E). unfold parse_lit in P. destruct (take_sign s) as [neg r] eqn:T. destruct (span_digits r) as [ip r1] eqn:S1.
    destruct (match r1 with EmptyString => ([], r1) | String c r1' => if Ascii.eqb c "." then span_digits r1' else ([], r1) end) as [fp r2] eqn:S2.
    destruct (ip ++ fp) as [|d0 ds0] eqn:NE; [discriminate P|]. destruct (parse_exp r2) as [ex|] eqn:PE; [|discriminate P]. injection P as <-.
    destruct (sign_inv _ _ _ T) as (sgn & -> & SG). destruct (span_inv _ _ _ S1) as (-> & F1 & N1).
    assert (FR : Forall is_digit fp /\ exists fs, r1 = (fs ++ r2)%string /\ (fp = [] /\ fs = ""%string \/ exists t, written fp t /\ fs = ("." ++ t)%string)).
    { destruct r1 as [|c r1']. { injection S2 as <- <-. split; [constructor|]. exists ""%string. split; [reflexivity|left; auto]. }
      destruct (Ascii.eqb_spec c ".") as [->|].
      - destruct (span_inv _ _ _ S2) as (-> & F2 & _). split; [exact F2|]. exists ("." ++ digits_text fp)%string. split; [reflexivity|]. right. eexists. split; [apply written_iff; eauto|reflexivity].
      - injection S2 as <- <-. split; [constructor|]. exists ""%string. split; [reflexivity|left; auto]. }
    destruct FR as (F2 & fs & -> & FS).
    exists sgn, neg, ip, (digits_text ip), fp, fs, ex, r2. split; [reflexivity|]. split; [exact SG|]. split; [apply written_iff; auto|].
    split; [rewrite NE; discriminate|]. split; [exact FS|]. split.
    + unfold parse_exp in PE. destruct r2 as [|c r2']. { injection PE as <-. left. auto. }
      right. destruct (Ascii.eqb_spec c "e") as [->|]; [exists r2', "e"%string; split; [apply integer_iff; exact PE|auto]|].
      destruct (Ascii.eqb_spec c "E") as [->|]; [exists r2', "E"%string; split; [apply integer_iff; exact PE|auto]|]. discriminate PE.
    + rewrite place_is_val, <- E. unfold lit_value. cbn [l_neg l_int l_frac l_exp]. destruct neg; ring.
  - intros (sgn & neg & ip & is & fp & fs & ex & es & -> & SG & W1 & NE & FS & EX & X). apply written_iff in W1. destruct W1 as (F1 & ->).
    destruct (expo_head es ex EX) as (PE & NH & ND & UN).
    assert (FH : no_digit_head (fs ++ es) /\ Forall is_digit fp /\ match (fs ++ es)%string with EmptyString => ([], (fs ++ es)%string) | String c r1' => if Ascii.eqb c "." then span_digits r1' else ([], (fs ++ es)%string) end = (fp, es)).
    { destruct FS as [(-> & ->)|(t & W & ->)].
      - cbn [append]. split; [exact NH|]. split; [constructor|]. destruct es as [|c es]; [reflexivity|]. destruct (Ascii.eqb_spec c ".") as [->|]; [contradiction (ND es); reflexivity|reflexivity].
      - apply written_iff in W. destruct W as (F2 & ->). cbn [append]. split; [reflexivity|]. split; [exact F2|]. cbn [Ascii.eqb Bool.eqb]. apply span_digits_text; assumption. }
    destruct FH as (FH & F2 & FSP).
    exists {| l_neg := neg; l_int := ip; l_frac := fp; l_exp := ex |}. split.
    + unfold parse_lit. rewrite (sign_take sgn neg _ SG).
      2:{ destruct ip as [|d ip]; [|apply digits_unsigned; [exact F1|discriminate]]. cbn [digits_text append]. destruct FS as [(-> & ->)|(t & W & ->)]; [exact UN|]. cbn. split; discriminate. }
      rewrite (span_digits_text ip (fs ++ es) F1 FH), FSP. rewrite PE. destruct (ip ++ fp); [contradiction|reflexivity].
    + rewrite X, place_is_val. unfold lit_value. cbn [l_neg l_int l_frac l_exp]. destruct neg; ring.
Qed.
