(** Lemmas for C29, C30. *)
From Coq Require Import QArith.Qpower.
From Verif Require Import Py Num Model_Text Model_Units Spec_Units Proofs_Text Proofs_Strings.

Lemma fmt3_denotes x : denotes (fmt3 x) (inject_Z (round_even (x * 1000)) / 1000).
Proof. unfold fmt3, denotes. destruct (parse_thousandths (round_even (x * 1000))) as (l & A & B). eauto. Qed.
Lemma fmt3_near x : exists q, denotes (fmt3 x) q /\ Qabs (q - x) <= 1 # 2000.
Proof.
  exists (inject_Z (round_even (x * 1000)) / 1000). split; [apply fmt3_denotes|].
  pose proof (round_even_near (x * 1000)) as H. apply Qabs_Qle_condition in H. apply Qabs_Qle_condition.
  set (r := inject_Z (round_even (x * 1000))) in *. assert (r / 1000 == r * (1 # 1000)) by field. rewrite H0. destruct H; split; lra.
Qed.
Lemma fmt3_exact x z : x * 1000 == inject_Z z -> denotes (fmt3 x) x.
Proof.
  intro E. unfold fmt3. destruct (parse_thousandths (round_even (x * 1000))) as (l & A & B). exists l. split; [exact A|].
  rewrite B, (round_even_int _ _ E), <- E. field.
Qed.

Lemma drop_zeros_split ds : exists n, ds = zeros n ++ drop_zeros ds.
Proof.
  induction ds as [|d ds [n IH]]; [exists 0%nat; reflexivity|]. destruct d; [|exists 0%nat; reflexivity].
  exists (S n). simpl. congruence.
Qed.
Lemma zeros_rev n : rev (zeros n) = zeros n.
Proof. induction n; [reflexivity|]. simpl. rewrite IHn. clear. induction n; simpl; congruence. Qed.
Lemma zeros_length n : length (zeros n) = n.
Proof. induction n; simpl; congruence. Qed.
Lemma digits_val_zeros_r ds n : digits_val (ds ++ zeros n) = (digits_val ds * 10 ^ Z.of_nat n)%Z.
Proof.
  rewrite digits_val_app, zeros_length. assert (Z0 : digits_val (zeros n) = 0%Z) by (rewrite <- (app_nil_r (zeros n)); rewrite digits_val_zeros; reflexivity).
  rewrite Z0. lia.
Qed.
Lemma ten_neq : ~ 10 # 1 == 0.
Proof. discriminate. Qed.
Lemma pow_ten_Z n : (0 <= n)%Z -> (10 # 1) ^ n == inject_Z (10 ^ n).
Proof. intro H. change (10 # 1) with (inject_Z 10). rewrite Zpower_Qpower by exact H. reflexivity. Qed.
(** A literal is a multiple of 10^-(its decimals). *)
Lemma sig_figs_whole l n : (sig_figs l <= n)%Z -> exists z, lit_value l * (10 # 1) ^ n == inject_Z z.
Proof.
  intro H. unfold sig_figs in H. destruct (drop_zeros_split (rev (l_frac l))) as (k & E).
  apply (f_equal (@rev nat)) in E. rewrite rev_involutive, rev_app_distr, zeros_rev in E.
  set (f := rev (drop_zeros (rev (l_frac l)))) in *.
  assert (LF : length (drop_zeros (rev (l_frac l))) = length f) by (unfold f; rewrite rev_length; reflexivity). rewrite LF in H.
  unfold lit_value. rewrite E. rewrite app_assoc, digits_val_zeros_r, app_length, zeros_length.
  set (v := digits_val (l_int l ++ f)).
  assert (X : inject_Z (v * 10 ^ Z.of_nat k) * (10 # 1) ^ (l_exp l - Z.of_nat (length f + k)) * (10 # 1) ^ n
              == inject_Z (v * 10 ^ (n + l_exp l - Z.of_nat (length f)))).
  { rewrite !inject_Z_mult, <- !pow_ten_Z by lia. rewrite <- !Qmult_assoc. apply Qmult_comp; [reflexivity|].
    rewrite <- !Qpower_plus by exact ten_neq. replace (Z.of_nat k + (l_exp l - Z.of_nat (length f + k) + n))%Z with (n + l_exp l - Z.of_nat (length f))%Z by lia. reflexivity. }
  destruct (l_neg l).
  - exists (- (v * 10 ^ (n + l_exp l - Z.of_nat (length f))))%Z. rewrite inject_Z_opp, <- X. ring.
  - exists (v * 10 ^ (n + l_exp l - Z.of_nat (length f)))%Z. exact X.
Qed.
Lemma whole_more x m n : (m <= n)%Z -> (exists z, x * (10 # 1) ^ m == inject_Z z) -> exists z, x * (10 # 1) ^ n == inject_Z z.
Proof.
  intros H (z & E). exists (z * 10 ^ (n - m))%Z. replace n with (m + (n - m))%Z at 1 by lia. rewrite Qpower_plus by exact ten_neq.
  rewrite Qmult_assoc, E, pow_ten_Z, inject_Z_mult by lia. reflexivity.
Qed.
(** One branch: unit [k] = 1 / scale. *)
Lemma branch (x : Q) (scale k : Q) (m : Z) (l : lit) : scale * k == 1 -> 0 < k -> scale * 1000 == (10 # 1) ^ m ->
  exists q, denotes (fmt3 (x * scale)) q /\ Qabs (q * k - x) <= k / 2000 /\ ((exists z, x * (10 # 1) ^ m == inject_Z z) -> q * k == x).
Proof.
  intros SK K P.
  exists (inject_Z (round_even (x * scale * 1000)) / 1000). split; [apply fmt3_denotes|]. split.
  - pose proof (round_even_near (x * scale * 1000)) as H. set (r := inject_Z (round_even (x * scale * 1000))) in *.
    assert (E : r / 1000 * k - x == (r - x * scale * 1000) * (k / 1000)).
    { transitivity (r / 1000 * k - x * (scale * k)); [rewrite SK; ring|field]. }
    rewrite E, Qabs_Qmult. rewrite (Qabs_pos (k / 1000)) by (unfold Qdiv; apply Qmult_le_0_compat; [lra|discriminate]).
    setoid_replace (k / 2000) with ((1 # 2) * (k / 1000)) by field.
    apply Qmult_le_compat_r; [exact H|]. unfold Qdiv. apply Qmult_le_0_compat; [lra|discriminate].
  - intros (z & E). assert (R : round_even (x * scale * 1000) = z). { apply round_even_int. rewrite <- E, <- P. ring. }
    rewrite R, <- E, <- P. transitivity (x * (scale * k)); [field|rewrite SK; ring].
Qed.
Lemma branch1 (x : Q) (m : Z) : m = 3%Z ->
  exists q, denotes (fmt3 x) q /\ Qabs (q * 1 - x) <= 1 / 2000 /\ ((exists z, x * (10 # 1) ^ m == inject_Z z) -> q * 1 == x).
Proof.
  intros ->. exists (inject_Z (round_even (x * 1000)) / 1000). split; [apply fmt3_denotes|]. split.
  - pose proof (round_even_near (x * 1000)) as H. set (r := inject_Z (round_even (x * 1000))) in *.
    setoid_replace (r / 1000 * 1 - x) with ((r - x * 1000) * (1 # 1000)) by field. rewrite Qabs_Qmult. change (Qabs (1 # 1000)) with (1 # 1000).
    setoid_replace (1 / 2000) with ((1 # 2) * (1 # 1000)) by reflexivity. apply Qmult_le_compat_r; [exact H|discriminate].
  - intros (z & E). change ((10 # 1) ^ 3) with (1000 # 1) in E. rewrite (round_even_int _ _ E), <- E. field.
Qed.
Lemma or_sig a d n : a || (n <? d)%Z = false -> (d <= n)%Z.
Proof. intro H. apply orb_false_iff in H. destruct H as [_ H]. apply Z.ltb_ge in H. exact H. Qed.
Ltac close_branch LV scale k m :=
  match goal with |- context [fmt3 (lit_value ?l * scale)] =>
    destruct (branch (lit_value l) scale k m l) as (q & D & N & E); [reflexivity|reflexivity|reflexivity|];
    eexists _, _, q, k; split; [reflexivity|]; split; [exact D|]; split; [simpl; tauto|];
    split; [rewrite <- LV; exact N|]
  end.
Lemma volts_ok : keeps_value volt_units 6 convert_volts.
Proof.
  intros s x (l & PL & LV). unfold convert_volts, with_lit. rewrite PL.
  destruct (Qlt_bool (lit_value l) 1 || (3 <? sig_figs l)%Z) eqn:B1.
  - close_branch LV (1000 # 1) (1 # 1000) 6%Z. intro W. rewrite <- LV. apply E. destruct W as (z & W); exists z; rewrite LV; exact W.
  - apply or_sig in B1. destruct (branch1 (lit_value l) 3 eq_refl) as (q & D & N & E). eexists _, _, q, 1. split; [reflexivity|]. split; [exact D|]. split; [simpl; tauto|].
    split; [rewrite <- LV; exact N|]. intros _. rewrite <- LV. apply E. apply sig_figs_whole. exact B1.
Qed.
Lemma amps_ok : keeps_value amp_units 15 convert_amps.
Proof.
  intros s x (l & PL & LV). unfold convert_amps, with_lit. rewrite PL. cbv zeta.
  destruct (Qlt_bool (lit_value l) (1 # 1000000000) || (12 <? sig_figs l)%Z) eqn:B1.
  { close_branch LV (1000000000000 # 1) (1 # 1000000000000) 15%Z. intro W. rewrite <- LV. apply E. destruct W as (z & W); exists z; rewrite LV; exact W. }
  apply or_sig in B1. destruct (Qlt_bool (lit_value l) (1 # 1000000) || (9 <? sig_figs l)%Z) eqn:B2.
  { close_branch LV (1000000000 # 1) (1 # 1000000000) 12%Z. intros _. rewrite <- LV. apply E. apply sig_figs_whole. exact B1. }
  apply or_sig in B2. destruct (Qlt_bool (lit_value l) (1 # 1000) || (6 <? sig_figs l)%Z) eqn:B3.
  { close_branch LV (1000000 # 1) (1 # 1000000) 9%Z. intros _. rewrite <- LV. apply E. apply sig_figs_whole. exact B2. }
  apply or_sig in B3. destruct (Qlt_bool (lit_value l) 1 || (3 <? sig_figs l)%Z) eqn:B4.
  { close_branch LV (1000 # 1) (1 # 1000) 6%Z. intros _. rewrite <- LV. apply E. apply sig_figs_whole. exact B3. }
  apply or_sig in B4. destruct (branch1 (lit_value l) 3 eq_refl) as (q & D & N & E). eexists _, _, q, 1. split; [reflexivity|]. split; [exact D|]. split; [simpl; tauto|].
  split; [rewrite <- LV; exact N|]. intros _. rewrite <- LV. apply E. apply sig_figs_whole. exact B4.
Qed.
Lemma watts_ok : keeps_value watt_units 9 convert_watts.
Proof.
  intros s x (l & PL & LV). unfold convert_watts, with_lit. rewrite PL. cbv zeta.
  destruct (Qlt_bool (lit_value l) (1 # 1000) || (6 <? sig_figs l)%Z) eqn:B3.
  { close_branch LV (1000000 # 1) (1 # 1000000) 9%Z. intro W. rewrite <- LV. apply E. destruct W as (z & W); exists z; rewrite LV; exact W. }
  apply or_sig in B3. destruct (Qlt_bool (lit_value l) 1 || (3 <? sig_figs l)%Z) eqn:B4.
  { close_branch LV (1000 # 1) (1 # 1000) 6%Z. intros _. rewrite <- LV. apply E. apply sig_figs_whole. exact B3. }
  apply or_sig in B4. destruct (branch1 (lit_value l) 3 eq_refl) as (q & D & N & E). eexists _, _, q, 1. split; [reflexivity|]. split; [exact D|]. split; [simpl; tauto|].
  split; [rewrite <- LV; exact N|]. intros _. rewrite <- LV. apply E. apply sig_figs_whole. exact B4.
Qed.
Lemma ohms_ok : keeps_value ohm_units 9 convert_ohms.
Proof.
  intros s x (l & PL & LV). unfold convert_ohms, with_lit. rewrite PL. cbv zeta.
  destruct (Qlt_bool (lit_value l) (1 # 1000) || (6 <? sig_figs l)%Z) eqn:B3.
  { close_branch LV (1000000 # 1) (1 # 1000000) 9%Z. intro W. rewrite <- LV. apply E. destruct W as (z & W); exists z; rewrite LV; exact W. }
  apply or_sig in B3. destruct (Qlt_bool (lit_value l) 1 || (3 <? sig_figs l)%Z) eqn:B4.
  { close_branch LV (1000 # 1) (1 # 1000) 6%Z. intros _. rewrite <- LV. apply E. apply sig_figs_whole. exact B3. }
  apply or_sig in B4. destruct (Qlt_bool (lit_value l) 1000 || (0 <? sig_figs l)%Z) eqn:B5.
  { destruct (branch1 (lit_value l) 3 eq_refl) as (q & D & N & E). eexists _, _, q, 1. split; [reflexivity|]. split; [exact D|]. split; [simpl; tauto|].
    split; [rewrite <- LV; exact N|]. intros _. rewrite <- LV. apply E. apply sig_figs_whole. exact B4. }
  apply or_sig in B5. destruct (Qlt_bool (lit_value l) 1000000 || (-3 <? sig_figs l)%Z) eqn:B6.
  { close_branch LV (1 # 1000) (1000 # 1) 0%Z. intros _. rewrite <- LV. apply E. apply sig_figs_whole. exact B5. }
  apply or_sig in B6. close_branch LV (1 # 1000000) (1000000 # 1) (-3)%Z. intros _. rewrite <- LV. apply E. apply sig_figs_whole. exact B6.
Qed.
Lemma convert_bad_text s : parse_lit s = None ->
  convert_volts s = Err ValueError /\ convert_amps s = Err ValueError /\ convert_watts s = Err ValueError /\ convert_ohms s = Err ValueError.
Proof. intro H. unfold convert_volts, convert_amps, convert_watts, convert_ohms, with_lit. rewrite H. auto. Qed.

(** *** C30 *)
Lemma trunc_whole q z : q == inject_Z z -> trunc q = z.
Proof.
  intro E. unfold trunc. unfold Qeq in E. simpl in E. rewrite Z.mul_1_r in E. rewrite E. apply Z.quot_mul. lia.
Qed.
Lemma trunc_floor q : 0 <= q -> trunc q = Qfloor q.
Proof.
  intro H. unfold trunc, Qfloor. destruct q as [n d]. simpl. unfold Qle in H. simpl in H. apply Z.quot_div_nonneg; lia.
Qed.
Lemma trunc_bounds q : 0 <= q -> inject_Z (trunc q) <= q /\ q < inject_Z (trunc q) + 1.
Proof.
  intro H. rewrite trunc_floor by exact H. split; [apply Qfloor_le|]. pose proof (Qlt_floor q) as L. rewrite inject_Z_plus in L. exact L.
Qed.
Lemma fmt3_int z : denotes (fmt3 (inject_Z z)) (inject_Z z).
Proof. apply (fmt3_exact _ (z * 1000)). rewrite inject_Z_mult. reflexivity. Qed.
Lemma fmt3_ms z : denotes (fmt3 (inject_Z z / 1000)) (inject_Z z / 1000).
Proof. apply (fmt3_exact _ z). field. Qed.
Lemma field_ok s q : field_is s q -> exists v, time_field s = Ok v /\ v == q.
Proof.
  unfold time_field. intros [(-> & E)|(N & l & PL & E)]; [exists 0; split; [reflexivity|symmetry; exact E]|].
  destruct (String.eqb_spec s ""); [contradiction|]. unfold py_float. rewrite PL. eauto.
Qed.
Lemma is_zero_iff q : is_zero q = true <-> q == 0.
Proof. apply Qeq_bool_iff. Qed.
Lemma is_whole_iff q : is_whole q = true <-> whole q.
Proof.
  unfold is_whole, whole. rewrite Qeq_bool_iff. split; [eauto|]. intros (z & E). rewrite (Qfloor_comp _ _ E), Qfloor_Z. exact E.
Qed.
(** the four possible results *)
Lemma convert_time_cases text hs ms ss h m sec :
  str_split ":" text = [hs; ms; ss] -> field_is hs h -> field_is ms m -> field_is ss sec ->
  exists h' m' s', h' == h /\ m' == m /\ s' == sec /\
  exists t u q k T, convert_time text = Ok (t, u) /\ denotes t q /\ In (u, k) time_units /\
   ((m == 0 /\ sec == 0 /\ k = 3600 /\ T = h' /\ q == inject_Z (trunc T)) \/
    (sec == 0 /\ k = 60 /\ T = h' * 60 + m' /\ q == inject_Z (trunc T)) \/
    (whole sec /\ k = 1 /\ T = h' * 60 * 60 + m' * 60 + s' /\ q == inject_Z (trunc T)) \/
    (~ whole sec /\ k = 1 # 1000 /\ T = h' * 60 * 60 * 1000 + m' * 60 * 1000 + s' * 1000 /\ q == inject_Z (trunc T)) \/
    (~ whole sec /\ k = 1 /\ T = h' * 60 * 60 * 1000 + m' * 60 * 1000 + s' * 1000 /\ q == inject_Z (trunc T) / 1000)).
Proof.
  intros SP H M S. destruct (field_ok _ _ H) as (h' & Eh & Vh). destruct (field_ok _ _ M) as (m' & Em & Vm). destruct (field_ok _ _ S) as (s' & Es & Vs).
  exists h', m', s'. split; [exact Vh|]. split; [exact Vm|]. split; [exact Vs|].
  unfold convert_time. rewrite SP, Eh, Em, Es. cbn [bind].
  destruct (is_zero m' && is_zero s') eqn:A.
  { apply andb_prop in A. destruct A as (A1 & A2). apply is_zero_iff in A1, A2. rewrite Vm in A1. rewrite Vs in A2.
    eexists _, _, _, 3600, _. split; [reflexivity|]. split; [apply fmt3_int|]. split; [simpl; auto|]. left. repeat split; auto. }
  destruct (is_zero s') eqn:B.
  { apply is_zero_iff in B. rewrite Vs in B. eexists _, _, _, 60, _. split; [reflexivity|]. split; [apply fmt3_int|]. split; [simpl; auto|]. right. left. repeat split; auto. }
  destruct (is_whole s') eqn:C.
  { apply is_whole_iff in C. eexists _, _, _, 1, _. split; [reflexivity|]. split; [apply fmt3_int|]. split; [simpl; auto|]. right. right. left.
    split; [|repeat split; auto]. destruct C as (z & C). exists z. rewrite <- Vs. exact C. }
  assert (NW : ~ whole sec). { intros (z & K). assert (W : is_whole s' = true) by (apply is_whole_iff; exists z; rewrite Vs; exact K). congruence. }
  cbv zeta. destruct (trunc _ <? 10000000000)%Z.
  { eexists _, _, _, (1 # 1000), _. split; [reflexivity|]. split; [apply fmt3_int|]. split; [simpl; auto|]. right. right. right. left. repeat split; auto. }
  eexists _, _, _, 1, _. split; [reflexivity|]. split; [apply fmt3_ms|]. split; [simpl; auto|]. right. right. right. right. repeat split; auto.
Qed.
Lemma time_exact text hs ms ss h m sec :
  str_split ":" text = [hs; ms; ss] -> field_is hs h -> field_is ms m -> field_is ss sec ->
  whole h -> whole m -> (exists z, sec * 1000 == inject_Z z) ->
  exists t u q k, convert_time text = Ok (t, u) /\ denotes t q /\ In (u, k) time_units /\ q * k == h * 3600 + m * 60 + sec.
Proof.
  intros SP H M S (zh & Wh) (zm & Wm) (zs & Ws).
  destruct (convert_time_cases _ _ _ _ _ _ _ SP H M S) as (h' & m' & s' & Vh & Vm & Vs & t & u & q & k & T & C & D & U & Cs).
  exists t, u, q, k. split; [exact C|]. split; [exact D|]. split; [exact U|]. clear C D U.
  assert (Ts : forall T z, T == inject_Z z -> inject_Z (trunc T) == T). { intros T0 z E. rewrite (trunc_whole _ _ E). symmetry. exact E. }
  destruct Cs as [(A1 & A2 & -> & -> & ->)|[(A & -> & -> & ->)|[((zz & A) & -> & -> & ->)|[(_ & -> & -> & ->)|(_ & -> & -> & ->)]]]].
  - rewrite (Ts _ zh) by (rewrite Vh; exact Wh). rewrite Vh, A1, A2. ring.
  - rewrite (Ts _ (zh * 60 + zm)%Z) by (rewrite inject_Z_plus, inject_Z_mult, <- Wh, <- Wm, Vh, Vm; reflexivity). rewrite Vh, Vm, A. ring.
  - rewrite (Ts _ (zh * 60 * 60 + zm * 60 + zz)%Z) by (rewrite !inject_Z_plus, !inject_Z_mult, <- Wh, <- Wm, <- A, Vh, Vm, Vs; reflexivity). rewrite Vh, Vm, Vs. ring.
  - rewrite (Ts _ (zh * 60 * 60 * 1000 + zm * 60 * 1000 + zs)%Z) by (rewrite !inject_Z_plus, !inject_Z_mult, <- Wh, <- Wm, <- Ws, Vh, Vm, Vs; reflexivity). rewrite Vh, Vm, Vs. ring.
  - rewrite (Ts _ (zh * 60 * 60 * 1000 + zm * 60 * 1000 + zs)%Z) by (rewrite !inject_Z_plus, !inject_Z_mult, <- Wh, <- Wm, <- Ws, Vh, Vm, Vs; reflexivity). rewrite Vh, Vm, Vs. field.
Qed.
Lemma time_never_longer text hs ms ss h m sec :
  str_split ":" text = [hs; ms; ss] -> field_is hs h -> field_is ms m -> field_is ss sec ->
  0 <= h -> 0 <= m -> 0 <= sec ->
  exists t u q k, convert_time text = Ok (t, u) /\ denotes t q /\ In (u, k) time_units /\
    q * k <= h * 3600 + m * 60 + sec /\ h * 3600 + m * 60 + sec < q * k + k.
Proof.
  intros SP H M S Ph Pm Ps.
  destruct (convert_time_cases _ _ _ _ _ _ _ SP H M S) as (h' & m' & s' & Vh & Vm & Vs & t & u & q & k & T & C & D & U & Cs).
  exists t, u, q, k. split; [exact C|]. split; [exact D|]. split; [exact U|]. clear C D U.
  destruct Cs as [(A1 & A2 & -> & ET & E)|[(A & -> & ET & E)|[(_ & -> & ET & E)|[(_ & -> & ET & E)|(_ & -> & ET & E)]]]];
    assert (PT : 0 <= T) by (rewrite ET; try lra); pose proof (trunc_bounds T PT) as (B1 & B2); set (z := inject_Z (trunc T)) in *;
    rewrite E; assert (TT := ET); apply (f_equal (fun x => x)) in TT.
  - assert (T == h) by (rewrite ET; exact Vh). rewrite A1, A2. lra.
  - assert (T == h * 60 + m) by (rewrite ET, Vh, Vm; reflexivity). rewrite A. lra.
  - assert (T == h * 60 * 60 + m * 60 + sec) by (rewrite ET, Vh, Vm, Vs; reflexivity). lra.
  - assert (T == h * 60 * 60 * 1000 + m * 60 * 1000 + sec * 1000) by (rewrite ET, Vh, Vm, Vs; reflexivity). lra.
  - assert (T == h * 60 * 60 * 1000 + m * 60 * 1000 + sec * 1000) by (rewrite ET, Vh, Vm, Vs; reflexivity). 
    assert (z / 1000 == z * (1 # 1000)) by field. rewrite H1. lra.
Qed.
Lemma time_rejects text : (exists e, convert_time text = Err e) <->
  ~ exists hs ms ss h m s, str_split ":" text = [hs; ms; ss] /\ field_is hs h /\ field_is ms m /\ field_is ss s.
Proof.
  assert (FI : forall s, (exists q, field_is s q) \/ (time_field s = Err ValueError /\ forall q, ~ field_is s q)).
  { intro s. unfold time_field, field_is. destruct (String.eqb_spec s "") as [->|N]; [left; exists 0; left; split; reflexivity|].
    unfold py_float, denotes. destruct (parse_lit s) as [l|] eqn:E; [left; exists (lit_value l); right; split; [exact N|exists l; split; reflexivity]|].
    right. split; [reflexivity|]. intros q [(K & _)|(_ & l & K & _)]; [contradiction|discriminate]. }
  split.
  - intros (e & C) (hs & ms & ss & h & m & s & SP & H & M & S).
    destruct (convert_time_cases _ _ _ _ _ _ _ SP H M S) as (h' & m' & s' & _ & _ & _ & t & u & q & k & T & C' & _). congruence.
  - intro N. destruct (str_split ":" text) as [|hs [|ms [|ss [|x l]]]] eqn:SP; unfold convert_time; rewrite SP; try (eexists; reflexivity).
    destruct (FI hs) as [(h & H)|(H & _)]; [|rewrite H; eexists; reflexivity]. destruct (field_ok _ _ H) as (h' & -> & _). cbn [bind].
    destruct (FI ms) as [(m & M)|(M & _)]; [|rewrite M; eexists; reflexivity]. destruct (field_ok _ _ M) as (m' & -> & _). cbn [bind].
    destruct (FI ss) as [(s & S)|(S & _)]; [|rewrite S; eexists; reflexivity].
    exfalso. apply N. exists hs, ms, ss, h, m, s. auto.
Qed.
