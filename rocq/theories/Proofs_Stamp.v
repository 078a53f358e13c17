(** C120, C121. *)
From Verif Require Import Py Num Model_Text Model_Arbin Model_Stamp Spec_Stamp Proofs_Text Proofs_Strings.

(** ** The calendar *)
Lemma leap_same y : is_leap y = leap_b y.
Proof. reflexivity. Qed.
Ltac months m := assert (m = 1 \/ m = 2 \/ m = 3 \/ m = 4 \/ m = 5 \/ m = 6 \/ m = 7 \/ m = 8 \/ m = 9 \/ m = 10 \/ m = 11 \/ m = 12)%Z
  as [-> | [-> | [-> | [-> | [-> | [-> | [-> | [-> | [-> | [-> | [-> | ->]]]]]]]]]]] by lia.
Ltac nums := repeat match goal with |- context [Z.to_nat (Zpos ?a - 1)] =>
  let k := eval vm_compute in (Z.to_nat (Zpos a - 1)) in change (Z.to_nat (Zpos a - 1)) with k end.
Lemma dim_same y m : (1 <= m <= 12)%Z -> days_in_month y m = month_length y m.
Proof. intro M. months m; unfold days_in_month, month_length, months; rewrite leap_same; destruct (leap_b y); reflexivity. Qed.
Lemma before_same y m : (1 <= m <= 12)%Z -> days_before_month y m = fold_right Z.add 0%Z (firstn (Z.to_nat (m - 1)) (months y)).
Proof. intro M. months m; unfold days_before_month, months; rewrite leap_same; destruct (leap_b y); reflexivity. Qed.
Lemma year_length_val y : year_length y = (365 + if leap_b y then 1 else 0)%Z.
Proof. unfold year_length, months. destruct (leap_b y); reflexivity. Qed.
Lemma years_step y : (1 <= y)%Z ->
  (y * 365 + y / 4 - y / 100 + y / 400 = (y - 1) * 365 + (y - 1) / 4 - (y - 1) / 100 + (y - 1) / 400 + (365 + if leap_b y then 1 else 0))%Z.
Proof.
  intro Y. unfold leap_b.
  destruct (y mod 4 =? 0)%Z eqn:A; destruct (y mod 100 =? 0)%Z eqn:B; destruct (y mod 400 =? 0)%Z eqn:C; cbn [andb orb negb];
    rewrite ?Z.eqb_eq, ?Z.eqb_neq in *; Z.to_euclidean_division_equations; lia.
Qed.
Lemma years_same n : years n = (let y := Z.of_nat n in y * 365 + y / 4 - y / 100 + y / 400)%Z.
Proof.
  induction n as [|n IH]; [reflexivity|]. cbn [years]. rewrite IH, year_length_val. cbn zeta.
  rewrite (years_step (Z.of_nat (S n))) by lia. replace (Z.of_nat (S n) - 1)%Z with (Z.of_nat n) by lia. reflexivity.
Qed.
Lemma ordinal_same y m d : (1 <= y)%Z -> (1 <= m <= 12)%Z -> ordinal y m d = day_number y m d.
Proof.
  intros Y M. unfold ordinal, day_number. rewrite years_same, before_same by exact M. cbn zeta. rewrite Z2Nat.id by lia. reflexivity.
Qed.
Lemma seconds_same st : (1 <= yr st)%Z -> (1 <= mo st <= 12)%Z -> seconds st = count st.
Proof. intros Y M. unfold seconds, count. rewrite ordinal_same by assumption. reflexivity. Qed.

Lemma month_length_bounds y m : (1 <= m <= 12)%Z -> (28 <= month_length y m <= 31)%Z.
Proof. intro M. months m; unfold month_length, months; destruct (leap_b y); split; vm_compute; discriminate. Qed.
Lemma before_next y m : (1 <= m < 12)%Z ->
  (fold_right Z.add 0 (firstn (Z.to_nat (m + 1 - 1)) (months y)) = fold_right Z.add 0 (firstn (Z.to_nat (m - 1)) (months y)) + month_length y m)%Z.
Proof. intro M. months m; try lia; unfold month_length, months; destruct (leap_b y); reflexivity. Qed.
Lemma before_last y : (fold_right Z.add 0 (firstn (Z.to_nat (12 - 1)) (months y)) + month_length y 12 = year_length y)%Z.
Proof. unfold month_length, year_length, months. destruct (leap_b y); reflexivity. Qed.
Lemma years_next y : (1 <= y)%Z -> years (Z.to_nat (y + 1 - 1)) = (years (Z.to_nat (y - 1)) + year_length y)%Z.
Proof.
  intro Y. replace (Z.to_nat (y + 1 - 1)) with (S (Z.to_nat (y - 1))) by lia. cbn [years]. f_equal. f_equal. lia.
Qed.
Lemma day_number_step y m d : (1 <= y)%Z -> (1 <= m <= 12)%Z -> (1 <= d <= month_length y m)%Z ->
  let '(y', m', d') := next_day y m d in
  day_number y' m' d' = (day_number y m d + 1)%Z /\ (y <= y' <= y + 1)%Z /\ (1 <= m' <= 12)%Z /\ (1 <= d' <= month_length y' m')%Z.
Proof.
  intros Y M D. unfold next_day. rewrite dim_same by exact M. destruct (d <? month_length y m)%Z eqn:E.
  - apply Z.ltb_lt in E. unfold day_number. repeat split; try lia.
  - apply Z.ltb_ge in E. assert (d = month_length y m) as -> by lia. destruct (m <? 12)%Z eqn:F.
    + apply Z.ltb_lt in F. pose proof (month_length_bounds y (m + 1) ltac:(lia)). unfold day_number. rewrite before_next by lia. repeat split; lia.
    + apply Z.ltb_ge in F. assert (m = 12%Z) as -> by lia. pose proof (month_length_bounds (y + 1) 1 ltac:(lia)).
      pose proof (before_last y). unfold day_number. rewrite years_next by exact Y.
      change (fold_right Z.add 0%Z (firstn (Z.to_nat (1 - 1)) (months (y + 1)))) with 0%Z. repeat split; lia.
Qed.
Lemma plus_hours_ok st h : proper st -> (yr st < 9999)%Z -> (0 <= h < 24)%Z ->
  proper (plus_hours st h) /\ count (plus_hours st h) = (count st + h * 3600)%Z.
Proof.
  intros (Y & M & D & H & N & S) Y' B. unfold plus_hours. destruct (hh st + h <? 24)%Z eqn:E.
  - apply Z.ltb_lt in E. unfold proper, count. cbn [yr mo dy hh mi ss]. repeat split; try lia.
  - apply Z.ltb_ge in E. pose proof (day_number_step (yr st) (mo st) (dy st) ltac:(lia) M D) as K.
    destruct (next_day (yr st) (mo st) (dy st)) as [[y m] d]. destruct K as (K & A & B' & C).
    unfold proper, count. cbn [yr mo dy hh mi ss]. rewrite K. repeat split; try lia.
Qed.

(** Different days have different numbers. *)
Lemma years_mono a b : (a <= b)%nat -> (years a <= years b)%Z.
Proof. induction 1 as [|b H IH]; [lia|]. cbn [years]. rewrite year_length_val. destruct (leap_b _); lia. Qed.
Lemma in_year y m d : (1 <= m <= 12)%Z -> (1 <= d <= month_length y m)%Z ->
  (1 <= fold_right Z.add 0 (firstn (Z.to_nat (m - 1)) (months y)) + d <= year_length y)%Z.
Proof. intros M D. unfold year_length. revert D. months m; unfold month_length, months; destruct (leap_b y); nums; cbn [nth firstn fold_right]; lia. Qed.
Lemma day_number_inj y m d y' m' d' : (1 <= y)%Z -> (1 <= y')%Z -> (1 <= m <= 12)%Z -> (1 <= m' <= 12)%Z ->
  (1 <= d <= month_length y m)%Z -> (1 <= d' <= month_length y' m')%Z ->
  day_number y m d = day_number y' m' d' -> y = y' /\ m = m' /\ d = d'.
Proof.
  intros Y Y' M M' D D' E. pose proof (in_year y m d M D) as I. pose proof (in_year y' m' d' M' D') as I'.
  assert (y = y') as <-.
  { unfold day_number in E. destruct (Z.lt_trichotomy y y') as [L | [L | L]]; [|exact L|]; exfalso.
    - pose proof (years_mono (Z.to_nat (y + 1 - 1)) (Z.to_nat (y' - 1)) ltac:(lia)) as K. rewrite years_next in K by lia. lia.
    - pose proof (years_mono (Z.to_nat (y' + 1 - 1)) (Z.to_nat (y - 1)) ltac:(lia)) as K. rewrite years_next in K by lia. lia. }
  split; [reflexivity|]. unfold day_number in E.
  assert (F : (fold_right Z.add 0 (firstn (Z.to_nat (m - 1)) (months y)) + d = fold_right Z.add 0 (firstn (Z.to_nat (m' - 1)) (months y)) + d')%Z) by lia.
  clear E I I'. revert D D' F. unfold month_length, months. destruct (leap_b y); months m; months m'; nums; cbn [nth firstn fold_right]; lia.
Qed.
Lemma count_inj a b : proper a -> proper b -> count a = count b -> a = b.
Proof.
  destruct a as [y m d h n s], b as [y' m' d' h' n' s']. intros (Y & M & D & H & N & S) (Y' & M' & D' & H' & N' & S') E.
  unfold proper in *. unfold count in E. cbn [yr mo dy hh mi ss] in *.
  assert (day_number y m d = day_number y' m' d') as K by lia.
  destruct (day_number_inj y m d y' m' d' ltac:(lia) ltac:(lia) M M' D D' K) as (-> & -> & ->).
  assert (h = h') as -> by lia. assert (n = n') as -> by lia. assert (s = s') as -> by lia. reflexivity.
Qed.

(** ** Texts *)
Lemma bounded (P : Z -> bool) k : forallb P (map Z.of_nat (seq 0 k)) = true -> forall n, (0 <= n < Z.of_nat k)%Z -> P n = true.
Proof.
  intros H n B. rewrite forallb_forall in H. apply H. apply in_map_iff. exists (Z.to_nat n). split; [lia|]. apply in_seq. lia.
Qed.
Lemma padded_two n : (0 <= n < 100)%Z -> padded 2 n = two n.
Proof. intro B. apply String.eqb_eq. apply (bounded (fun n => String.eqb (padded 2 n) (two n)) 100); [vm_compute; reflexivity | exact B]. Qed.
Lemma padded_four n : (0 <= n < 10000)%Z -> padded 4 n = four n.
Proof.
  intro B. apply String.eqb_eq.
  apply (bounded (fun n => String.eqb (padded 4 n) (four n)) (Z.to_nat 10000)); [vm_compute; reflexivity | rewrite Z2Nat.id; lia].
Qed.
Lemma iso_same st : proper st -> isoformat st = iso_text st.
Proof.
  intros (Y & M & D & H & N & S). pose proof (month_length_bounds (yr st) _ M). unfold isoformat, iso_text.
  rewrite padded_four by lia. rewrite !padded_two by lia. reflexivity.
Qed.
Lemma field_two lo hi n : (0 <= n < 100)%Z -> (lo <= n <= hi)%Z -> field lo hi (two n) = Some n.
Proof.
  intros B L. assert (E : span_digits (two n) = ([Z.to_nat (n / 10); Z.to_nat (n mod 10)], ""%string) /\ digits_val [Z.to_nat (n / 10); Z.to_nat (n mod 10)] = n).
  { assert (K : (let (ds, r) := span_digits (two n) in (if list_eq_dec Nat.eq_dec ds [Z.to_nat (n / 10); Z.to_nat (n mod 10)] then true else false)
      && String.eqb r "" && (digits_val ds =? n)%Z) = true).
    { apply (bounded (fun n => let (ds, r) := span_digits (two n) in (if list_eq_dec Nat.eq_dec ds [Z.to_nat (n / 10); Z.to_nat (n mod 10)] then true else false)
        && String.eqb r "" && (digits_val ds =? n)%Z) 100); [vm_compute; reflexivity | exact B]. }
    destruct (span_digits (two n)) as [ds r]. destruct (list_eq_dec _ _ _) as [->|]; [|discriminate K].
    apply andb_true_iff in K as [K1 K2]. apply andb_true_iff in K1 as [_ K1]. apply String.eqb_eq in K1. apply Z.eqb_eq in K2. subst. auto. }
  destruct E as [E1 E2]. unfold field. rewrite E1, E2. cbn [length Nat.eqb orb andb]. destruct (Z.leb_spec lo n), (Z.leb_spec n hi); try lia. reflexivity.
Qed.
Lemma figure_char n : (0 <= n < 10)%Z -> figure n <> "/"%char /\ figure n <> ":"%char /\ figure n <> " "%char.
Proof.
  intro B. assert (K : negb (Ascii.eqb (figure n) "/") && negb (Ascii.eqb (figure n) ":") && negb (Ascii.eqb (figure n) " ") = true).
  { apply (bounded (fun n => negb (Ascii.eqb (figure n) "/") && negb (Ascii.eqb (figure n) ":") && negb (Ascii.eqb (figure n) " ")) 10); [reflexivity | exact B]. }
  apply andb_true_iff in K as [K K3]. apply andb_true_iff in K as [K1 K2]. apply negb_true_iff in K1, K2, K3.
  rewrite Ascii.eqb_neq in K1, K2, K3. auto.
Qed.
Lemma day_two d : (1 <= d <= 31)%Z -> day_field (two d) = Some d.
Proof.
  intro B. assert (K : (match day_field (two d) with Some k => (k =? d)%Z | None => (d <? 1)%Z || (31 <? d)%Z end) = true).
  { apply (bounded (fun n => match day_field (two n) with Some k => (k =? n)%Z | None => (n <? 1)%Z || (31 <? n)%Z end) 100); [vm_compute; reflexivity | lia]. }
  destruct (day_field (two d)); [apply Z.eqb_eq in K; subst; reflexivity|]. apply orb_true_iff in K as [K | K]; apply Z.ltb_lt in K; lia.
Qed.
Lemma two_digits n : two n = digits_text [Z.to_nat (n / 10); Z.to_nat (n mod 10)].
Proof. reflexivity. Qed.
Lemma four_digits n : four n = digits_text [Z.to_nat (n / 100 / 10); Z.to_nat ((n / 100) mod 10); Z.to_nat (n mod 100 / 10); Z.to_nat ((n mod 100) mod 10)].
Proof. reflexivity. Qed.
Lemma two_is_digits n : (0 <= n < 100)%Z -> Forall is_digit [Z.to_nat (n / 10); Z.to_nat (n mod 10)].
Proof. intro B. repeat apply Forall_cons; try apply Forall_nil; unfold is_digit; Z.to_euclidean_division_equations; lia. Qed.
Lemma four_is_digits n : (0 <= n < 10000)%Z ->
  Forall is_digit [Z.to_nat (n / 100 / 10); Z.to_nat ((n / 100) mod 10); Z.to_nat (n mod 100 / 10); Z.to_nat ((n mod 100) mod 10)].
Proof. intro B. repeat apply Forall_cons; try apply Forall_nil; unfold is_digit; Z.to_euclidean_division_equations; lia. Qed.
Lemma free_digits c ds : Forall is_digit ds -> In c ["/"; ":"; " "]%char -> char_free c (digits_text ds).
Proof.
  intros F I. induction F as [|d ds D F IH]; [reflexivity|]. cbn [digits_text]. apply char_free_cons. split; [|exact IH].
  destruct (figure_char (Z.of_nat d) ltac:(unfold is_digit in D; lia)) as (A & B & C). unfold figure in A, B, C. rewrite Nat2Z.id in A, B, C.
  unfold digit_char. destruct I as [<- | [<- | [<- | []]]]; assumption.
Qed.
Lemma year_text y t : (0 <= y < 10000)%Z -> year_field (four y ++ String " " t) = Some (y, lstrip t).
Proof.
  intro B. unfold year_field. rewrite four_digits, span_digits_text; [|apply four_is_digits; exact B | reflexivity].
  cbn [length Nat.eqb andb]. change (is_space " ") with true. cbn [andb]. do 2 f_equal.
  unfold digits_val. cbn [fold_left]. Z.to_euclidean_division_equations. lia.
Qed.
Lemma lstrip_two n t : (0 <= n < 100)%Z -> lstrip (two n ++ t) = (two n ++ t)%string.
Proof.
  intro B. assert (K : is_space (figure (n / 10)) = false).
  { apply negb_true_iff. apply (bounded (fun n => negb (is_space (figure (n / 10)))) 100); [vm_compute; reflexivity | exact B]. }
  unfold two. cbn [append lstrip]. rewrite K. reflexivity.
Qed.
Lemma strptime_text st : proper st -> strptime (maccor_text st) = Some st.
Proof.
  intros (Y & M & D & H & N & S). pose proof (month_length_bounds (yr st) _ M) as L. unfold strptime, maccor_text, maccor_date.
  rewrite !app_assoc_s. cbn [append].
  assert (T : forall n c, (0 <= n < 100)%Z -> In c ["/"; ":"; " "]%char -> char_free c (two n)).
  { intros n c B I. rewrite two_digits. apply free_digits; [apply two_is_digits; exact B | exact I]. }
  rewrite str_split_char by (apply T; [lia | cbn; auto]). rewrite str_split_char by (apply T; [lia | cbn; auto]).
  rewrite str_split_none.
  2:{ change (char_free "/" (four (yr st) ++ String " " (two (hh st) ++ String ":" (two (mi st) ++ String ":" (two (ss st)))))).
      rewrite char_free_app. split; [rewrite four_digits; apply free_digits; [apply four_is_digits; lia | cbn; auto]|].
      apply char_free_cons. split; [discriminate|]. rewrite char_free_app. split; [apply T; [lia | cbn; auto]|].
      apply char_free_cons. split; [discriminate|]. rewrite char_free_app. split; [apply T; [lia | cbn; auto]|].
      apply char_free_cons. split; [discriminate|]. apply T; [lia | cbn; auto]. }
  rewrite field_two by lia. rewrite day_two by lia. rewrite year_text by lia. rewrite lstrip_two by lia.
  rewrite str_split_char by (apply T; [lia | cbn; auto]). rewrite str_split_char by (apply T; [lia | cbn; auto]).
  rewrite str_split_none by (apply T; [lia | cbn; auto]).
  rewrite !field_two by lia. rewrite dim_same by exact M.
  destruct (Z.leb_spec 1 (yr st)), (Z.leb_spec (dy st) (month_length (yr st) (mo st))), (Z.leb_spec (ss st) 59); try lia.
  cbn [andb]. destruct st; reflexivity.
Qed.
(** The day alone is not a time stamp. *)
Lemma strptime_date st : proper st -> strptime (maccor_date st) = None.
Proof.
  intros (Y & M & D & H & N & S). pose proof (month_length_bounds (yr st) _ M) as L. unfold strptime, maccor_date.
  cbn [append].
  assert (T : forall n c, (0 <= n < 100)%Z -> In c ["/"; ":"; " "]%char -> char_free c (two n)).
  { intros n c B I. rewrite two_digits. apply free_digits; [apply two_is_digits; exact B | exact I]. }
  rewrite str_split_char by (apply T; [lia | cbn; auto]). rewrite str_split_char by (apply T; [lia | cbn; auto]).
  rewrite str_split_none by (rewrite four_digits; apply free_digits; [apply four_is_digits; lia | cbn; auto]).
  rewrite field_two by lia. rewrite day_two by lia. unfold year_field.
  rewrite <- (app_nil_r_s (four (yr st))), four_digits, span_digits_text; [reflexivity | apply four_is_digits; lia | exact I].
Qed.
Definition midnight (st : stamp) : stamp := {| yr := yr st; mo := mo st; dy := dy st; hh := 0; mi := 0; ss := 0 |}.

(** Figures that are no date and time. *)
Lemma field_none lo hi n : (0 <= n < 100)%Z -> ~ (lo <= n <= hi)%Z -> field lo hi (two n) = None.
Proof.
  intros B L. unfold field. rewrite <- (app_nil_r_s (two n)), two_digits, span_digits_text by (try exact I; apply two_is_digits; exact B).
  replace (digits_val _) with n by (unfold digits_val; cbn [fold_left]; Z.to_euclidean_division_equations; lia).
  cbn [length Nat.eqb orb andb]. destruct (Z.leb_spec lo n), (Z.leb_spec n hi); try lia; reflexivity.
Qed.
Lemma field_if lo hi n : (0 <= n < 100)%Z -> field lo hi (two n) = if ((lo <=? n) && (n <=? hi))%Z then Some n else None.
Proof.
  intro B. destruct ((lo <=? n) && (n <=? hi))%Z eqn:E.
  - apply andb_true_iff in E as [E1 E2]. apply Z.leb_le in E1, E2. apply field_two; lia.
  - apply field_none; [exact B|]. apply andb_false_iff in E as [E | E]; apply Z.leb_gt in E; lia.
Qed.
Lemma day_if d : (0 <= d < 100)%Z -> day_field (two d) = if ((1 <=? d) && (d <=? 31))%Z then Some d else None.
Proof.
  intro B. assert (K : (match day_field (two d) with Some k => (k =? d) && (1 <=? d) && (d <=? 31) | None => negb ((1 <=? d) && (d <=? 31)) end)%Z = true).
  { apply (bounded (fun d => match day_field (two d) with Some k => (k =? d) && (1 <=? d) && (d <=? 31) | None => negb ((1 <=? d) && (d <=? 31)) end)%Z 100); [vm_compute; reflexivity | lia]. }
  destruct (day_field (two d)).
  - rewrite <- andb_assoc in K. apply andb_true_iff in K as [K ->]. apply Z.eqb_eq in K. subst. reflexivity.
  - apply negb_true_iff in K. rewrite K. reflexivity.
Qed.
Lemma strptime_shape st more : figures st -> char_free "/" more ->
  strptime (maccor_text st ++ more) =
  match field 1 12 (two (mo st)), day_field (two (dy st)) with
  | Some m, Some d =>
      match str_split ":" (two (hh st) ++ String ":" (two (mi st) ++ String ":" (two (ss st) ++ more))) with
      | [h; n; s] =>
          match field 0 23 h, field 0 59 n, field 0 61 s with
          | Some h, Some n, Some s =>
              if (1 <=? yr st)%Z && (d <=? days_in_month (yr st) m)%Z && (s <=? 59)%Z
              then Some {| yr := yr st; mo := m; dy := d; hh := h; mi := n; ss := s |} else None
          | _, _, _ => None
          end
      | _ => None
      end
  | _, _ => None
  end.
Proof.
  intros (Y & M & D & H & N & S) F. unfold strptime, maccor_text, maccor_date.
  rewrite !app_assoc_s. cbn [append].
  assert (T : forall n c, (0 <= n < 100)%Z -> In c ["/"; ":"; " "]%char -> char_free c (two n)).
  { intros n c B I. rewrite two_digits. apply free_digits; [apply two_is_digits; exact B | exact I]. }
  rewrite str_split_char by (apply T; [lia | cbn; auto]). rewrite str_split_char by (apply T; [lia | cbn; auto]).
  rewrite str_split_none.
  2:{ change (char_free "/" (four (yr st) ++ String " " (two (hh st) ++ String ":" (two (mi st) ++ String ":" (two (ss st) ++ more))))).
      rewrite char_free_app. split; [rewrite four_digits; apply free_digits; [apply four_is_digits; lia | cbn; auto]|].
      apply char_free_cons. split; [discriminate|]. rewrite char_free_app. split; [apply T; [lia | cbn; auto]|].
      apply char_free_cons. split; [discriminate|]. rewrite char_free_app. split; [apply T; [lia | cbn; auto]|].
      apply char_free_cons. split; [discriminate|]. rewrite char_free_app. split; [apply T; [lia | cbn; auto] | exact F]. }
  rewrite year_text by lia. rewrite lstrip_two by lia. destruct (field 1 12 _); [|reflexivity]. destruct (day_field _); reflexivity.
Qed.
Lemma impossible dst st : figures st -> ~ proper st -> correct_timestamp dst (maccor_text st) = Err ValueError.
Proof.
  intros G P. pose proof G as (Y & M & D & H & N & S). unfold correct_timestamp.
  assert (T : forall n, (0 <= n < 100)%Z -> char_free ":" (two n)).
  { intros n B. rewrite two_digits. apply free_digits; [apply two_is_digits; exact B | cbn; auto]. }
  rewrite (strptime_shape st " 00:00:00" G eq_refl).
  rewrite <- (app_nil_r_s (maccor_text st)), (strptime_shape st "" G eq_refl).
  rewrite str_split_char by (apply T; lia). rewrite str_split_char by (apply T; lia).
  rewrite app_nil_r_s. rewrite str_split_none by (apply T; lia).
  rewrite str_split_char by (apply T; lia). rewrite str_split_char by (apply T; lia).
  change (two (ss st) ++ " 00:00:00")%string with ((two (ss st) ++ " 00") ++ String ":" "00:00")%string.
  rewrite str_split_char by (apply char_free_app; split; [apply T; lia | reflexivity]).
  change (str_split ":" "00:00") with ["00"; "00"]%string.
  rewrite !field_if, day_if by lia.
  destruct ((1 <=? mo st) && (mo st <=? 12))%Z eqn:E1; [|reflexivity].
  destruct ((1 <=? dy st) && (dy st <=? 31))%Z eqn:E2; [|reflexivity].
  destruct ((0 <=? hh st) && (hh st <=? 23))%Z eqn:E3; [|reflexivity].
  destruct ((0 <=? mi st) && (mi st <=? 59))%Z eqn:E4; [|reflexivity].
  destruct ((0 <=? ss st) && (ss st <=? 61))%Z eqn:E5; [|reflexivity].
  apply andb_true_iff in E1 as [E1 E1'], E2 as [E2 E2'], E3 as [E3 E3'], E4 as [E4 E4'], E5 as [E5 E5'].
  apply Z.leb_le in E1, E1', E2, E2', E3, E3', E4, E4', E5, E5'.
  rewrite dim_same by lia.
  destruct (Z.leb_spec 1 (yr st)), (Z.leb_spec (dy st) (month_length (yr st) (mo st))), (Z.leb_spec (ss st) 59); cbn [andb]; try reflexivity.
  exfalso. apply P. repeat split; lia.
Qed.

(** ** The Pacific clock *)
Lemma seconds_proper st : proper st -> seconds st = count st.
Proof. intros (Y & M & _). apply seconds_same; lia. Qed.
Lemma ahead_range dst t : ahead dst t = 7%Z \/ ahead dst t = 8%Z.
Proof. unfold ahead. destruct (dst _); [auto|]. destruct (dst _); auto. Qed.
Lemma ahead_shown dst t u : shown dst u = t -> shown dst (t + ahead dst t * 3600)%Z = t /\ (t + ahead dst t * 3600 <= u)%Z.
Proof.
  intro E. unfold ahead. destruct (dst (t + 7 * 3600)%Z) eqn:A.
  - unfold shown in *. rewrite A. destruct (dst u); lia.
  - unfold shown in E. destruct (dst u) eqn:U.
    + replace (t + 7 * 3600)%Z with u in A by lia. congruence.
    + replace (t + 8 * 3600)%Z with u by lia. rewrite U. replace (t + 8 * 3600)%Z with u by lia. unfold shown. rewrite U. lia.
Qed.
Lemma convert dst st : proper st -> (yr st < 9999)%Z ->
  exists st', to_utc dst st = iso_text st' /\ proper st' /\ count st' = (count st + ahead dst (count st) * 3600)%Z.
Proof.
  intros P Y. unfold to_utc. rewrite (seconds_proper _ P).
  destruct (plus_hours_ok st (ahead dst (count st)) P Y) as [P' C]; [destruct (ahead_range dst (count st)) as [-> | ->]; lia|].
  exists (plus_hours st (ahead dst (count st))). split; [apply iso_same; exact P'|]. split; [exact P' | exact C].
Qed.
Lemma stamp_ok dst st : proper st -> (yr st < 9999)%Z -> exists st', correct_timestamp dst (maccor_text st) = Ok (iso_text st') /\ proper st'
  /\ count st' = (count st + ahead dst (count st) * 3600)%Z.
Proof.
  intros P Y. destruct (convert dst st P Y) as (st' & E & P' & C). exists st'. split; [|auto].
  unfold correct_timestamp. rewrite (strptime_text _ P), E. reflexivity.
Qed.
Lemma pacific dst st u : proper st -> (yr st < 9999)%Z -> shown dst u = count st ->
  exists st', correct_timestamp dst (maccor_text st) = Ok (iso_text st') /\ proper st' /\ shown dst (count st') = count st /\ (count st' <= u)%Z.
Proof.
  intros P Y E. destruct (stamp_ok dst st P Y) as (st' & R & P' & C). exists st'. rewrite C. destruct (ahead_shown dst _ _ E). auto.
Qed.
Lemma skipped dst st : proper st -> (yr st < 9999)%Z -> (forall u, shown dst u <> count st) ->
  exists st', correct_timestamp dst (maccor_text st) = Ok (iso_text st') /\ proper st' /\ shown dst (count st') = (count st - 3600)%Z.
Proof.
  intros P Y E. destruct (stamp_ok dst st P Y) as (st' & R & P' & C). exists st'. split; [exact R|]. split; [exact P'|]. rewrite C. unfold ahead.
  pose proof (E (count st + 7 * 3600)%Z) as A. pose proof (E (count st + 8 * 3600)%Z) as B. unfold shown in *.
  destruct (dst (count st + 7 * 3600)%Z) eqn:U; [exfalso; apply A; lia|]. destruct (dst (count st + 8 * 3600)%Z) eqn:V; [|exfalso; apply B; lia].
  rewrite U. lia.
Qed.
Lemma date_only dst st : proper st -> correct_timestamp dst (maccor_date st) = correct_timestamp dst (maccor_text (midnight st)).
Proof.
  intro P. unfold correct_timestamp. rewrite (strptime_date _ P).
  change (maccor_date st ++ " 00:00:00")%string with (maccor_text (midnight st)).
  rewrite strptime_text; [reflexivity|]. destruct P as (Y & M & D & _). unfold proper, midnight. cbn [yr mo dy hh mi ss]. repeat split; lia.
Qed.
Lemma figure_inj m n : (0 <= m < 10)%Z -> (0 <= n < 10)%Z -> figure m = figure n -> m = n.
Proof. intros B C G. unfold figure in G. apply (f_equal nat_of_ascii) in G. rewrite !nat_ascii_embedding in G by lia. lia. Qed.
Lemma tens n : (0 <= n < 100)%Z -> (0 <= n / 10 < 10)%Z /\ (0 <= n mod 10 < 10)%Z /\ n = (10 * (n / 10) + n mod 10)%Z.
Proof. intro B. Z.to_euclidean_division_equations. lia. Qed.
Lemma two_inj m n a b : (0 <= m < 100)%Z -> (0 <= n < 100)%Z -> (two m ++ a = two n ++ b)%string -> m = n /\ a = b.
Proof.
  intros B C E. unfold two in E. cbn [append] in E. injection E as E1 E2 E3. split; [|exact E3].
  destruct (tens m B) as (M1 & M2 & M3). destruct (tens n C) as (N1 & N2 & N3).
  apply figure_inj in E1; [|assumption..]. apply figure_inj in E2; [|assumption..]. rewrite M3, N3, E1, E2. reflexivity.
Qed.
Lemma two_sep m n c a b : (0 <= m < 100)%Z -> (0 <= n < 100)%Z -> (two m ++ String c a = two n ++ String c b)%string -> m = n /\ a = b.
Proof. intros B C E. apply two_inj in E as [E1 E2]; [|assumption..]. injection E2 as E2. auto. Qed.
Lemma iso_inj a b : proper a -> proper b -> iso_text a = iso_text b -> a = b.
Proof.
  intros (Y & M & D & H & N & S) (Y' & M' & D' & H' & N' & S') E.
  pose proof (month_length_bounds (yr a) _ M). pose proof (month_length_bounds (yr b) _ M').
  unfold iso_text, four in E. rewrite !app_assoc_s in E.
  assert (HB : forall y, (1 <= y <= 9999)%Z -> (0 <= y / 100 < 100)%Z /\ (0 <= y mod 100 < 100)%Z /\ y = (100 * (y / 100) + y mod 100)%Z)
    by (clear; intros; Z.to_euclidean_division_equations; lia).
  destruct (HB _ Y) as (Y1 & Y2 & Y3). destruct (HB _ Y') as (Y1' & Y2' & Y3'). clear HB.
  cbn [append] in E.
  apply two_inj in E as [E1 E]; [|assumption..]. apply two_sep in E as [E2 E]; [|assumption..]. apply two_sep in E as [E3 E]; [|lia..].
  apply two_sep in E as [E4 E]; [|lia..]. apply two_sep in E as [E5 E]; [|lia..]. apply two_sep in E as [E6 E]; [|lia..]. apply two_inj in E as [E7 _]; [|lia..].
  assert (EY : yr a = yr b) by congruence. destruct a, b. cbn in *. congruence.
Qed.

(** ** Arbin *)
Lemma round_even_comp a b : a == b -> round_even a = round_even b.
Proof.
  intro E. unfold round_even. rewrite (Qfloor_comp _ _ E). unfold Qlt_bool.
  assert (K : forall c, Qle_bool c (a - inject_Z (Qfloor b)) = Qle_bool c (b - inject_Z (Qfloor b))).
  { intro c. apply eq_true_iff_eq. rewrite !Qle_bool_iff. rewrite E. reflexivity. }
  assert (K' : forall c, Qle_bool (a - inject_Z (Qfloor b)) c = Qle_bool (b - inject_Z (Qfloor b)) c).
  { intro c. apply eq_true_iff_eq. rewrite !Qle_bool_iff. rewrite E. reflexivity. }
  rewrite K, K'. reflexivity.
Qed.
Lemma round_even_mono a b : a <= b -> (round_even a <= round_even b)%Z.
Proof.
  intro L. destruct (Z_le_gt_dec (round_even a) (round_even b)) as [|G]; [assumption|exfalso].
  pose proof (round_even_near a) as A. pose proof (round_even_near b) as B. apply Qabs_Qle_condition in A, B.
  assert (H : inject_Z (round_even b) + 1 <= inject_Z (round_even a)) by (change 1 with (inject_Z 1); rewrite <- inject_Z_plus, <- Zle_Qle; lia).
  assert (E : a == b) by lra. apply round_even_comp in E. lia.
Qed.
Lemma exponent_recent t : recent t -> exponent t = 30%Z.
Proof.
  intros [L U]. destruct t as [a b]. unfold exponent. cbn [Qnum Qden].
  unfold Qle, Qlt, inject_Z in L, U. cbn [Qnum Qden] in L, U. rewrite Z.mul_1_r in L, U.
  assert (PB : (0 < Zpos b)%Z) by lia. assert (PA : (0 < a)%Z) by lia.
  pose proof (Z.log2_spec a PA) as [A1 A2]. pose proof (Z.log2_spec (Zpos b) PB) as [B1 B2].
  pose proof (Z.log2_nonneg a). pose proof (Z.log2_nonneg (Zpos b)).
  assert (E1 : (30 + Z.log2 (Zpos b) <= Z.log2 a)%Z).
  { apply Z.log2_le_pow2; [lia|]. rewrite Z.pow_add_r by lia. nia. }
  assert (E2 : (Z.log2 a < 32 + Z.log2 (Zpos b))%Z).
  { apply Z.log2_lt_pow2; [lia|]. replace (32 + Z.log2 (Zpos b))%Z with (31 + Z.succ (Z.log2 (Zpos b)))%Z by lia. rewrite Z.pow_add_r by lia. nia. }
  assert (K : (Z.log2 a - Z.log2 (Zpos b) = 30 \/ Z.log2 a - Z.log2 (Zpos b) = 31)%Z) by lia.
  destruct K as [-> | ->].
  - replace (Qle_bool (Qpower 2 30) (a # b)) with true; [reflexivity|]. symmetry. apply Qle_bool_iff. unfold Qle. change (Qpower 2 30) with (inject_Z (2 ^ 30)). cbn [Qnum Qden inject_Z]. lia.
  - replace (Qle_bool (Qpower 2 31) (a # b)) with false; [reflexivity|]. symmetry. apply not_true_iff_false. rewrite Qle_bool_iff. unfold Qle. change (Qpower 2 31) with (inject_Z (2 ^ 31)). cbn [Qnum Qden inject_Z]. lia.
Qed.
Lemma float32_recent t : recent t -> float32 t = inject_Z (round_even (t / 128)) * 128.
Proof.
  intro R. pose proof R as [L _]. change (inject_Z (2 ^ 30)) with (1073741824 # 1) in L. unfold float32.
  replace (Qle_bool t 0) with false; [|symmetry; apply not_true_iff_false; rewrite Qle_bool_iff; lra].
  rewrite (exponent_recent _ R). reflexivity.
Qed.
Lemma float32_near t : recent t -> Qabs (float32 t - t) <= 64.
Proof.
  intro R. rewrite (float32_recent _ R). pose proof (round_even_near (t / 128)) as N. apply Qabs_Qle_condition in N. apply Qabs_Qle_condition.
  assert (E : t == 128 * (t / 128)) by field. set (q := t / 128) in *. set (r := inject_Z (round_even q)) in *. lra.
Qed.
Lemma instant_recent t : recent t -> exists i, utcfromtimestamp (Some (float32 t)) = Ok i /\ i == inject_Z (round_even (t / 128)) * 128.
Proof.
  intro R. eexists. split; [reflexivity|]. rewrite (float32_recent _ R).
  rewrite (round_even_int _ (round_even (t / 128) * 128000000)).
  - rewrite inject_Z_mult. field.
  - rewrite inject_Z_mult. change (inject_Z 128000000) with (128000000 # 1). ring.
Qed.
Lemma cast_recent ts : cast_datetime (map Some ts) = map (fun t => Some (float32 t)) ts.
Proof.
  unfold cast_datetime. replace (existsb _ (map Some ts)) with false; [rewrite map_map; reflexivity|]. induction ts as [|t ts IH]; [reflexivity | exact IH].
Qed.
Lemma arbin_ok ts : Forall recent ts -> exists is, arbin_instants (map Some ts) = Ok is
  /\ Forall2 (fun t i => i == inject_Z (round_even (t / 128)) * 128) ts is.
Proof.
  intro R. unfold arbin_instants. rewrite cast_recent. induction R as [|t ts R Rs IH]; [exists []; split; [reflexivity | constructor]|].
  destruct IH as (is & E & F). destruct (instant_recent t R) as (i & E1 & E2).
  exists (i :: is). cbn [map mapM]. rewrite E1. cbn [bind]. rewrite E. split; [reflexivity | constructor; assumption].
Qed.
Lemma arbin_near ts : Forall recent ts -> exists is, arbin_instants (map Some ts) = Ok is
  /\ Forall2 (fun t i => Qabs (i - t) <= 64 /\ exists k, i == inject_Z (128 * k)) ts is.
Proof.
  intro R. destruct (arbin_ok ts R) as (is & E & F). exists is. split; [exact E|]. clear E. induction F as [|t i ts is H F IH]; constructor; [|inversion R; auto].
  inversion R as [|? ? R1 R2]; subst. split.
  - rewrite H. rewrite <- (float32_recent _ R1). apply float32_near. exact R1.
  - exists (round_even (t / 128)). rewrite H, inject_Z_mult. change (inject_Z 128) with (128 # 1). ring.
Qed.
Lemma arbin_order ts is : Forall recent ts -> arbin_instants (map Some ts) = Ok is ->
  forall j k t t' i i', nth_error ts j = Some t -> nth_error ts k = Some t' -> nth_error is j = Some i -> nth_error is k = Some i' -> t <= t' -> i <= i'.
Proof.
  intros R E j k t t' i i' A B C D L. destruct (arbin_ok ts R) as (is' & E' & F). rewrite E in E'. injection E' as <-.
  assert (X : forall j t i, nth_error ts j = Some t -> nth_error is j = Some i -> i == inject_Z (round_even (t / 128)) * 128).
  { clear -F. induction F as [|t i ts is H F IH]; intros [|j] x y; cbn; [discriminate | discriminate | intros [= <-] [= <-]; exact H | apply IH]. }
  rewrite (X _ _ _ A C), (X _ _ _ B D). apply Qmult_le_compat_r; [|lra]. rewrite <- Zle_Qle. apply round_even_mono.
  unfold Qdiv. apply Qmult_le_compat_r; [exact L|]. discriminate.
Qed.
Lemma arbin_missing col : In None col -> arbin_instants col = Err ValueError.
Proof.
  intro I. unfold arbin_instants, cast_datetime.
  replace (existsb _ col) with true by (symmetry; apply existsb_exists; exists None; auto).
  induction col as [|[x|] col IH]; [destruct I | | reflexivity]. destruct I as [|I]; [discriminate|]. cbn [mapM utcfromtimestamp bind]. rewrite (IH I). reflexivity.
Qed.
