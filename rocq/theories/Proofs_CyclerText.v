(** Lemmas for C129-C131: times, and files of Novonix. *)
From Verif Require Import Py Num Model_Text Model_Arbin Model_Biologic Model_Cmd Model_Stamp Model_RawFile Model_CyclerFile.
From Verif Require Import Spec_Numeral Spec_Cmd Spec_Stamp Spec_RawFile Spec_CyclerFile Spec_Biologic.
From Verif Require Import Proofs_Text Proofs_Strings Proofs_Arbin Proofs_Datapath Proofs_Diagnostic Proofs_Stamp Proofs_RawFile Proofs_CyclerFile.
From Verif Require Proofs_Numeral Proofs_Biologic.
(** ** Times *)
Lemma digits_short fuel : forall k n acc, (0 <= n < 10 ^ (Z.of_nat k + 1))%Z -> (length (digits_aux fuel n acc) <= S k + length acc)%nat.
Proof.
  induction fuel as [|fuel IH]; intros k n acc B; cbn [digits_aux]; [lia|]. cbv zeta. destruct (Z.eqb_spec (n / 10) 0) as [L|L]; [cbn; lia|].
  destruct k as [|k]; [exfalso; apply L; apply Z.div_small; cbn in B; lia|].
  etransitivity; [apply (IH k)|cbn [length]; lia].
  replace (10 ^ (Z.of_nat (S k) + 1))%Z with (10 * 10 ^ (Z.of_nat k + 1))%Z in B by (rewrite Nat2Z.inj_succ; replace (Z.succ (Z.of_nat k) + 1)%Z with (Z.succ (Z.of_nat k + 1)) by lia; rewrite Z.pow_succ_r by lia; reflexivity).
  Z.to_euclidean_division_equations. lia.
Qed.
Lemma digits_below ds : Forall is_digit ds -> (digits_val ds < 10 ^ Z.of_nat (length ds))%Z.
Proof.
  induction 1 as [|d ds D _ IH]; [reflexivity|]. rewrite digits_val_cons. cbn [length]. rewrite Nat2Z.inj_succ, Z.pow_succ_r by lia. unfold is_digit in D. nia.
Qed.
Lemma digits_unique a b : Forall is_digit a -> Forall is_digit b -> length a = length b -> digits_val a = digits_val b -> a = b.
Proof.
  intro A. revert b. induction A as [|x a X A IH]; intros b B L E; destruct b as [|y b]; try discriminate L; [reflexivity|].
  inversion B as [|? ? Y B']; subst. injection L as L. rewrite !digits_val_cons, L in E.
  pose proof (digits_below a A) as P. pose proof (digits_below b B') as Q. rewrite L in P. pose proof (digits_val_nonneg a). pose proof (digits_val_nonneg b).
  assert (Z.of_nat x = Z.of_nat y) by nia. assert (x = y) by lia. subst y. f_equal. apply IH; auto. lia.
Qed.
Lemma digits_app a b : (digits_text a ++ digits_text b)%string = digits_text (a ++ b).
Proof. induction a as [|x a IH]; cbn [digits_text append app]; [reflexivity|rewrite IH; reflexivity]. Qed.
Lemma digits_length ds : String.length (digits_text ds) = length ds.
Proof. induction ds; cbn; auto. Qed.
Lemma zeros_length n : length (zeros n) = n.
Proof. induction n; cbn; auto. Qed.
Definition six_list (n : Z) : list nat :=
  [Z.to_nat (n / 10000 / 10); Z.to_nat ((n / 10000) mod 10); Z.to_nat (n / 100 mod 100 / 10); Z.to_nat ((n / 100 mod 100) mod 10); Z.to_nat (n mod 100 / 10); Z.to_nat ((n mod 100) mod 10)].
Lemma six_digits n : six n = digits_text (six_list n).
Proof. reflexivity. Qed.
Lemma six_is_digits n : proper_us n -> Forall is_digit (six_list n).
Proof. unfold proper_us. intro B. unfold six_list. repeat apply Forall_cons; try apply Forall_nil; unfold is_digit; Z.to_euclidean_division_equations; lia. Qed.
Lemma six_val n : proper_us n -> digits_val (six_list n) = n.
Proof. unfold proper_us. intro B. unfold six_list, digits_val. cbn [fold_left]. Z.to_euclidean_division_equations. lia. Qed.
Lemma padded_six n : proper_us n -> padded 6 n = six n.
Proof.
  intro B. unfold padded, zfill, str_int. unfold proper_us in B. destruct (Z.ltb_spec n 0); [lia|]. destruct (digits_of_spec n ltac:(lia)) as (N & F & V).
  rewrite digits_app, six_digits, digits_length. f_equal. apply digits_unique.
  - apply Forall_app. split; [apply zeros_digit | exact F].
  - apply six_is_digits. exact B.
  - pose proof (digits_short (S (Z.to_nat (Z.log2 n))) 5 n [] ltac:(cbn; lia)) as L. fold (digits_of n) in L. cbn [length] in L. rewrite app_length, zeros_length. cbn [six_list length]. lia.
  - rewrite digits_val_zeros, V. symmetry. apply six_val. exact B.
Qed.
Lemma millionths_six n : proper_us n -> millionths (six n) = Some n.
Proof.
  intro B. unfold millionths. rewrite <- (app_nil_r_s (six n)), six_digits, span_digits_text; [|apply six_is_digits; exact B | exact I].
  cbn [six_list length Nat.leb andb Nat.sub repeat]. rewrite app_nil_r. f_equal. apply six_val. exact B.
Qed.
Lemma dot_free ds : Forall is_digit ds -> char_free "." (digits_text ds).
Proof.
  induction 1 as [|d ds D _ IH]; [reflexivity|]. cbn [digits_text]. apply char_free_cons. split; [|exact IH].
  unfold digit_char. intro E. apply (f_equal nat_of_ascii) in E. unfold is_digit in D. rewrite nat_ascii_embedding in E by lia. cbn in E. lia.
Qed.
Lemma strptime_us_text st us : proper st -> proper_us us -> strptime_us (biologic_text st us) = Some (st, us).
Proof.
  intros P B. unfold strptime_us, biologic_text. cbn [append].
  assert (F : char_free "." (maccor_text st)).
  { destruct P as (Y & M & D & H & N & S). pose proof (month_length_bounds (yr st) _ M). unfold maccor_text, maccor_date.
    assert (T : forall n, (0 <= n < 100)%Z -> char_free "." (two n)) by (intros n X; rewrite two_digits; apply dot_free, two_is_digits; exact X).
    repeat (apply char_free_app; split); try reflexivity; try (apply T; Z.to_euclidean_division_equations; lia). }
  rewrite str_split_char by exact F.
  rewrite str_split_none by (change (char_free "." (six us)); rewrite six_digits; apply dot_free, six_is_digits; exact B).
  rewrite strptime_text by exact P. rewrite millionths_six by exact B. reflexivity.
Qed.
Lemma iso_us_same st us : proper st -> proper_us us -> isoformat_us st us = iso_us st us.
Proof. intros P B. unfold isoformat_us, iso_us. rewrite local_same by exact P. rewrite padded_six by exact B. reflexivity. Qed.
Lemma biologic_pacific dst st us u : proper st -> (yr st < 9999)%Z -> proper_us us -> shown dst u = count st ->
  exists st', biologic_iso dst (biologic_text st us) = Ok (iso_us st' us) /\ proper st' /\ shown dst (count st') = count st /\ (count st' <= u)%Z.
Proof.
  intros P Y B E. exists (plus_hours st (ahead dst (count st))).
  destruct (plus_hours_ok st (ahead dst (count st)) P Y) as [P' C]; [destruct (ahead_range dst (count st)) as [-> | ->]; lia|].
  unfold biologic_iso. rewrite (strptime_us_text _ _ P B), (seconds_proper _ P), (iso_us_same _ _ P' B). rewrite C. destruct (ahead_shown dst _ _ E). auto.
Qed.
Lemma test_time_ok su0 rest : (forall st us, In (st, us) (su0 :: rest) -> proper st /\ proper_us us) ->
  biologic_test_time (map (fun su => biologic_text (fst su) (snd su)) (su0 :: rest)) =
  Ok (map (fun su => inject_Z (count_us (fst su) (snd su) - count_us (fst su0) (snd su0)) / 1000000) (su0 :: rest)).
Proof.
  intro P. unfold biologic_test_time. cbn [hd map]. change (biologic_text (fst su0) (snd su0) :: map (fun su => biologic_text (fst su) (snd su)) rest) with (map (fun su => biologic_text (fst su) (snd su)) (su0 :: rest)).
  change (inject_Z (count_us (fst su0) (snd su0) - count_us (fst su0) (snd su0)) / 1000000 :: map (fun su => inject_Z (count_us (fst su) (snd su) - count_us (fst su0) (snd su0)) / 1000000) rest)
    with (map (fun su => inject_Z (count_us (fst su) (snd su) - count_us (fst su0) (snd su0)) / 1000000) (su0 :: rest)).
  assert (Z : forall su, In su (su0 :: rest) -> strptime_us (biologic_text (fst su) (snd su)) = Some su /\ clock_us su = count_us (fst su) (snd su)).
  { intros [st us] I. destruct (P st us I) as [P1 P2]. cbn [fst snd]. split; [apply strptime_us_text; assumption|]. unfold clock_us, count_us. cbn [fst snd]. rewrite seconds_proper by exact P1. reflexivity. }
  destruct (Z su0 (or_introl eq_refl)) as [Z1 Z2]. rewrite Z1. clear P. revert Z. generalize (su0 :: rest) as l. induction l as [|su l IH]; intro Z; [reflexivity|].
  cbn [map mapM]. destruct (Z su (or_introl eq_refl)) as [A1 A2]. rewrite A1. cbn [bind]. rewrite IH by (intros x I; apply Z; right; exact I). cbn [bind]. rewrite A2, Z2. reflexivity.
Qed.

(** ** Novonix files *)
Lemma hour_12_ok st : (0 <= hh st < 24)%Z -> (1 <= hour_12 st <= 12)%Z /\ hour12 (hour_12 st) (half_day st) = Some (hh st).
Proof.
  intro H. assert (K : let st := {| yr := 1; mo := 1; dy := 1; hh := hh st; mi := 0; ss := 0 |} in
    (match hour12 (hour_12 st) (half_day st) with Some k => (k =? hh st)%Z && (1 <=? hour_12 st)%Z && (hour_12 st <=? 12)%Z | None => false end) = true).
  { apply (bounded (fun h => let st := {| yr := 1; mo := 1; dy := 1; hh := h; mi := 0; ss := 0 |} in
      match hour12 (hour_12 st) (half_day st) with Some k => (k =? h)%Z && (1 <=? hour_12 st)%Z && (hour_12 st <=? 12)%Z | None => false end) 24); [vm_compute; reflexivity | exact H]. }
  cbv zeta in K. change (hour_12 {| yr := 1; mo := 1; dy := 1; hh := hh st; mi := 0; ss := 0 |}) with (hour_12 st) in K.
  change (half_day {| yr := 1; mo := 1; dy := 1; hh := hh st; mi := 0; ss := 0 |}) with (half_day st) in K.
  destruct (hour12 (hour_12 st) (half_day st)) as [k|]; [|discriminate K]. cbn [hh] in K. apply andb_true_iff in K as [K K3]. apply andb_true_iff in K as [K1 K2].
  apply Z.eqb_eq in K1. apply Z.leb_le in K2, K3. subst k. auto.
Qed.
Lemma sign_free c ds : Forall is_digit ds -> c = "-"%char \/ c = "/"%char \/ c = ":"%char \/ c = " "%char -> char_free c (digits_text ds).
Proof.
  intros F I. induction F as [|d ds D _ IH]; [reflexivity|]. cbn [digits_text]. apply char_free_cons. split; [|exact IH].
  unfold digit_char. intro E. apply (f_equal nat_of_ascii) in E. unfold is_digit in D. rewrite nat_ascii_embedding in E by lia.
  destruct I as [-> | [-> | [-> | ->]]]; cbn in E; lia.
Qed.
Lemma novonix_stamp us st : proper st -> strptime_novonix us (if us then novonix_us_text st else novonix_text st) = Some st.
Proof.
  intros (Y & M & D & H & N & S). pose proof (month_length_bounds (yr st) _ M) as L. destruct (hour_12_ok st H) as [H1 H2].
  assert (T : forall n c, (0 <= n < 100)%Z -> c = "-"%char \/ c = "/"%char \/ c = ":"%char \/ c = " "%char -> char_free c (two n))
    by (intros n c B I; rewrite two_digits; apply sign_free; [apply two_is_digits; exact B | exact I]).
  assert (U : forall c, c = "-"%char \/ c = "/"%char \/ c = ":"%char \/ c = " "%char -> char_free c (four (yr st)))
    by (intros c I; rewrite four_digits; apply sign_free; [apply four_is_digits; lia | exact I]).
  assert (HD : char_free " " (half_day st)) by (unfold half_day; destruct (hh st <? 12)%Z; reflexivity).
  unfold strptime_novonix.
  assert (SP : str_split " " (if us then novonix_us_text st else novonix_text st) =
    [(if us then two (mo st) ++ "/" ++ two (dy st) ++ "/" ++ four (yr st) else four (yr st) ++ "-" ++ two (mo st) ++ "-" ++ two (dy st))%string;
     (two (hour_12 st) ++ ":" ++ two (mi st) ++ ":" ++ two (ss st))%string; half_day st]).
  { assert (X : (if us then novonix_us_text st else novonix_text st) = ((if us then two (mo st) ++ "/" ++ two (dy st) ++ "/" ++ four (yr st) else four (yr st) ++ "-" ++ two (mo st) ++ "-" ++ two (dy st))
       ++ String " " ((two (hour_12 st) ++ ":" ++ two (mi st) ++ ":" ++ two (ss st)) ++ String " " (half_day st)))%string).
    { destruct us; unfold novonix_us_text, novonix_text, time_12; rewrite ?app_assoc_s; cbn [append]; rewrite ?app_assoc_s; reflexivity. }
    rewrite X. rewrite str_split_char by (destruct us; repeat (apply char_free_app; split); try reflexivity; try (apply T; [lia | auto]); apply U; auto).
    rewrite str_split_char by (repeat (apply char_free_app; split); try reflexivity; apply T; auto; lia).
    rewrite str_split_none by exact HD. reflexivity. }
  rewrite SP.
  assert (TS : str_split ":" (two (hour_12 st) ++ ":" ++ two (mi st) ++ ":" ++ two (ss st)) = [two (hour_12 st); two (mi st); two (ss st)]).
  { cbn [append]. change (two (hour_12 st) ++ String ":" (two (mi st) ++ String ":" (two (ss st))))%string with (two (hour_12 st) ++ String ":" (two (mi st) ++ String ":" (two (ss st))))%string.
    rewrite str_split_char by (apply T; auto; lia). rewrite str_split_char by (apply T; auto; lia). rewrite str_split_none by (apply T; auto; lia). reflexivity. }
  rewrite TS.
  assert (DS : (if us then match str_split "/" (if us then two (mo st) ++ "/" ++ two (dy st) ++ "/" ++ four (yr st) else four (yr st) ++ "-" ++ two (mo st) ++ "-" ++ two (dy st)) with [m; dd; y] => Some (y, m, dd) | _ => None end
     else match str_split "-" (if us then two (mo st) ++ "/" ++ two (dy st) ++ "/" ++ four (yr st) else four (yr st) ++ "-" ++ two (mo st) ++ "-" ++ two (dy st)) with [y; m; dd] => Some (y, m, dd) | _ => None end)
     = Some (four (yr st), two (mo st), two (dy st))).
  { destruct us; cbn [append].
    - rewrite str_split_char by (apply T; auto; lia). rewrite str_split_char by (apply T; auto; lia). rewrite str_split_none by (apply U; auto). reflexivity.
    - rewrite str_split_char by (apply U; auto). rewrite str_split_char by (apply T; auto; lia). rewrite str_split_none by (apply T; auto; lia). reflexivity. }
  rewrite DS. rewrite year_only_ok by lia. rewrite !field_two by lia. rewrite H2. rewrite dim_same by exact M.
  destruct (Z.leb_spec 1 (yr st)), (Z.leb_spec (dy st) (month_length (yr st) (mo st))), (Z.leb_spec (ss st) 59); try lia. cbn [andb]. destruct st; reflexivity.
Qed.
Lemma novonix_other us st : proper st -> strptime_novonix us (if us then novonix_text st else novonix_us_text st) = None.
Proof.
  intros (Y & M & D & H & N & S). pose proof (month_length_bounds (yr st) _ M) as L. destruct (hour_12_ok st H) as [H1 H2].
  assert (T : forall n c, (0 <= n < 100)%Z -> c = "-"%char \/ c = "/"%char \/ c = ":"%char \/ c = " "%char -> char_free c (two n))
    by (intros n c B I; rewrite two_digits; apply sign_free; [apply two_is_digits; exact B | exact I]).
  assert (U : forall c, c = "-"%char \/ c = "/"%char \/ c = ":"%char \/ c = " "%char -> char_free c (four (yr st)))
    by (intros c I; rewrite four_digits; apply sign_free; [apply four_is_digits; lia | exact I]).
  assert (HD : char_free " " (half_day st)) by (unfold half_day; destruct (hh st <? 12)%Z; reflexivity).
  unfold strptime_novonix.
  assert (X : (if us then novonix_text st else novonix_us_text st) = ((if us then four (yr st) ++ "-" ++ two (mo st) ++ "-" ++ two (dy st) else two (mo st) ++ "/" ++ two (dy st) ++ "/" ++ four (yr st))
       ++ String " " ((two (hour_12 st) ++ ":" ++ two (mi st) ++ ":" ++ two (ss st)) ++ String " " (half_day st)))%string).
  { destruct us; unfold novonix_us_text, novonix_text, time_12; rewrite ?app_assoc_s; cbn [append]; rewrite ?app_assoc_s; reflexivity. }
  rewrite X. rewrite str_split_char by (destruct us; repeat (apply char_free_app; split); try reflexivity; try (apply T; [lia | auto]); apply U; auto).
  rewrite str_split_char by (repeat (apply char_free_app; split); try reflexivity; apply T; auto; lia).
  rewrite str_split_none by exact HD. destruct us.
  - rewrite (str_split_none "/") by (change (char_free "/" (four (yr st) ++ "-" ++ two (mo st) ++ "-" ++ two (dy st))); repeat (apply char_free_app; split); try reflexivity; try (apply T; [lia | auto]); apply U; auto). reflexivity.
  - rewrite (str_split_none "-") by (change (char_free "-" (two (mo st) ++ "/" ++ two (dy st) ++ "/" ++ four (yr st))); repeat (apply char_free_app; split); try reflexivity; try (apply T; [lia | auto]); apply U; auto). reflexivity.
Qed.
Lemma dates_ok us sts : Forall proper sts -> novonix_dates us (map (if us then novonix_us_text else novonix_text) sts) = Some (map local_text sts).
Proof.
  intro F. unfold novonix_dates. assert (E : mapM (fun x => match strptime_novonix us x with Some st => Ok (isoformat_local st) | None => Err ValueError end) (map (if us then novonix_us_text else novonix_text) sts) = Ok (map local_text sts)); [|rewrite E; reflexivity].
  induction F as [|st sts P _ IH]; [reflexivity|]. cbn [map mapM]. rewrite IH.
  assert (X : strptime_novonix us ((if us then novonix_us_text else novonix_text) st) = Some st) by (pose proof (novonix_stamp us st P) as X; destruct us; exact X).
  rewrite X. cbn [bind]. rewrite local_same by exact P. reflexivity.
Qed.
Lemma dates_other us x xs : In x xs -> strptime_novonix us x = None -> novonix_dates us xs = None.
Proof.
  intros I N. unfold novonix_dates.
  assert (E : mapM (fun x => match strptime_novonix us x with Some st => Ok (isoformat_local st) | None => Err ValueError end) xs = Err ValueError).
  { induction xs as [|y xs IH]; [destruct I|]. cbn [mapM]. destruct I as [-> | I]; [rewrite N; reflexivity|]. destruct (strptime_novonix us y); [|reflexivity]. cbn [bind]. rewrite (IH I). reflexivity. }
  rewrite E. reflexivity.
Qed.
Lemma dates_all sts (us : bool) : Forall proper sts -> novonix_iso (map (if us then novonix_us_text else novonix_text) sts) = Ok (map local_text sts).
Proof.
  intro F. unfold novonix_iso. destruct us.
  - rewrite (dates_ok true sts F). destruct (novonix_dates false _); reflexivity.
  - rewrite (dates_ok false sts F). destruct sts as [|st sts]; [reflexivity|]. rewrite (dates_other true (novonix_text st)); [reflexivity | left; reflexivity |]. inversion F; subst. apply (novonix_other true). assumption.
Qed.
Lemma dates_mixed xs a b : proper a -> proper b -> In (novonix_text a) xs -> In (novonix_us_text b) xs -> novonix_iso xs = Err ValueError.
Proof.
  intros A B I J. unfold novonix_iso. rewrite (dates_other false _ _ J) by (apply (novonix_other false); exact B).
  rewrite (dates_other true _ _ I) by (apply (novonix_other true); exact A). reflexivity.
Qed.

(** the table *)
Lemma not_blank_kept l : Forall (fun x => only_blanks x = false) l -> csv_lines l = l.
Proof. induction 1 as [|x l E _ IH]; [reflexivity|]. unfold csv_lines in *. cbn [filter]. rewrite E. cbn [negb]. rewrite IH. reflexivity. Qed.
Lemma frame_ok pre header rows cells : Forall (fun x => only_blanks x = false) (pre ++ header :: rows) ->
  (forall r, In r (header :: rows) -> length (str_split "," r) = cells) ->
  novonix_frame (length pre + 1) (pre ++ header :: rows) = Ok (map Some (str_split "," header), map (fun r => map Some (str_split "," r)) rows).
Proof.
  intros F W. unfold novonix_frame. rewrite (not_blank_kept _ F). replace (length pre + 1 - 1)%nat with (length pre) by lia.
  rewrite skipn_app, skipn_all2, Nat.sub_diag by lia. cbn [app skipn].
  assert (X : fold_right Nat.max 0%nat (map (fun l => length (str_split "," l)) (header :: rows)) = cells).
  { assert (G : forall l, (forall r, In r l -> length (str_split "," r) = cells) -> (fold_right Nat.max 0%nat (map (fun l => length (str_split "," l)) l) <= cells)%nat).
    { induction l as [|x l IH]; intro Z; [cbn; lia|]. cbn [map fold_right]. rewrite (Z x (or_introl eq_refl)). specialize (IH (fun r I => Z r (or_intror I))). lia. }
    cbn [map fold_right]. rewrite (W header (or_introl eq_refl)). specialize (G rows (fun r I => W r (or_intror I))). lia. }
  rewrite X. cbn [map].
  assert (C : forall r, In r (header :: rows) -> novonix_cells cells r = map Some (str_split "," r)).
  { intros r I. unfold novonix_cells. rewrite (W r I), Nat.sub_diag. apply app_nil_r. }
  rewrite (C header (or_introl eq_refl)). do 2 f_equal. apply map_ext_in. intros r I. apply C. right. exact I.
Qed.

(** the summary *)
Lemma contains_sep p c x y : char_free c p -> contains p (x ++ String c y) = contains p x || contains p y.
Proof.
  intro F. destruct (contains p x || contains p y) eqn:E.
  - apply contains_iff. apply orb_true_iff in E as [E|E]; apply contains_iff in E as (a & b & E).
    + exists a, (b ++ String c y)%string. rewrite E, !app_assoc_s. reflexivity.
    + exists (x ++ String c a)%string, b. rewrite E, app_assoc_s. reflexivity.
  - destruct (contains p (x ++ String c y)) eqn:K; [|reflexivity]. exfalso. apply contains_iff in K as (a & b & K). apply orb_false_iff in E as [E1 E2].
    destruct (le_lt_dec (String.length x) (String.length a)) as [L|L].
    + destruct (app_split_le _ _ _ _ K L) as (e & -> & E). destruct e as [|d e].
      * cbn [append] in E. destruct p as [|d p]; [destruct x; cbn in E1; discriminate E1|]. cbn in E. injection E as <- _. apply char_free_cons in F as [F _]. congruence.
      * cbn [append] in E. injection E as <- E. assert (contains p y = true) by (apply contains_iff; eauto). congruence.
    + symmetry in K. destruct (app_split_le _ _ _ _ K ltac:(lia)) as (e & -> & E).
      destruct (le_lt_dec (String.length p) (String.length e)) as [L2|L2].
      * destruct (app_split_le _ _ _ _ E L2) as (f & -> & _). assert (contains p (a ++ p ++ f) = true) by (apply contains_iff; eauto). congruence.
      * symmetry in E. destruct (app_split_le _ _ _ _ E ltac:(lia)) as (f & -> & E'). destruct f as [|d f]; [rewrite app_nil_r_s in L2; lia|].
        cbn in E'. injection E' as <- _. apply char_free_app in F as [_ F]. apply char_free_cons in F as [F _]. congruence.
Qed.
Lemma phrase_line k p s : In (k, p) novonix_fields -> plain_text s -> contains p (bytes_str (unix s)) = contains p s.
Proof.
  intros I P. rewrite (unix_text s P). change (String "b" (String sq "") ++ s ++ String bs "n" ++ String sq "")%string with ("b" ++ String sq (s ++ String bs ("n" ++ String sq "")))%string.
  assert (G : char_free sq p /\ char_free bs p /\ contains p "b" = false /\ contains p ("n" ++ String sq "") = false).
  { cbn [novonix_fields In] in I. repeat (destruct I as [I|I]; [injection I as _ <-; repeat split; reflexivity|]). destruct I. }
  destruct G as (G1 & G2 & G3 & G4). rewrite (contains_sep p sq) by exact G1. rewrite (contains_sep p bs) by exact G2. rewrite G3, G4. cbn [orb]. apply orb_false_r.
Qed.
Lemma value_ok label v : good_entry (label, v) -> novonix_value (bytes_str (unix (summary_entry label v))) = v.
Proof.
  intros (P & Cl & Cv & F & _). cbn [fst snd] in *. rewrite (unix_text _ P). unfold novonix_value, summary_entry.
  assert (Pv : plain_text v).
  { intros c I. apply P. unfold summary_entry. clear -I. induction label as [|d l IH]; cbn; auto. }
  destruct (plain_bytes v Pv) as [_ Fs]. assert (Fb : char_free bs v).
  { clear -Pv. induction v as [|c v IH]; [reflexivity|]. apply char_free_cons. split; [exact (proj2 (proj2 (Pv c (or_introl eq_refl)))) | apply IH; intros d I; apply Pv; right; exact I]. }
  replace (String "b" (String sq "") ++ (label ++ ": " ++ v) ++ String bs "n" ++ String sq "")%string
    with ((String "b" (String sq "") ++ label) ++ String ":" (String " " (v ++ String bs (String "n" (String sq "")))))%string by (rewrite !app_assoc_s; reflexivity).
  rewrite str_split_char by (apply char_free_app; split; [reflexivity | exact Cl]).
  rewrite str_split_none by (change (char_free ":" (String " " (v ++ String bs (String "n" (String sq ""))))); apply char_free_cons; split; [discriminate|]; apply char_free_app; split; [exact Cv | reflexivity]).
  cbn [last].
  assert (S : strip (String " " (v ++ String bs (String "n" (String sq "")))) = (v ++ String bs (String "n" (String sq "")))%string).
  { unfold strip. cbn [lstrip]. change (is_space " ") with true. cbn iota.
    assert (L : lstrip (v ++ String bs (String "n" (String sq ""))) = (v ++ String bs (String "n" (String sq "")))%string).
    { destruct v as [|c v]; [reflexivity|]. cbn [append]. apply lstrip_stop. destruct (is_space c) eqn:E; [|reflexivity]. exfalso. apply (F c v eq_refl). apply space_iff. exact E. }
    rewrite L. replace (v ++ String bs (String "n" (String sq "")))%string with ((v ++ String bs "n") ++ String sq "")%string by (rewrite app_assoc_s; reflexivity).
    apply (rstrip_stop (v ++ String bs "n") sq ""); reflexivity. }
  rewrite S. unfold replace_text.
  change (v ++ String bs (String "n" (String sq "")))%string with (v ++ String bs "n" ++ String sq "")%string.
  rewrite str_split_first; [|discriminate | apply first_head; [reflexivity | apply not_true_iff_false; intro K; apply contains_iff in K as (a & b & K); rewrite K in Fb; apply char_free_app in Fb as [_ Fb]; apply char_free_cons in Fb as [Fb _]; congruence]].
  change (str_split (String bs "n") (String sq "")) with [String sq ""]. cbn [join append].
  rewrite str_split_char by exact Fs. change (str_split (String sq "") "") with [""%string]. cbn [join append]. apply app_nil_r_s.
Qed.
Lemma taken_fun line k k' : taken_for line k -> taken_for line k' -> k = k'.
Proof.
  intros (a & p & b & E & C & N) (a' & p' & b' & E' & C' & N'). rewrite E in E'. clear E.
  revert a' E' N'. induction a as [|[x y] a IH]; intros [|[x' y'] a'] E' N'; cbn in E'.
  - injection E' as -> _ _. reflexivity.
  - injection E' as <- <- _. specialize (N' (k, p) (or_introl eq_refl)). cbn in N'. congruence.
  - injection E' as -> -> _. specialize (N (k', p') (or_introl eq_refl)). cbn in N. congruence.
  - injection E' as _ _ E'. apply (IH (fun kp I => N kp (or_intror I)) a' E' (fun kp I => N' kp (or_intror I))).
Qed.
Lemma find_taken s : plain_text s ->
  match find (fun kp => contains (snd kp) (bytes_str (unix s))) novonix_fields with
  | Some (k, _) => taken_for s k
  | None => forall k, ~ taken_for s k
  end.
Proof.
  intro P. assert (E : forall kp, In kp novonix_fields -> contains (snd kp) (bytes_str (unix s)) = contains (snd kp) s) by (intros [k p] I; apply (phrase_line k p s I P)).
  unfold taken_for. revert E. generalize novonix_fields as l. induction l as [|[k p] l IH]; intro E.
  - cbn. intros k (a & p & b & X & _). destruct a; discriminate X.
  - pose proof (E (k, p) (or_introl eq_refl)) as E0. cbn [find snd] in *. rewrite E0. destruct (contains p s) eqn:C.
    + exists [], p, l. split; [reflexivity|]. split; [exact C | intros ? []].
    + specialize (IH (fun kp I => E kp (or_intror I))). destruct (find _ l) as [[k' p']|].
      * destruct IH as (a & q & b & -> & C' & N). exists ((k, p) :: a), q, b. split; [reflexivity|]. split; [exact C'|]. intros kp [<-|I]; [exact C | apply N; exact I].
      * intros k' (a & q & b & X & C' & N). destruct a as [|z a]; cbn in X; injection X as X1 X2; subst.
        -- congruence.
        -- apply (IH k'). exists a, q, b. split; [reflexivity|]. split; [exact C' | intros kp I; apply N; right; exact I].
Qed.
Lemma summary_line_ok meta label v k : good_entry (label, v) ->
  (taken_for (summary_entry label v) k -> sget (summary_line meta (unix (summary_entry label v))) k = Some (noted v)) /\
  (~ taken_for (summary_entry label v) k -> sget (summary_line meta (unix (summary_entry label v))) k = sget meta k).
Proof.
  intro G. pose proof (find_taken (summary_entry label v) (proj1 G)) as H. unfold summary_line. rewrite (value_ok label v G).
  destruct (find _ novonix_fields) as [[k' p]|]; split; intro T.
  - rewrite (taken_fun _ _ _ T H), sget_sset, String.eqb_refl. reflexivity.
  - rewrite sget_sset. destruct (String.eqb_spec k k') as [->|]; [contradiction | reflexivity].
  - destruct (H k T).
  - reflexivity.
Qed.
Lemma scan_app flags meta a b : exists flags', novonix_scan flags meta (a ++ b) = novonix_scan flags' (novonix_scan flags meta a) b /\ flags' = fold_left novonix_flags a flags.
Proof.
  revert flags meta. induction a as [|x a IH]; intros flags meta; [exists flags; auto|]. cbn [app novonix_scan fold_left]. apply IH.
Qed.
Lemma flags_before a : (forall l, In l a -> contains "Cycle Number" l = false /\ contains "[Summary]" l = false /\ contains "[End Summary]" l = false) ->
  fold_left novonix_flags a (false, false) = (false, false) /\ forall meta, novonix_scan (false, false) meta a = meta.
Proof.
  induction a as [|x a IH]; intros H; [auto|]. cbn [fold_left novonix_scan]. destruct (H x (or_introl eq_refl)) as (H1 & H2 & H3).
  assert (E : novonix_flags (false, false) x = (false, false)) by (unfold novonix_flags; rewrite H1, H2, H3; reflexivity).
  rewrite E. cbn [fst andb]. apply IH. intros l I. apply H. right. exact I.
Qed.
Lemma flags_after a : forall b meta, novonix_scan (b, true) meta a = meta.
Proof.
  induction a as [|x a IH]; intros b meta; [reflexivity|]. cbn [novonix_scan]. unfold novonix_flags. destruct (contains "Cycle Number" x); [|destruct (contains "[Summary]" x); [|destruct (contains "[End Summary]" x)]];
    cbn [fst snd negb]; rewrite andb_false_r; apply IH.
Qed.
Lemma marks_unix p s : char_free (ascii_of_nat 10) p -> p <> ""%string -> contains p (unix s) = contains p s.
Proof.
  intros F N. unfold unix, eol. rewrite (contains_sep p (ascii_of_nat 10)) by exact F. destruct p as [|c p]; [contradiction|]. apply orb_false_r.
Qed.
Lemma entry_flags e : good_entry e -> novonix_flags (true, false) (unix (summary_entry (fst e) (snd e))) = (true, false).
Proof.
  intros (_ & _ & _ & _ & C & E). unfold novonix_flags. rewrite !marks_unix by (reflexivity || discriminate). rewrite C, E. destruct (contains "[Summary]" _); reflexivity.
Qed.
Notation entry_line := (fun e => unix (summary_entry (fst e) (snd e))).
Lemma entries_scan es : Forall good_entry es -> fold_left novonix_flags (map entry_line es) (true, false) = (true, false) /\
  forall meta k,
   ((forall e, In e es -> ~ taken_for (summary_entry (fst e) (snd e)) k) -> sget (novonix_scan (true, false) meta (map entry_line es)) k = sget meta k) /\
   (forall a e b, es = a ++ e :: b -> taken_for (summary_entry (fst e) (snd e)) k -> (forall e', In e' b -> ~ taken_for (summary_entry (fst e') (snd e')) k) ->
      sget (novonix_scan (true, false) meta (map entry_line es)) k = Some (noted (snd e))).
Proof.
  induction 1 as [|e es G _ [IH1 IH2]]; [split; [reflexivity|]; intros meta k; split; [reflexivity | intros [|? ?] ? ? E; discriminate E]|].
  cbn [map fold_left novonix_scan]. rewrite (entry_flags e G). cbn [fst snd negb andb]. split; [exact IH1|]. intros meta k. destruct e as [label v]. cbn [fst snd].
  destruct (summary_line_ok meta label v k G) as [S1 S2]. split.
  - intro N. rewrite (proj1 (IH2 _ k)) by (intros e I; apply N; right; exact I). apply S2. apply (N (label, v)). left. reflexivity.
  - intros a e b E T N. destruct a as [|x a]; cbn in E; injection E as E1 E2.
    + subst e b. cbn [fst snd] in *. rewrite (proj1 (IH2 _ k)) by exact N. apply S1. exact T.
    + exact (proj2 (IH2 _ k) a e b E2 T N).
Qed.
Lemma summary_ok pre entries rest lines meta h k : summary_file pre entries rest lines -> novonix_metadata lines = Ok (meta, h) -> In k (map fst novonix_fields) ->
  ((forall e, In e entries -> ~ taken_for (summary_entry (fst e) (snd e)) k) -> sget meta k = Some None) /\
  (forall a e b, entries = a ++ e :: b -> taken_for (summary_entry (fst e) (snd e)) k -> (forall e', In e' b -> ~ taken_for (summary_entry (fst e') (snd e')) k) ->
      sget meta k = Some (noted (snd e))).
Proof.
  intros (EL & HP & HE) H K. unfold novonix_metadata in H. destruct (novonix_find_header lines) as [h'|] eqn:F; [|discriminate H]. cbn [bind] in H. injection H as <- <-.
  set (M := pre ++ unix "[Summary]" :: map entry_line entries ++ [unix "[End Summary]"]).
  assert (EM : lines = M ++ rest) by (rewrite EL; unfold M; rewrite <- app_assoc; cbn [app]; rewrite <- app_assoc; reflexivity).
  assert (NM : forall l, In l M -> novonix_header l = false).
  { intros l I. unfold M in I. apply in_app_iff in I as [I | [<- | I]]; [exact (proj1 (HP l I)) | reflexivity |].
    apply in_app_iff in I as [I | [<- | []]]; [|reflexivity]. apply in_map_iff in I as (e & <- & I). rewrite Forall_forall in HE. destruct (HE e I) as (_ & _ & _ & _ & C & _).
    unfold novonix_header. rewrite marks_unix by (reflexivity || discriminate). exact C. }
  apply (Proofs_Biologic.search_found novonix_header 500 lines eq_refl) in F as [(H1 & (l & L1 & L2) & _) _].
  assert (LM : (length M <= h' - 1)%nat).
  { destruct (le_lt_dec (length M) (h' - 1)) as [X|X]; [exact X|]. rewrite EM, nth_error_app1 in L1 by exact X. apply nth_error_In in L1. rewrite (NM l L1) in L2. discriminate L2. }
  rewrite EM, firstn_app, firstn_all2 by lia. set (tail := firstn (h' - length M) rest). 
  set (m0 := map (fun kp : string * string => (fst kp, @None string)) novonix_fields).
  assert (X : novonix_scan (false, false) m0 (M ++ tail) = novonix_scan (true, false) m0 (map entry_line entries)).
  { destruct (scan_app (false, false) m0 M tail) as (f1 & -> & ->). unfold M. destruct (flags_before pre HP) as [B1 B2].
    destruct (scan_app (false, false) m0 pre (unix "[Summary]" :: map entry_line entries ++ [unix "[End Summary]"])) as (f2 & -> & ->). rewrite fold_left_app, B1, B2.
    cbn [fold_left novonix_scan]. change (novonix_flags (false, false) (unix "[Summary]")) with (true, false). cbn [fst snd negb andb].
    change (summary_line m0 (unix "[Summary]")) with m0. destruct (entries_scan entries HE) as [E1 _].
    destruct (scan_app (true, false) m0 (map entry_line entries) [unix "[End Summary]"]) as (f3 & -> & ->). rewrite fold_left_app, E1. cbn [fold_left novonix_scan].
    change (novonix_flags (true, false) (unix "[End Summary]")) with (true, true). cbn [fst snd negb andb]. apply flags_after. }
  match goal with |- context [novonix_scan (false, false) ?m (M ++ tail)] => change m with m0 end.
  rewrite X. destruct (entries_scan entries HE) as [_ E2]. destruct (E2 m0 k) as [G1 G2]. split; [|exact G2].
  intro N. rewrite (G1 N). unfold m0. clear -K. cbn in K. repeat (destruct K as [<-|K]; [reflexivity|]). destruct K.
Qed.
