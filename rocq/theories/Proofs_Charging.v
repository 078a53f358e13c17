(** Multistep charging currents and velocity profiles. *)
From Verif Require Import Py Num Model_Interp Model_Waveform Spec_Waveform.
From Coq Require Import Lqa.

(** ** Windows *)
Lemma heaviside_neg x : x < 0 -> heaviside x = 0.
Proof. intros H. unfold heaviside. apply Qlt_bool_iff in H. rewrite H. reflexivity. Qed.
Lemma heaviside_zero x : x == 0 -> heaviside x = 1 # 2.
Proof.
  intros H. unfold heaviside. assert (E : Qlt_bool x 0 = false) by (apply Qlt_bool_false; lra). rewrite E. apply Qeq_bool_iff in H. rewrite H. reflexivity.
Qed.
Lemma heaviside_pos x : 0 < x -> heaviside x = 1.
Proof.
  intros H. unfold heaviside. assert (E : Qlt_bool x 0 = false) by (apply Qlt_bool_false; lra). rewrite E.
  destruct (Qeq_bool x 0) eqn:Z; [apply Qeq_bool_iff in Z; lra | reflexivity].
Qed.
Lemma windows_cons a b mesh c rates soc :
  windows (c :: rates) (a :: b :: mesh) soc = let! w := windows rates (b :: mesh) soc in Ok (c * heaviside (soc - a) * heaviside (b - soc) + w).
Proof. reflexivity. Qed.
Lemma windows_nil a b mesh soc : windows [] (a :: b :: mesh) soc = Err IndexError.
Proof. reflexivity. Qed.
Lemma windows_below : forall mesh rates soc w a, increasing mesh -> hd_error mesh = Some a -> soc < a -> windows rates mesh soc = Ok w -> w == 0.
Proof.
  induction mesh as [|a [|b mesh] IH]; intros rates soc w a' I H L W; try discriminate; [cbn in W; injection W as <-; reflexivity|].
  injection H as <-. destruct rates as [|c rates]; [discriminate|]. rewrite windows_cons in W. destruct (windows rates (b :: mesh) soc) as [w'|] eqn:E; [|discriminate]. cbn [bind] in W. injection W as <-.
  destruct I as (AB & I). rewrite (IH rates soc w' b I eq_refl) by (try lra; exact E). rewrite (heaviside_neg (soc - a)) by lra. ring.
Qed.
Lemma windows_above : forall mesh rates soc w, increasing mesh -> (2 <= length mesh)%nat -> last mesh 0 < soc -> windows rates mesh soc = Ok w -> w == 0.
Proof.
  induction mesh as [|a [|b mesh] IH]; intros rates soc w I N L W; cbn [length] in N; try lia.
  destruct rates as [|c rates]; [discriminate|]. rewrite windows_cons in W. destruct (windows rates (b :: mesh) soc) as [w'|] eqn:E; [|discriminate]. cbn [bind] in W. injection W as <-. destruct I as (AB & I).
  assert (B : b < soc).
  { clear - I L. change (last (a :: b :: mesh) 0) with (last (b :: mesh) 0) in L. revert b I L. induction mesh as [|c mesh IHm]; intros b I L; [exact L|].
    destruct I as (BC & I). change (last (b :: c :: mesh) 0) with (last (c :: mesh) 0) in L. specialize (IHm c I L). lra. }
  rewrite (heaviside_neg (b - soc)) by lra. destruct mesh as [|d mesh].
  - cbn in E. injection E as <-. ring.
  - rewrite (IH rates soc w' I) by (try exact E; try exact L; cbn [length]; lia). ring.
Qed.
Lemma windows_inside : forall mesh rates soc w i a b c, increasing mesh -> window mesh i a b -> nth_error rates i = Some c -> a < soc < b -> windows rates mesh soc = Ok w -> w == c.
Proof.
  induction mesh as [|m [|n mesh] IH]; intros rates soc w i a b c I (A & B) R S W.
  - destruct i; discriminate.
  - destruct i as [|[|i]]; discriminate.
  - destruct rates as [|c0 rates]; [discriminate|]. rewrite windows_cons in W. destruct (windows rates (n :: mesh) soc) as [w'|] eqn:E; [|discriminate]. cbn [bind] in W. injection W as <-.
    destruct I as (MN & I). destruct i as [|i]; cbn [nth_error] in *.
    + injection A as <-. injection B as <-. injection R as <-. rewrite (windows_below (n :: mesh) rates soc w' n I eq_refl) by (try lra; exact E).
      rewrite !heaviside_pos by lra. ring.
    + rewrite (IH rates soc w' i a b c I (conj A B) R S E). assert (NA : n <= a).
      { clear - I A. revert i A. revert n I. induction mesh as [|p mesh IHm]; intros n I i A; destruct i as [|i]; cbn [nth_error] in A; try (injection A as <-; lra); [destruct i; discriminate|].
        destruct I as (NP & I). specialize (IHm p I i A). lra. }
      rewrite (heaviside_neg (n - soc)) by lra. ring.
Qed.
Lemma windows_boundary : forall mesh rates soc w i a b d c c', increasing mesh -> window mesh i a b -> window mesh (S i) b d -> nth_error rates i = Some c -> nth_error rates (S i) = Some c' ->
  soc == b -> windows rates mesh soc = Ok w -> w == (c + c') / 2.
Proof.
  induction mesh as [|m [|n mesh] IH]; intros rates soc w i a b d c c' I (A & B) (B2 & D) R R' S W.
  - destruct i; discriminate.
  - destruct i as [|[|i]]; discriminate.
  - destruct rates as [|c0 rates]; [discriminate|]. rewrite windows_cons in W. destruct (windows rates (n :: mesh) soc) as [w'|] eqn:E; [|discriminate]. cbn [bind] in W. injection W as <-.
    destruct I as (MN & I). destruct i as [|i]; cbn [nth_error] in A, B, B2, D, R, R'.
    + injection A as <-. injection B as <-. injection R as <-. destruct mesh as [|p mesh]; [discriminate|]. destruct rates as [|c1 rates]; [discriminate|]. injection R' as <-.
      rewrite windows_cons in E. destruct (windows rates (p :: mesh) soc) as [w2|] eqn:E2; [|discriminate]. cbn [bind] in E. injection E as <-. destruct I as (NP & I).
      rewrite (windows_below (p :: mesh) rates soc w2 p I eq_refl) by (try lra; exact E2). rewrite (heaviside_pos (soc - m)), (heaviside_zero (n - soc)), (heaviside_zero (soc - n)), (heaviside_pos (p - soc)) by lra. field.
    + rewrite (IH rates soc w' i a b d c c' I (conj A B) (conj B2 D) R R' S E). assert (NA : n <= a /\ a < b).
      { clear - I A B. revert i A B. revert n I. induction mesh as [|p mesh IHm]; intros n I i A B; destruct i as [|i]; cbn [nth_error] in A, B; try discriminate.
        - injection A as <-. injection B as <-. destruct I. lra.
        - destruct I as (NP & I). destruct (IHm p I i A B). lra. }
      rewrite (heaviside_neg (n - soc)) by lra. ring.
Qed.
Lemma windows_first mesh rates soc w a b c : increasing mesh -> window mesh 0 a b -> nth_error rates 0 = Some c -> soc == a -> windows rates mesh soc = Ok w -> w == c / 2.
Proof.
  destruct mesh as [|m [|n mesh]]; intros I (A & B) R S W; try discriminate. injection A as <-. injection B as <-. destruct rates as [|c0 rates]; [discriminate|]. injection R as <-.
  rewrite windows_cons in W. destruct (windows rates (n :: mesh) soc) as [w'|] eqn:E; [|discriminate]. cbn [bind] in W. injection W as <-. destruct I as (MN & I).
  rewrite (windows_below (n :: mesh) rates soc w' n I eq_refl) by (try lra; exact E). rewrite (heaviside_zero (soc - m)), (heaviside_pos (n - soc)) by lra. field.
Qed.
Lemma heaviside_01 x : 0 <= heaviside x <= 1.
Proof. unfold heaviside. destruct (Qlt_bool x 0); [|destruct (Qeq_bool x 0)]; split; discriminate. Qed.
Lemma last_above m n mesh : increasing (m :: n :: mesh) -> n <= last (m :: n :: mesh) 0.
Proof.
  revert m n. induction mesh as [|p mesh IH]; intros m n (MN & I); [cbn; lra|]. change (last (m :: n :: p :: mesh) 0) with (last (n :: p :: mesh) 0). specialize (IH n p I). destruct I. lra.
Qed.
Lemma windows_bound M : 0 <= M -> forall mesh rates soc w a, increasing mesh -> (2 <= length mesh)%nat -> hd_error mesh = Some a -> Forall (fun c => 0 <= c <= M) rates -> windows rates mesh soc = Ok w ->
  0 <= w <= M * (heaviside (soc - a) * heaviside (last mesh 0 - soc)).
Proof.
  intros M0. induction mesh as [|m [|n mesh] IH]; intros rates soc w a I L H F W; cbn [length] in L; try lia. injection H as <-.
  destruct rates as [|c rates]; [discriminate|]. rewrite windows_cons in W. destruct (windows rates (n :: mesh) soc) as [w'|] eqn:E; [|discriminate]. cbn [bind] in W. injection W as <-.
  pose proof (Forall_inv F) as (C0 & CM). apply Forall_inv_tail in F. pose proof (last_above m n mesh I) as LA. destruct I as (MN & I).
  destruct mesh as [|p mesh].
  - cbn in E. injection E as <-. cbn [last]. pose proof (heaviside_01 (soc - m)) as (H1 & H2). pose proof (heaviside_01 (n - soc)) as (H3 & H4).
    assert (K : 0 <= heaviside (soc - m) * heaviside (n - soc)) by (apply Qmult_le_0_compat; assumption).
    assert (X : c * heaviside (soc - m) * heaviside (n - soc) + 0 == c * (heaviside (soc - m) * heaviside (n - soc))) by ring. rewrite X. split.
    + apply Qmult_le_0_compat; assumption.
    + apply Qmult_le_compat_r; assumption.
  - change (last (m :: n :: p :: mesh) 0) with (last (n :: p :: mesh) 0) in *.
    destruct (IH rates soc w' n I ltac:(cbn [length]; lia) eq_refl F E) as (W0 & WM). set (z := last (n :: p :: mesh) 0) in *.
    assert (NZ : n < z) by (unfold z; pose proof (last_above n p mesh I); destruct I; lra).
    destruct (Q_dec soc n) as [[SN|SN]|SN].
    + (* below n *) rewrite (heaviside_neg (soc - n)) in WM by lra. rewrite (heaviside_pos (n - soc)), (heaviside_pos (z - soc)) by lra.
      pose proof (heaviside_01 (soc - m)) as (H1 & H2). assert (w' == 0) by lra.
      assert (0 <= c * heaviside (soc - m)) by (apply Qmult_le_0_compat; assumption). assert (c * heaviside (soc - m) <= M * heaviside (soc - m)) by (apply Qmult_le_compat_r; assumption). lra.
    + rewrite (heaviside_neg (n - soc)) by lra. rewrite (heaviside_pos (soc - n)) in WM by lra. rewrite (heaviside_pos (soc - m)) by lra. lra.
    + rewrite (heaviside_zero (n - soc)) by lra. rewrite (heaviside_zero (soc - n)), (heaviside_pos (z - soc)) in WM by lra. rewrite (heaviside_pos (soc - m)), (heaviside_pos (z - soc)) by lra. lra.
Qed.
Lemma multistep_bound M final soc_f rates mesh soc c : increasing mesh -> (2 <= length mesh)%nat -> 0 <= final <= M -> Forall (fun c => 0 <= c <= M) rates ->
  multistep_at final soc_f rates mesh soc = Ok c -> 0 <= c <= M.
Proof.
  intros I L (F0 & FM) F. unfold multistep_at. destruct (windows rates mesh soc) as [w|] eqn:W; [|discriminate]. cbn [bind]. intros [= <-].
  destruct mesh as [|m mesh]; [cbn in L; lia|]. destruct (windows_bound M ltac:(lra) _ _ _ _ m I L eq_refl F W) as (W0 & WM). set (z := last (m :: mesh) 0) in *.
  pose proof (heaviside_01 (soc - m)) as (H1 & H2). pose proof (heaviside_01 (soc_f - soc)) as (H3 & H4).
  assert (K : 0 <= final * heaviside (soc_f - soc) <= M).
  { split; [apply Qmult_le_0_compat; assumption|]. assert (final * heaviside (soc_f - soc) <= final * 1) by (rewrite !(Qmult_comm final); apply Qmult_le_compat_r; assumption). lra. }
  assert (K2 : 0 <= M * heaviside (soc - m) <= M).
  { split; [apply Qmult_le_0_compat; lra|]. assert (M * heaviside (soc - m) <= M * 1) by (rewrite !(Qmult_comm M); apply Qmult_le_compat_r; lra). lra. }
  destruct (Q_dec soc z) as [[S|S]|S].
  - rewrite (heaviside_neg (soc - z)) by lra. rewrite (heaviside_pos (z - soc)) in WM by lra. lra.
  - rewrite (heaviside_pos (soc - z)) by lra. rewrite (heaviside_neg (z - soc)) in WM by lra. lra.
  - rewrite (heaviside_zero (soc - z)) by lra. rewrite (heaviside_zero (z - soc)) in WM by lra. lra.
Qed.
(** the rate after the last window matters at the end only *)
Lemma windows_prefix : forall mesh rates rates' soc, firstn (length mesh - 1) rates = firstn (length mesh - 1) rates' -> windows rates mesh soc = windows rates' mesh soc.
Proof.
  induction mesh as [|a [|b mesh] IH]; intros rates rates' soc H; [reflexivity | reflexivity|]. cbn [length Nat.sub] in H.
  destruct rates as [|c rates], rates' as [|c' rates']; cbn [firstn] in H; try discriminate; [reflexivity|]. injection H as -> H. rewrite !windows_cons,  (IH rates rates' soc); [reflexivity|].
  cbn [length Nat.sub]. rewrite Nat.sub_0_r. exact H.
Qed.
Lemma final_unused final final' soc_f rates rates' mesh soc : firstn (length mesh - 1) rates = firstn (length mesh - 1) rates' -> soc < last mesh 0 ->
  forall c, multistep_at final soc_f rates mesh soc = Ok c -> exists c', multistep_at final' soc_f rates' mesh soc = Ok c' /\ c == c'.
Proof.
  intros H S c. unfold multistep_at. rewrite (windows_prefix mesh rates rates' soc H). destruct (windows rates' mesh soc) as [w|]; [|discriminate]. cbn [bind]. intros [= <-].
  eexists. split; [reflexivity|]. rewrite (heaviside_neg (soc - last mesh 0)) by lra. ring.
Qed.

(** ** Time *)
Definition even (h : Q) (l : list Q) : Prop := forall k x y, nth_error l k = Some x -> nth_error l (S k) = Some y -> y - x == h.
Lemma even_tl h x l : even h (x :: l) -> even h l.
Proof. intros E k a b A B. exact (E (S k) a b A B). Qed.
Lemma unit_inner_even h l : even h l -> (2 <= length l)%nat -> Forall (fun g => g == h) (unit_inner l) /\ length (unit_inner l) = (length l - 1)%nat.
Proof.
  induction l as [|a [|b [|c l]] IH]; intros E L; cbn [length] in L; try lia.
  - cbn. split; [|reflexivity]. constructor; [exact (E 0%nat a b eq_refl eq_refl) | constructor].
  - destruct (IH (even_tl _ _ _ E) ltac:(cbn [length]; lia)) as (F & N).
    change (unit_inner (a :: b :: c :: l)) with ((c - a) / 2 :: unit_inner (b :: c :: l)). split.
    + constructor; [|exact F]. pose proof (E 0%nat a b eq_refl eq_refl) as E1. pose proof (E 1%nat b c eq_refl eq_refl) as E2. assert (X : c - a == 2 * h) by lra. rewrite X. field.
    + cbn [length] in *. rewrite N. lia.
Qed.
Lemma unit_gradient_even h l : even h l -> (2 <= length l)%nat -> Forall (fun g => g == h) (unit_gradient l) /\ length (unit_gradient l) = length l.
Proof.
  intros E L. destruct (unit_inner_even h l E L) as (F & N). destruct l as [|a [|b l]]; cbn [length] in L; try lia. cbn [unit_gradient]. split.
  - constructor; [exact (E 0%nat a b eq_refl eq_refl) | exact F].
  - cbn [length] in *. rewrite N. lia.
Qed.
Lemma linspace_even a b n : (2 <= n)%nat -> even ((b - a) / inject_Z (Z.of_nat (n - 1))) (linspace a b n) /\ length (linspace a b n) = n.
Proof.
  intros N. destruct n as [|[|m]]; try lia. cbn [linspace]. split; [|rewrite map_length, seq_length; reflexivity].
  intros k x y X Y. replace (S (S m) - 1)%nat with (S m) by lia. rewrite nth_error_map in X, Y.
  destruct (nth_error (seq 0 (S (S m))) k) as [i|] eqn:Ei; [|discriminate]. destruct (nth_error (seq 0 (S (S m))) (S k)) as [j|] eqn:Ej; [|discriminate].
  assert (SQ : forall q z, nth_error (seq 0 (S (S m))) q = Some z -> z = q).
  { intros q z H. assert (q < S (S m))%nat by (rewrite <- (seq_length (S (S m)) 0); apply nth_error_Some; congruence). pose proof (@seq_nth (S (S m)) 0%nat q 0%nat H0) as T.
    apply nth_error_nth with (d := 0%nat) in H. rewrite <- H. exact T. }
  apply SQ in Ei, Ej. subst. cbn [option_map] in X, Y. injection X as <-. injection Y as <-. set (h := (b - a) / _). change (Z.pos (Pos.of_succ_nat k)) with (Z.of_nat (S k)). rewrite Nat2Z.inj_succ. unfold Z.succ. rewrite inject_Z_plus. change (inject_Z 1) with 1. ring.
Qed.
Lemma running_nth l : forall t k x y z, nth_error (running t l) k = Some x -> nth_error (running t l) (S k) = Some y -> nth_error l (S k) = Some z -> y == x + z.
Proof.
  induction l as [|a l IH]; intros t k x y z X Y Z; [destruct k; discriminate|]. cbn [running] in *. destruct k as [|k]; cbn [nth_error] in *.
  - injection X as <-. destruct l as [|b l]; [discriminate|]. cbn in Y, Z. injection Y as <-. injection Z as <-. reflexivity.
  - eapply IH; eauto.
Qed.
Lemma time_matches a b n currents k t t' c s s' : (2 <= n)%nat -> let socs := linspace a b n in let times := get_time_vector_from_c_vs_soc socs currents in
  nth_error times k = Some t -> nth_error times (S k) = Some t' -> nth_error currents (S k) = Some c -> ~ c == 0 -> nth_error socs k = Some s -> nth_error socs (S k) = Some s' ->
  (t' - t) / 3600 * c == s' - s.
Proof.
  intros N socs times T T' C NZ S S'. destruct (linspace_even a b n N) as (E & L). fold socs in E, L. set (h := (b - a) / inject_Z (Z.of_nat (n - 1))) in *.
  destruct (unit_gradient_even h socs E ltac:(lia)) as (F & LG). unfold times, get_time_vector_from_c_vs_soc in T, T'. rewrite nth_error_map in T, T'.
  set (l := map (fun '(c, g) => 1 / c * g) (combine currents (unit_gradient socs))) in *.
  destruct (nth_error (running 0 l) k) as [x|] eqn:X; [|discriminate]. destruct (nth_error (running 0 l) (Datatypes.S k)) as [y|] eqn:Y; [|discriminate]. injection T as <-. injection T' as <-.
  assert (G : exists g, nth_error (unit_gradient socs) (Datatypes.S k) = Some g /\ g == h).
  { destruct (nth_error (unit_gradient socs) (Datatypes.S k)) as [g|] eqn:G; [exists g; split; [reflexivity|]; rewrite Forall_forall in F; apply F; eapply nth_error_In; exact G|].
    apply nth_error_None in G. assert (Datatypes.S k < length socs)%nat by (apply nth_error_Some; congruence). lia. }
  destruct G as (g & G & GH). assert (Z : nth_error l (Datatypes.S k) = Some (1 / c * g)).
  { unfold l. rewrite nth_error_map. assert (CB : forall (A B : Type) (p : list A) (q : list B) i u v, nth_error p i = Some u -> nth_error q i = Some v -> nth_error (combine p q) i = Some (u, v)).
    { intros A B. induction p as [|p0 p IH]; intros [|q0 q] [|i] u v P Q; try discriminate; cbn in *; [congruence | apply IH; assumption]. }
    rewrite (CB _ _ _ _ _ _ _ C G). reflexivity. }
  rewrite (running_nth _ _ _ _ _ _ X Y Z), GH. rewrite (E _ _ _ S S'). field. exact NZ.
Qed.

(** ** Velocity *)
Lemma central_ext a a' b b' c c' : same_row a a' -> same_row b b' -> same_row c c' -> central a b c == central a' b' c'.
Proof. intros (A1 & A2) (B1 & B2) (C1 & C2). unfold central. rewrite A1, A2, B1, B2, C1, C2. reflexivity. Qed.
Lemma slope_ext a a' b b' : same_row a a' -> same_row b b' -> slope a b == slope a' b'.
Proof. intros (A1 & A2) (B1 & B2). unfold slope. rewrite A1, A2, B1, B2. reflexivity. Qed.
Lemma inner_ext l l' : Forall2 same_row l l' -> Forall2 Qeq (inner_gradient l) (inner_gradient l').
Proof.
  induction 1 as [|a a' l l' A F IH]; [constructor|]. destruct F as [|b b' l l' B F]; [constructor|]. destruct F as [|c c' l l' C F].
  - cbn. constructor; [apply slope_ext; assumption | constructor].
  - change (inner_gradient (a :: b :: c :: l)) with (central a b c :: inner_gradient (b :: c :: l)). change (inner_gradient (a' :: b' :: c' :: l')) with (central a' b' c' :: inner_gradient (b' :: c' :: l')).
    constructor; [apply central_ext; assumption | exact IH].
Qed.
Lemma power_ext g g' v v' : g == g' -> v == v' -> power_at g v == power_at g' v'.
Proof. intros G V. unfold power_at. rewrite G, V. reflexivity. Qed.
Lemma table_ext l l' g g' : Forall2 same_row l l' -> Forall2 Qeq g g' ->
  Forall2 same_row (map (fun '((t, v), g) => (t, power_at g v)) (combine l g)) (map (fun '((t, v), g) => (t, power_at g v)) (combine l' g')).
Proof.
  intros F. revert g g'. induction F as [|[t v] [t' v'] l l' (A1 & A2) F IH]; intros g g' G; [constructor|]. destruct G as [|x x' g g' X G]; [constructor|]. cbn [combine map]. constructor; [|apply IH; exact G].
  split; [exact A1 | apply power_ext; [exact X | exact A2]].
Qed.
Lemma convert_ext s s' l l' p : Forall2 (fun a b => fst a == fst b /\ snd a * s == snd b * s') l l' ->
  (let! g := gradient (map (fun tv => (fst tv, snd tv * s)) l) in Ok (map (fun '((t, v), g) => (t, power_at g v)) (combine (map (fun tv => (fst tv, snd tv * s)) l) g))) = Ok p ->
  exists p', (let! g := gradient (map (fun tv => (fst tv, snd tv * s')) l') in Ok (map (fun '((t, v), g) => (t, power_at g v)) (combine (map (fun tv => (fst tv, snd tv * s')) l') g))) = Ok p' /\ Forall2 same_row p p'.
Proof.
  intros F. assert (M : Forall2 same_row (map (fun tv => (fst tv, snd tv * s)) l) (map (fun tv => (fst tv, snd tv * s')) l')) by (induction F as [|x y l l' H F IH]; cbn [map]; constructor; [exact H | exact IH]).
  revert M. generalize (map (fun tv => (fst tv, snd tv * s)) l) (map (fun tv => (fst tv, snd tv * s')) l'). clear. intros l l' M H.
  destruct M as [|a a' l l' A M]; [discriminate|]. destruct M as [|b b' l l' B M]; [discriminate|]. cbn [gradient bind] in H |- *. match type of H with Ok ?x = _ => assert (E : p = x) by congruence; rewrite E; clear E H end. eexists. split; [reflexivity|].
  apply table_ext; [constructor; [exact A | constructor; [exact B | exact M]]|]. constructor; [apply slope_ext; assumption|]. apply inner_ext. constructor; [exact A | constructor; [exact B | exact M]].
Qed.
(** constant acceleration *)
Definition linear (a b : Q) (l : list (Q * Q)) : Prop := Forall (fun tv => snd tv == a * fst tv + b) l.
Lemma inner_linear a b l : forward l -> linear a b l -> Forall (fun g => g == a) (inner_gradient l) /\ ((2 <= length l)%nat -> length (inner_gradient l) = (length l - 1)%nat).
Proof.
  induction l as [|x [|y [|z l]] IH]; intros W L.
  - split; [constructor | cbn; lia].
  - split; [constructor | cbn; lia].
  - cbn. split; [|reflexivity]. constructor; [|constructor]. destruct W as (W & _). pose proof (Forall_inv L) as LX. pose proof (Forall_inv (Forall_inv_tail L)) as LY.
    unfold slope. cbn beta in LX, LY. rewrite LX, LY. field. lra.
  - change (inner_gradient (x :: y :: z :: l)) with (central x y z :: inner_gradient (y :: z :: l)).
    destruct W as (W1 & W). destruct (IH W (Forall_inv_tail L)) as (F & N). destruct W as (W2 & _). split.
    + constructor; [|exact F]. pose proof (Forall_inv L) as LX. pose proof (Forall_inv (Forall_inv_tail L)) as LY. pose proof (Forall_inv (Forall_inv_tail (Forall_inv_tail L))) as LZ.
      unfold central. cbn beta in LX, LY, LZ. rewrite LX, LY, LZ. field. split; lra.
    + intros _. cbn [length] in *. rewrite N by lia. lia.
Qed.
Lemma power_force a v : power_at a v == - force a v * v.
Proof. unfold power_at, force. ring. Qed.
