(** Lemmas for C135, C136. *)
From Verif Require Import Py Num Model_Text Model_Interp Model_Waveform Model_RapidCharge Spec_Waveform Spec_RapidCharge Proofs_Interp Proofs_Waveform Proofs_Charging.
From Verif Require Props_Waveform Proofs_Text.
From Coq Require Import Lqa.

Lemma clip_between lo hi x : lo <= hi -> between lo hi (clip lo hi x).
Proof.
  intros H. unfold clip, between. destruct (Qlt_bool x lo) eqn:A; [apply Qlt_bool_iff in A | apply Qlt_bool_false in A];
    match goal with |- context [Qlt_bool hi ?y] => destruct (Qlt_bool hi y) eqn:B; [apply Qlt_bool_iff in B | apply Qlt_bool_false in B] end; lra.
Qed.
Lemma clipped_between lo hi start rates : lo <= hi -> Forall (between lo hi) (clipped hi lo start rates).
Proof. intros H. unfold clipped. apply Forall_forall. intros x I. apply in_map_iff in I as (y & <- & _). apply clip_between. exact H. Qed.
Lemma clipped_length hi lo start rates : length (clipped hi lo start rates) = S (S (length rates)).
Proof. unfold clipped. rewrite map_length. cbn [length]. rewrite app_length. cbn [length]. lia. Qed.
Lemma middles_length mesh : length (middles mesh) = length mesh.
Proof. induction mesh as [|a [|b r] IH]; [reflexivity | reflexivity|]. change (middles (a :: b :: r)) with ((a + b) / 2 :: middles (b :: r)). cbn [length]. rewrite IH. reflexivity. Qed.
Lemma nodes_length a b mesh : length (nodes a b mesh) = S (S (length mesh)).
Proof. unfold nodes. cbn [length]. rewrite app_length, middles_length. cbn [length]. lia. Qed.
Lemma increasing_cons a b r : increasing (a :: b :: r) <-> a < b /\ increasing (b :: r).
Proof. reflexivity. Qed.
(** the middles go up, start after the first point and end at the last *)
Lemma middles_inc z b : forall a c r, increasing (a :: c :: r) -> last (a :: c :: r) 0 < b -> z <= a -> increasing (z :: middles (a :: c :: r) ++ [b]) .
Proof.
  intros a c r. revert z a c. induction r as [|d r IH]; intros z a c I L Z.
  - cbn in *. destruct I as (I & _). assert (H : a < (a + c) / 2 < c) by (split; [apply Qlt_shift_div_l; lra | apply Qlt_shift_div_r; lra]). repeat split; lra.
  - apply increasing_cons in I as (I1 & I2). assert (H : a < (a + c) / 2 < c) by (split; [apply Qlt_shift_div_l; lra | apply Qlt_shift_div_r; lra]).
    change (middles (a :: c :: d :: r)) with ((a + c) / 2 :: middles (c :: d :: r)). cbn [app]. apply increasing_cons. split; [lra|]. apply IH; [exact I2 | exact L | lra].
Qed.
Lemma nodes_inc mesh a b : spans mesh a b -> increasing (nodes a b mesh) /\ hd 0 (nodes a b mesh) = a /\ last (nodes a b mesh) 0 = b * (101 # 100) /\ b < b * (101 # 100) /\ a < b.
Proof.
  intros (I & L & H & T & P). destruct mesh as [|x [|y r]]; cbn [length] in L; try lia. cbn [hd] in H. subst x. assert (B : b < b * (101 # 100)) by lra.
  split; [unfold nodes; apply middles_inc; [exact I | rewrite T; exact B | lra]|]. split; [reflexivity|]. split.
  - unfold nodes. rewrite app_comm_cons. apply last_last.
  - split; [exact B|]. pose proof (last_above a y r I) as LA. rewrite T in LA. apply increasing_cons in I as (I & _). lra.
Qed.
Lemma linspace_within a b n x : a <= b -> (2 <= n)%nat -> In x (linspace a b n) -> a <= x <= b.
Proof.
  intros H N I. apply In_nth_error in I as (i & E). assert (L : (i < n)%nat) by (rewrite <- (linspace_length a b n); apply nth_error_Some; congruence).
  rewrite linspace_nth in E by lia. injection E as <-. set (m := inject_Z (Z.of_nat (n - 1))).
  assert (M : 0 < m) by (unfold m; change 0 with (inject_Z 0); rewrite <- Zlt_Qlt; lia).
  assert (K : 0 <= inject_Z (Z.of_nat i) <= m) by (unfold m; change 0 with (inject_Z 0); rewrite <- !Zle_Qle; lia).
  set (k := inject_Z (Z.of_nat i)) in *. set (h := (b - a) / m). assert (E : h * m == b - a) by (unfold h; field; lra).
  assert (HH : 0 <= h) by (unfold h; apply Qle_shift_div_l; lra). nra.
Qed.

Section Smooth.
  Variable pchip : list Q -> list Q -> Q -> num.
  Variables soc_i soc_f max_rate min_rate : Q.
  Hypothesis SP : shape_preserving pchip.
  Hypothesis LE : min_rate <= max_rate.
  Lemma smooth_within rates mesh cs socs : spans mesh soc_i soc_f -> smooth_currents pchip soc_i soc_f max_rate min_rate rates mesh = Ok (cs, socs) ->
    socs = linspace soc_i soc_f soc_points /\ length cs = length socs /\ Forall (between min_rate max_rate) cs /\ length rates = length mesh.
  Proof.
    intros S. pose proof (nodes_inc _ _ _ S) as (NI & NH & NL & NB & AB). unfold smooth_currents. destruct rates as [|c0 rates]; [discriminate|]. set (R := c0 :: rates).
    rewrite clipped_length, nodes_length. destruct (Nat.eqb_spec (2 + length R) (2 + length mesh)) as [E|E]; [|cbn [plus] in E]; cbn [plus] in *; rewrite ?(proj2 (Nat.eqb_eq _ _) E), ?(proj2 (Nat.eqb_neq _ _) E); cbn [negb]; [|discriminate].
    destruct mesh as [|m0 [|m1 mesh]]; try discriminate. destruct (pchip _ _ m1) as [e|]; [|discriminate]. set (L := linspace soc_i soc_f soc_points).
    intros H. match type of H with Ok (?x, ?y) = _ => assert (X : cs = x) by congruence; assert (Y : socs = y) by congruence end. rewrite X, Y. clear H X Y.
    split; [reflexivity|]. split; [apply map_length|]. split; [|lia]. apply Forall_forall. intros c I. apply in_map_iff in I as (s & <- & I).
    assert (B : soc_i <= s <= soc_f) by (apply (linspace_within _ _ soc_points); [lra | unfold soc_points; lia | exact I]).
    match goal with |- context [clipped max_rate min_rate ?st R] => destruct (SP (nodes soc_i soc_f (m0 :: m1 :: mesh)) (clipped max_rate min_rate st R) min_rate max_rate s NI) as (y & -> & Y) end;
      [rewrite nodes_length; lia | rewrite nodes_length, clipped_length; exact (eq_sym E) | apply clipped_between; exact LE | rewrite NH, NL; lra | exact Y].
  Qed.
  Lemma smooth_defined rates mesh : spans mesh soc_i soc_f -> length rates = length mesh ->
    exists cs, smooth_currents pchip soc_i soc_f max_rate min_rate rates mesh = Ok (cs, linspace soc_i soc_f soc_points).
  Proof.
    intros S E. pose proof (nodes_inc _ _ _ S) as (NI & NH & NL & NB & AB). unfold smooth_currents. destruct S as (I & LM & H & T & P). destruct rates as [|c0 rates]; [cbn [length] in E; lia|]. set (R := c0 :: rates) in *.
    rewrite clipped_length, nodes_length, E, Nat.eqb_refl. cbn [negb].
    destruct mesh as [|m0 [|m1 mesh]]; cbn [length] in LM; try lia.
    pose proof (last_above m0 m1 mesh I) as LA. rewrite T in LA. cbn [hd] in H. apply increasing_cons in I as (I & _). rewrite H in I.
    destruct (SP (nodes soc_i soc_f (m0 :: m1 :: mesh)) (clipped max_rate min_rate c0 R) min_rate max_rate m1 NI) as (y & -> & Y);
      [rewrite nodes_length; lia | rewrite nodes_length, clipped_length, E; reflexivity | apply clipped_between; exact LE | rewrite NH, NL; lra | eexists; reflexivity].
  Qed.
End Smooth.

Lemma smooth_wrong_number pchip a b hi lo rates mesh : rates <> [] -> length rates <> length mesh -> smooth_currents pchip a b hi lo rates mesh = Err ValueError.
Proof.
  intros N E. unfold smooth_currents. destruct rates as [|c0 rates]; [congruence|]. rewrite clipped_length, nodes_length. rewrite (proj2 (Nat.eqb_neq _ _)); [reflexivity|]. lia.
Qed.
Lemma shifted_length rates o : (2 <= length rates)%nat -> length (shifted rates o) = length rates.
Proof.
  intros L. destruct rates as [|c [|d r]]; cbn [length] in L; try lia. unfold shifted. cbn [length]. f_equal. rewrite app_length, map_length. cbn [length].
  assert (H : forall (l : list Q), l <> [] -> (length (removelast l) + 1)%nat = length l).
  { intros l NE. rewrite (app_removelast_last 0 NE) at 2. rewrite app_length. reflexivity. }
  apply (H (d :: r)). discriminate.
Qed.
Lemma shifted_nonempty rates o : rates <> [] -> shifted rates o <> [].
Proof. destruct rates as [|c [|d r]]; cbn [shifted]; congruence. Qed.

(** ** times *)
Lemma running_length l : forall t, length (running t l) = length l.
Proof. induction l as [|x l IH]; intros t; [reflexivity|]. cbn [running length]. rewrite IH. reflexivity. Qed.
Lemma running_bounds u v l : (forall x, In x l -> u <= x <= v) -> forall t, t + inject_Z (Z.of_nat (length l)) * u <= last (running t l) t <= t + inject_Z (Z.of_nat (length l)) * v.
Proof.
  induction l as [|x l IH]; intros B t; [change (inject_Z (Z.of_nat (length (@nil Q)))) with 0; cbn [running last]; lra|]. pose proof (B x (or_introl eq_refl)) as BX.
  assert (E : last (running t (x :: l)) t = last (running (t + x) l) (t + x)).
  { cbn [running]. destruct l as [|y l]; [reflexivity|]. change (last (t + x :: running (t + x) (y :: l)) t) with (last (running (t + x) (y :: l)) t).
    cbn [running]. assert (D : forall q (z u v : Q), last (z :: q) u = last (z :: q) v) by (induction q as [|w q IHq]; intros z u' v'; [reflexivity | exact (IHq w u' v')]). apply D. }
  rewrite E. specialize (IH (fun y I => B y (or_intror I)) (t + x)). cbn [length]. rewrite Nat2Z.inj_succ. unfold Z.succ. rewrite inject_Z_plus. change (inject_Z 1) with 1. nra.
Qed.
Lemma running_inc l : (forall x, In x l -> 0 < x) -> forall t, increasing (t :: running t l).
Proof.
  induction l as [|x l IH]; intros P t; [exact Logic.I|]. cbn [running]. apply increasing_cons. split; [pose proof (P x (or_introl eq_refl)); lra|]. apply IH. intros y I. apply P. right. exact I.
Qed.
Lemma increasing_scale k l : 0 < k -> increasing l -> increasing (map (fun t => t * k) l).
Proof.
  intros K. induction l as [|a [|b l] IH]; intros I; [exact Logic.I | exact Logic.I|]. apply increasing_cons in I as (I & J). cbn [map]. apply increasing_cons. split; [nra | exact (IH J)].
Qed.
Lemma increasing_tl a l : increasing (a :: l) -> increasing l.
Proof. destruct l as [|b l]; [intros; exact Logic.I | intros (_ & H); exact H]. Qed.
Lemma last_map {A B} (f : A -> B) d l : last (map f l) (f d) = f (last l d).
Proof. induction l as [|a [|b l] IH]; [reflexivity | reflexivity | exact IH]. Qed.
Lemma last_default {A} (d d' : A) l : l <> [] -> last l d = last l d'.
Proof. induction l as [|a [|b l] IH]; intros N; [congruence | reflexivity|]. apply IH. discriminate. Qed.
Lemma increasing_last_top a l : increasing (a :: l) -> top (a :: l) = Ok (largest a l) /\ largest a l == last (a :: l) 0.
Proof.
  intros I. split; [reflexivity|]. revert a I. induction l as [|b l IH]; intros a I; [reflexivity|]. apply increasing_cons in I as (I & J). cbn [largest]. rewrite (proj2 (Qlt_bool_iff a b) I). exact (IH b J).
Qed.
(** the increments of the times *)
Lemma increments a b n cs lo hi x : (2 <= n)%nat -> a < b -> 0 < lo -> Forall (between lo hi) cs -> let h := (b - a) / inject_Z (Z.of_nat (n - 1)) in
  In x (map (fun '(c, g) => 1 / c * g) (combine cs (unit_gradient (linspace a b n)))) -> h / hi <= x <= h / lo /\ 0 < x.
Proof.
  intros N AB LO F h I. destruct (linspace_even a b n N) as (E & L). fold h in E. destruct (unit_gradient_even h _ E ltac:(lia)) as (G & _).
  assert (M : 0 < inject_Z (Z.of_nat (n - 1))) by (change 0 with (inject_Z 0); rewrite <- Zlt_Qlt; lia).
  assert (H : 0 < h) by (unfold h; apply Qlt_shift_div_l; lra).
  apply in_map_iff in I as ([c g] & <- & I). rewrite Forall_forall in F, G. pose proof (F c (in_combine_l _ _ _ _ I)) as (C1 & C2). pose proof (G g (in_combine_r _ _ _ _ I)) as GH. cbn beta in GH.
  assert (X : 1 / c * g == h / c) by (rewrite GH; field; lra). rewrite X. split; [split|].
  - apply Qle_shift_div_l; [lra|]. apply Qle_trans with (h / hi * hi); [|assert (E1 : h / hi * hi == h) by (field; lra); rewrite E1; apply Qle_refl]. apply Qmult_le_l; [|exact C2]. apply Qlt_shift_div_l; lra.
  - apply Qle_shift_div_l; [lra|]. assert (E1 : h / c * lo == h * lo / c) by (field; lra). rewrite E1. apply Qle_shift_div_r; [lra|]. nra.
  - apply Qlt_shift_div_l; lra.
Qed.
Lemma times_ok a b n cs lo hi : (2 <= n)%nat -> a < b -> 0 < lo -> Forall (between lo hi) cs -> length cs = n -> let ts := get_time_vector_from_c_vs_soc (linspace a b n) cs in
  let total := 3600 * (b - a) * (inject_Z (Z.of_nat n) / inject_Z (Z.of_nat (n - 1))) in
  increasing ts /\ length ts = n /\ total / hi <= last ts 0 <= total / lo.
Proof.
  intros N AB LO F LC ts total. set (h := (b - a) / inject_Z (Z.of_nat (n - 1))). pose proof (fun x => increments a b n cs lo hi x N AB LO F) as INC. cbv zeta in INC. fold h in INC.
  destruct (linspace_even a b n N) as (E & L). destruct (unit_gradient_even _ _ E ltac:(lia)) as (_ & G).
  unfold ts, get_time_vector_from_c_vs_soc. set (l := map _ (combine _ _)) in *. assert (LL : length l = n) by (unfold l; rewrite map_length, combine_length, G, L, LC; lia).
  split; [apply increasing_scale; [reflexivity|]; apply (increasing_tl 0); apply running_inc; intros x I; apply INC; exact I|].
  split; [rewrite map_length, running_length; exact LL|].
  pose proof (running_bounds (h / hi) (h / lo) l (fun x I => proj1 (INC x I)) 0) as B. rewrite LL in B.
  change (last (map (fun t : Q => t * 3600) (running 0 l)) 0) with (last (map (fun t : Q => t * 3600) (running 0 l)) (0 * 3600)). rewrite (last_map (fun t => t * 3600)).
  assert (M : 0 < inject_Z (Z.of_nat (n - 1))) by (change 0 with (inject_Z 0); rewrite <- Zlt_Qlt; lia).
  assert (HI : 0 < hi). { destruct cs as [|c cs]; [cbn [length] in LC; lia|]. pose proof (Forall_inv F) as (A & B'). lra. }
  assert (T1 : total / hi == inject_Z (Z.of_nat n) * (h / hi) * 3600) by (unfold total, h; field; split; lra).
  assert (T2 : total / lo == inject_Z (Z.of_nat n) * (h / lo) * 3600) by (unfold total, h; field; split; lra).
  rewrite T1, T2. lra.
Qed.

(** ** resampling *)
Lemma segment_between lo hi xs : forall ys x y, increasing xs -> length xs = length ys -> Forall (between lo hi) ys -> hd 0 xs <= x -> segment_at (combine xs ys) x = Some y -> between lo hi y.
Proof.
  induction xs as [|a xs IH]; intros ys x y I L F H S; [discriminate|]. destruct ys as [|u ys]; [discriminate|]. destruct xs as [|b xs]; [discriminate|]. destruct ys as [|v ys]; [discriminate|].
  change (combine (a :: b :: xs) (u :: v :: ys)) with ((a, u) :: (b, v) :: combine xs ys) in S. cbn [segment_at fst snd] in S. apply increasing_cons in I as (I & J). cbn [hd] in H.
  destruct (Qle_bool x b) eqn:B.
  - apply Qle_bool_iff in B. injection S as <-. pose proof (Forall_inv F) as (U1 & U2). pose proof (Forall_inv (Forall_inv_tail F)) as (V1 & V2). set (k := (x - a) / (b - a)).
    assert (K1 : 0 <= k) by (unfold k; apply Qle_shift_div_l; lra). assert (K2 : k <= 1) by (unfold k; apply Qle_shift_div_r; lra).
    assert (E : u + (x - a) * ((v - u) / (b - a)) == u + k * (v - u)) by (unfold k; field; lra). unfold between. rewrite E. split; nra.
  - assert (B' : b < x). { apply Qnot_le_lt. intros Q. apply Qle_bool_iff in Q. congruence. }
    apply (IH (v :: ys) x y J); [cbn [length] in *; lia | exact (Forall_inv_tail F) | cbn [hd]; lra | exact S].
Qed.
Lemma Forall_hd (P : Q -> Prop) l : l <> [] -> Forall P l -> P (hd 0 l).
Proof. destruct l; [congruence|]. intros _ F. exact (Forall_inv F). Qed.
Lemma Forall_last (P : Q -> Prop) l : l <> [] -> Forall P l -> P (last l 0).
Proof. intros N F. rewrite Forall_forall in F. apply F. rewrite (app_removelast_last 0 N) at 2. apply in_or_app. right. left. reflexivity. Qed.
Lemma resample_between lo hi xs ys x : increasing xs -> length xs = length ys -> ys <> [] -> Forall (between lo hi) ys -> between lo hi (resample xs ys x).
Proof.
  intros I L N F. unfold resample. destruct (Qlt_bool x (hd 0 xs)) eqn:A; [apply Forall_hd; assumption|]. destruct (Qlt_bool (last xs 0) x); [apply Forall_last; assumption|].
  apply Qlt_bool_false in A. destruct (segment_at _ x) as [y|] eqn:S; [|apply Forall_last; assumption]. exact (segment_between lo hi xs ys x y I L F A S).
Qed.

(** ** the steps *)
Lemma heaviside_half x : 0 <= x -> 1 # 2 <= heaviside x.
Proof.
  intros H. unfold heaviside. destruct (Qlt_bool x 0) eqn:A; [apply Qlt_bool_iff in A; lra|]. destruct (Qeq_bool x 0); lra.
Qed.
Lemma windows_nonneg : forall mesh rates s w, Forall (fun r => 0 <= r) rates -> windows rates mesh s = Ok w -> 0 <= w.
Proof.
  induction mesh as [|a mesh IH]; intros rates s w F E; [injection E as <-; lra|]. destruct mesh as [|b mesh]; [injection E as <-; lra|]. destruct rates as [|c rates]; [discriminate|].
  rewrite windows_cons in E. destruct (windows rates (b :: mesh) s) as [v|] eqn:V; [|discriminate]. cbn [bind] in E. injection E as <-. specialize (IH rates s v (Forall_inv_tail F) V). pose proof (Forall_inv F) as C. cbn beta in C.
  pose proof (heaviside_01 (s - a)). pose proof (heaviside_01 (b - s)). assert (0 <= c * heaviside (s - a)) by nra. nra.
Qed.
Lemma product_half x y : 0 <= x -> 0 <= y -> 0 < x + y -> 1 # 2 <= heaviside x * heaviside y.
Proof.
  intros X Y P. destruct (Qlt_le_dec 0 x) as [A|A].
  - rewrite (heaviside_pos x A). pose proof (heaviside_half y Y). lra.
  - rewrite (heaviside_pos y) by lra. pose proof (heaviside_half x X). lra.
Qed.
Lemma windows_least u : 0 <= u -> forall mesh rates s w, increasing mesh -> (2 <= length mesh)%nat -> hd 0 mesh <= s <= last mesh 0 -> Forall (fun r => u <= r) rates -> windows rates mesh s = Ok w -> u / 2 <= w.
Proof.
  intros U. induction mesh as [|a mesh IH]; intros rates s w I L H F E; cbn [length] in L; [lia|]. destruct mesh as [|b mesh]; [cbn [length] in L; lia|]. destruct rates as [|c rates]; [discriminate|].
  apply increasing_cons in I as (AB & I).
  rewrite windows_cons in E. destruct (windows rates (b :: mesh) s) as [v|] eqn:V; [|discriminate]. cbn [bind] in E. injection E as <-. cbn [hd] in H. pose proof (Forall_inv F) as C. cbn beta in C.
  assert (NN : Forall (fun r => 0 <= r) rates) by (eapply Forall_impl; [|exact (Forall_inv_tail F)]; intros r R; cbn beta in *; lra). pose proof (windows_nonneg _ _ _ _ NN V) as V0.
  pose proof (heaviside_01 (s - a)) as H1. pose proof (heaviside_01 (b - s)) as H2. assert (P : 0 <= c * heaviside (s - a)) by nra.
  destruct (Qlt_le_dec b s) as [B|B].
  - destruct mesh as [|d mesh]; [cbn [last] in H; lra|]. assert (W : u / 2 <= v) by (apply (IH rates s v); [exact I | cbn [length]; lia | split; [cbn [hd]; lra | exact (proj2 H)] | exact (Forall_inv_tail F) | exact V]). assert (PP : 0 <= c * heaviside (s - a) * heaviside (b - s)) by (apply Qmult_le_0_compat; [exact P | exact (proj1 H2)]). lra.
  - pose proof (product_half (s - a) (b - s) ltac:(lra) ltac:(lra) ltac:(lra)) as A1. assert (Q2 : u * (1 # 2) <= c * (heaviside (s - a) * heaviside (b - s))) by nra.
    rewrite Qmult_assoc in Q2. unfold Qdiv. change (/ 2) with (1 # 2). lra.
Qed.
Lemma mapM_defined {A B} (f : A -> result B) l : (forall x, In x l -> exists y, f x = Ok y) -> exists r, mapM f l = Ok r /\ length r = length l.
Proof.
  induction l as [|x l IH]; intros H; [exists []; split; reflexivity|]. destruct (H x (or_introl eq_refl)) as (y & Y). destruct (IH (fun z I => H z (or_intror I))) as (r & R & L).
  exists (y :: r). split; [cbn [mapM]; rewrite Y; cbn [bind]; rewrite R; reflexivity | cbn [length]; lia].
Qed.
Lemma windows_defined : forall mesh rates s, (length mesh - 1 <= length rates)%nat -> exists w, windows rates mesh s = Ok w.
Proof.
  induction mesh as [|a mesh IH]; intros rates s L; [eexists; reflexivity|]. destruct mesh as [|b mesh]; [eexists; reflexivity|]. destruct rates as [|c rates]; [cbn [length] in L; lia|].
  rewrite windows_cons. destruct (IH rates s ltac:(cbn [length] in *; lia)) as (w & ->). eexists. reflexivity.
Qed.
Lemma steps_defined final a b rates mesh : spans mesh a b -> (length mesh <= length rates)%nat -> exists cs, get_input_current_multistep_soc_as_x final a b rates mesh = Ok (cs, linspace a b soc_points).
Proof.
  intros (_ & L & _) R. destruct (mapM_defined (multistep_at final b rates mesh) (linspace a b soc_points)) as (cs & E & _).
  { intros s _. unfold multistep_at. destruct (windows_defined mesh rates s ltac:(lia)) as (w & ->). eexists. reflexivity. }
  exists cs. unfold get_input_current_multistep_soc_as_x. destruct mesh as [|x [|y mesh]]; cbn [length] in L; try lia. rewrite E. reflexivity.
Qed.
Lemma steps_within u M final a b rates mesh cs socs : spans mesh a b -> 0 <= u -> 0 <= final <= M -> Forall (between u M) rates ->
  get_input_current_multistep_soc_as_x final a b rates mesh = Ok (cs, socs) -> socs = linspace a b soc_points /\ length cs = length socs /\ Forall (between (u / 2) M) cs.
Proof.
  intros S U F R H. destruct (Props_Waveform.multistep_rows _ _ _ _ _ _ _ H) as (_ & E & N & P). split; [exact E|]. split; [exact N|]. pose proof (nodes_inc _ _ _ S) as (_ & _ & _ & _ & AB). destruct S as (I & L & HD & LA & _).
  apply Forall_forall. intros c IN. apply In_nth_error in IN as (k & C). destruct (nth_error socs k) as [s|] eqn:SK; [|apply nth_error_None in SK; assert (k < length cs)%nat by (apply nth_error_Some; congruence); lia].
  specialize (P k s c SK C). assert (B : a <= s <= b) by (apply (linspace_within a b soc_points); [lra | unfold soc_points; lia | rewrite <- E; eapply nth_error_In; exact SK]).
  assert (R0 : Forall (fun c => 0 <= c <= M) rates) by (eapply Forall_impl; [|exact R]; intros r (R1 & R2); split; [apply Qle_trans with u; assumption | exact R2]).
  split; [|exact (proj2 (multistep_bound M final b rates mesh s c I L F R0 P))].
  unfold multistep_at in P. destruct (windows rates mesh s) as [w|] eqn:W; [|discriminate]. cbn [bind] in P. injection P as <-.
  assert (LW : u / 2 <= w) by (apply (windows_least u U mesh rates s w I L); [rewrite HD, LA; exact B | eapply Forall_impl; [|exact R]; intros r (R1 & _); exact R1 | exact W]).
  pose proof (heaviside_01 (s - last mesh 0)) as H1. pose proof (heaviside_01 (b - s)) as H2.
  assert (P1 : 0 <= final * heaviside (s - last mesh 0)) by (apply Qmult_le_0_compat; [exact (proj1 F) | exact (proj1 H1)]).
  assert (P2 : 0 <= final * heaviside (s - last mesh 0) * heaviside (b - s)) by (apply Qmult_le_0_compat; [exact P1 | exact (proj1 H2)]).
  lra.
Qed.
Lemma mesh_fine mesh : increasing mesh -> mesh_accepted mesh = true.
Proof.
  intros I. apply Props_Waveform.C75_windows_not_empty. induction mesh as [|m mesh IH]; intros i x y (X & Y); [destruct i; discriminate|]. destruct i as [|i].
  - destruct mesh as [|n mesh]; [discriminate|]. injection X as <-. injection Y as <-. apply increasing_cons in I as (I & _). lra.
  - exact (IH (increasing_tl _ _ I) i x y (conj X Y)).
Qed.
Lemma last_point a b n : (2 <= n)%nat -> a < b -> In (last (linspace a b n) 0) (linspace a b n) /\ last (linspace a b n) 0 == b /\ linspace a b n <> [].
Proof.
  intros N AB. assert (NE : linspace a b n <> []) by (pose proof (linspace_length a b n); destruct (linspace a b n); [cbn in *; lia | discriminate]).
  split; [rewrite (app_removelast_last 0 NE) at 2; apply in_or_app; right; left; reflexivity|]. split; [|exact NE].
  assert (E : nth_error (linspace a b n) (n - 1) = Some (last (linspace a b n) 0)).
  { rewrite (app_removelast_last 0 NE) at 1. assert (LN : length (removelast (linspace a b n)) = (n - 1)%nat).
    { pose proof (linspace_length a b n) as LL. rewrite (app_removelast_last 0 NE), app_length in LL. cbn [length] in LL. lia. }
    rewrite nth_error_app2 by lia. rewrite LN, Nat.sub_diag. reflexivity. }
  rewrite linspace_nth in E by lia. injection E as <-. field. intros H. assert (0 < inject_Z (Z.of_nat (n - 1))) by (change 0 with (inject_Z 0); rewrite <- Zlt_Qlt; lia). lra.
Qed.
Lemma end_time_defined a b n ts : (2 <= n)%nat -> a < b -> length ts = n -> exists t, end_time b (linspace a b n) ts = Ok t.
Proof.
  intros N AB L. destruct (last_point a b n N AB) as (I & E & NE). unfold end_time. destruct (filter _ _) as [|[s t] r] eqn:F; [|eexists; reflexivity]. exfalso.
  apply In_nth_error in I as (k & K). assert (KL : (k < n)%nat) by (rewrite <- (linspace_length a b n); apply nth_error_Some; congruence).
  destruct (nth_error ts k) as [t|] eqn:T; [|apply nth_error_None in T; lia].
  assert (CB : forall (p q : list Q) i u v, nth_error p i = Some u -> nth_error q i = Some v -> nth_error (combine p q) i = Some (u, v)).
  { induction p as [|x p IH]; intros [|y q] [|i] u v X Y; try discriminate; [cbn in *; congruence | exact (IH q i u v X Y)]. }
  pose proof (CB _ _ _ _ _ K T) as C. apply nth_error_In in C.
  assert (IN : In (last (linspace a b n) 0, t) (filter (fun st => Qle_bool b (fst st)) (combine (linspace a b n) ts))) by (apply filter_In; split; [exact C|]; cbn [fst]; apply Qle_bool_iff; lra).
  rewrite F in IN. exact IN.
Qed.

(** ** both waveforms, second by second *)
Section Uniform.
  Variable pchip : list Q -> list Q -> Q -> num.
  Variable fsolve : (Q -> Q) -> Q.
  Variables final a b hi lo u M : Q.
  Hypothesis SP : shape_preserving pchip.
  Hypothesis LE : 0 < lo <= hi.
  Hypothesis U : 0 < u.
  Hypothesis FM : 0 <= final <= M.
  Variables rates mesh : list Q.
  Hypothesis S : spans mesh a b.
  Hypothesis R : Forall (between u M) rates.
  Definition total : Q := 3600 * (b - a) * (inject_Z (Z.of_nat soc_points) / inject_Z (Z.of_nat (soc_points - 1))).
  Lemma top_last l : increasing l -> l <> [] -> exists t, top l = Ok t /\ t == last l 0.
  Proof. intros I N. destruct l as [|x l]; [congruence|]. destruct (increasing_last_top x l I) as (A & B). eexists. split; [exact A | exact B]. Qed.
  Lemma uniform_cases sm st secs : uniform_currents pchip fsolve final a b hi lo rates mesh = Ok (sm, st, secs) ->
    exists n cs ts ds us, let xs := linspace a b soc_points in let tsm := get_time_vector_from_c_vs_soc xs cs in let tst := get_time_vector_from_c_vs_soc xs ds in
      Forall (between lo hi) cs /\ length cs = soc_points /\ Forall (between (u / 2) M) ds /\ length ds = soc_points /\
      ts == last tsm 0 /\ us == last tst 0 /\ n = round_even ts /\ n = round_even us /\
      secs = clock (Z.to_nat n) /\ sm = map (resample tsm cs) secs /\ st = map (resample tst ds) secs /\
      get_input_current_multistep_soc_as_x final a b rates mesh = Ok (ds, xs).
  Proof.
    pose proof (nodes_inc _ _ _ S) as (_ & _ & _ & _ & AB). unfold uniform_currents. destruct (negb (mesh_accepted mesh)); [discriminate|]. unfold both_currents.
    destruct (get_input_current_multistep_soc_as_x final a b rates mesh) as [[ds xs]|] eqn:MS; [|discriminate]. cbn [bind fst snd].
    destruct (steps_within u M final a b rates mesh ds xs S ltac:(lra) FM R MS) as (-> & LD & FD). rewrite linspace_length in LD.
    destruct (end_time _ _ _) as [t|]; [|discriminate]. cbn [bind]. match goal with |- context [smooth_currents _ _ _ _ _ (shifted rates ?o) mesh] => set (off := o) end.
    destruct (smooth_currents pchip a b hi lo (shifted rates off) mesh) as [[cs xs]|] eqn:SM; [|discriminate]. cbn [bind fst snd].
    destruct (smooth_within pchip a b hi lo SP ltac:(lra) _ _ _ _ S SM) as (-> & LC & FC & _). rewrite linspace_length in LC.
    set (tsm := get_time_vector_from_c_vs_soc (linspace a b soc_points) cs). set (tst := get_time_vector_from_c_vs_soc (linspace a b soc_points) ds).
    destruct (times_ok a b soc_points cs lo hi ltac:(unfold soc_points; lia) AB ltac:(lra) FC LC) as (I1 & L1 & _). fold tsm in I1, L1.
    destruct (times_ok a b soc_points ds (u / 2) M ltac:(unfold soc_points; lia) AB ltac:(unfold Qdiv; change (/ 2) with (1 # 2); lra) FD LD) as (I2 & L2 & _). fold tst in I2, L2.
    destruct (top_last tsm I1) as (ts & -> & TS); [intros X; rewrite X in L1; discriminate|]. destruct (top_last tst I2) as (us & -> & US); [intros X; rewrite X in L2; discriminate|]. cbn [bind].
    destruct (Z.eqb_spec (round_even ts) (round_even us)) as [E|E]; cbn [negb]; [|discriminate]. intros H. injection H as <- <- <-.
    exists (round_even ts), cs, ts, ds, us. cbv zeta. fold tsm tst. repeat split; assumption || reflexivity.
  Qed.
  Lemma bounds_of v w cs : Forall (between v w) cs -> length cs = soc_points -> 0 < v -> let t := get_time_vector_from_c_vs_soc (linspace a b soc_points) cs in
    increasing t /\ length t = soc_points /\ total / w <= last t 0 <= total / v.
  Proof.
    intros F L V. pose proof (nodes_inc _ _ _ S) as (_ & _ & _ & _ & AB). exact (times_ok a b soc_points cs v w ltac:(unfold soc_points; lia) AB V F L).
  Qed.
  Lemma uniform_defined : length rates = length mesh -> exists n ts us, total / hi <= ts <= total / lo /\ total / M <= us <= total / (u / 2) /\ n = round_even ts /\
    (n = round_even us -> exists sm st, uniform_currents pchip fsolve final a b hi lo rates mesh = Ok (sm, st, clock (Z.to_nat n))) /\
    (n <> round_even us -> uniform_currents pchip fsolve final a b hi lo rates mesh = Err assertion).
  Proof.
    intros LR. pose proof (nodes_inc _ _ _ S) as (_ & _ & _ & _ & AB). destruct (steps_defined final a b rates mesh S ltac:(lia)) as (ds & MS).
    destruct (steps_within u M final a b rates mesh ds _ S ltac:(lra) FM R MS) as (_ & LD & FD). rewrite linspace_length in LD.
    set (tst := get_time_vector_from_c_vs_soc (linspace a b soc_points) ds). destruct (bounds_of (u / 2) M ds FD LD ltac:(unfold Qdiv; change (/ 2) with (1 # 2); lra)) as (I2 & L2 & B2). fold tst in I2, L2, B2.
    destruct (end_time_defined a b soc_points tst ltac:(unfold soc_points; lia) AB L2) as (t & ET).
    unfold uniform_currents. rewrite (mesh_fine mesh (proj1 S)). cbn [negb]. unfold both_currents. rewrite MS. cbn [bind fst snd]. fold tst. rewrite ET. cbn [bind].
    match goal with |- context [smooth_currents _ _ _ _ _ (shifted rates ?o) mesh] => set (off := o) end.
    destruct (smooth_defined pchip a b hi lo SP ltac:(lra) (shifted rates off) mesh S) as (cs & SM); [rewrite shifted_length; [exact LR | rewrite LR; exact (proj1 (proj2 S))]|].
    destruct (smooth_within pchip a b hi lo SP ltac:(lra) _ _ _ _ S SM) as (_ & LC & FC & _). rewrite linspace_length in LC.
    set (tsm := get_time_vector_from_c_vs_soc (linspace a b soc_points) cs). destruct (bounds_of lo hi cs FC LC ltac:(lra)) as (I1 & L1 & B1). fold tsm in I1, L1, B1.
    rewrite SM. cbn [bind fst snd]. fold tsm.
    destruct (top_last tsm I1) as (ts & -> & TS); [intros X; rewrite X in L1; discriminate|]. destruct (top_last tst I2) as (us & -> & US); [intros X; rewrite X in L2; discriminate|]. cbn [bind].
    exists (round_even ts), ts, us. split; [rewrite TS; exact B1|]. split; [rewrite US; exact B2|]. split; [reflexivity|]. split; intros E.
    - rewrite (proj2 (Z.eqb_eq _ _) E). eexists _, _. reflexivity.
    - rewrite (proj2 (Z.eqb_neq _ _) E). reflexivity.
  Qed.
  Lemma uniform_within sm st secs : uniform_currents pchip fsolve final a b hi lo rates mesh = Ok (sm, st, secs) ->
    exists n, secs = clock n /\ length sm = n /\ length st = n /\ Forall (between lo hi) sm /\ Forall (between (u / 2) M) st /\
      (n <> 0%nat -> total / hi - (1 # 2) <= inject_Z (Z.of_nat n) <= total / lo + (1 # 2) /\ total / M - (1 # 2) <= inject_Z (Z.of_nat n) <= total / (u / 2) + (1 # 2)).
  Proof.
    intros H. destruct (uniform_cases sm st secs H) as (n & cs & ts & ds & us & FC & LC & FD & LD & TS & US & N1 & N2 & SE & SM & ST & _). cbv zeta in *. exists (Z.to_nat n).
    destruct (bounds_of lo hi cs FC LC ltac:(lra)) as (I1 & L1 & B1). destruct (bounds_of (u / 2) M ds FD LD ltac:(unfold Qdiv; change (/ 2) with (1 # 2); lra)) as (I2 & L2 & B2).
    split; [exact SE|]. assert (LS : length secs = Z.to_nat n) by (rewrite SE; unfold clock; rewrite map_length, seq_length; reflexivity).
    split; [rewrite SM, map_length; exact LS|]. split; [rewrite ST, map_length; exact LS|]. split; [|split].
    - rewrite SM. apply Forall_forall. intros x I. apply in_map_iff in I as (s & <- & _). apply resample_between; [exact I1 | rewrite L1, LC; reflexivity | intros X; rewrite X in LC; discriminate | exact FC].
    - rewrite ST. apply Forall_forall. intros x I. apply in_map_iff in I as (s & <- & _). apply resample_between; [exact I2 | rewrite L2, LD; reflexivity | intros X; rewrite X in LD; discriminate | exact FD].
    - intros NZ. rewrite Z2Nat.id by lia. pose proof (Proofs_Text.round_even_near ts) as R1. pose proof (Proofs_Text.round_even_near us) as R2. rewrite <- N1 in R1. rewrite <- N2 in R2.
      rewrite <- TS in B1. rewrite <- US in B2. apply Qabs_Qle_condition in R1, R2. split; split; lra.
  Qed.
End Uniform.

(** ** the file *)
Lemma top_spec l m : top l = Ok m -> is_largest m l.
Proof.
  destruct l as [|x l]; [discriminate|]. cbn [top]. intros [= <-]. destruct (largest_spec l x) as (A & B & C). split.
  - destruct C as [->|C]; [left; reflexivity | right; exact C].
  - intros y [<-|I]; [exact A | exact (B y I)].
Qed.
Lemma top_defined l : l <> [] -> exists m, top l = Ok m.
Proof. destruct l as [|x l]; [congruence|]. intros _. eexists. reflexivity. Qed.
Lemma proper_spans u m p : proper u m p -> spans (mesh_of p) (start_soc p) (fast_soc_limit p) /\ Forall (between u m) (rates_of p).
Proof.
  intros (A & B & C & D & _ & R1 & R2 & R3 & R4). split; [|repeat constructor; assumption || apply R1 || apply R2 || apply R3 || apply R4].
  unfold spans, mesh_of. cbn. repeat split; try assumption; try lia.
Qed.
Lemma F2_map_impl {A B} (P Q' : A -> B -> Prop) l m : (forall x y, In x l -> In y m -> P x y -> Q' x y) -> Forall2 P l m -> Forall2 Q' l m.
Proof.
  intros H F. induction F as [|x y l m PX F IH]; constructor; [apply H; [left; reflexivity | left; reflexivity | exact PX]|]. apply IH. intros a b I J. apply H; right; assumption.
Qed.
Lemma control_kept cfg times l segs : segments_of cfg false times l = Ok segs -> Forall (fun s => sg_control s = control_mode cfg) segs.
Proof.
  unfold segments_of. destruct (peak_of l) as [p|]; [|discriminate]. cbn [bind]. intros [= <-]. apply Forall_forall. intros s I. apply in_map_iff in I as ([d v] & <- & _). reflexivity.
Qed.
Lemma played p peak l secs segs : 0 < nominal_capacity p -> (forall x, In x l -> 0 < x) -> top l = Ok peak -> length secs = length l ->
  generate_maccor_waveform_file (charge_config p peak) {| wv_time := map Some secs; wv_power := None; wv_current := Some l |} = Ok segs ->
  Forall2 (plays (nominal_capacity p)) l (expand segs) /\
  Forall (fun s => sg_limit_mode s = "V"%string /\ sg_limit_value s = cutoff_voltage p - voltage_offset p /\ sg_end_mode s = "V"%string /\ sg_operation s = ">="%string /\ sg_end_value s = 425 # 100) segs.
Proof.
  intros CAP POS TOP LEN G. cbn [generate_maccor_waveform_file wv_power wv_current wv_time] in G. unfold generate_maccor_waveform_file in G. cbn [wv_power wv_current wv_time] in G.
  destruct (top_spec _ _ TOP) as (IP & LP). pose proof (POS _ IP) as PP.
  destruct (segments_ok _ _ _ _ _ G) as (pk & (( x & IX & EX) & BX) & F & _ & D).
  - rewrite map_length. exact LEN.
  - intros t I. apply in_map_iff in I as (q & <- & _). discriminate.
  - exists peak. split; [exact IP | lra].
  - cbn [charge_config value_scale]. nra.
  - assert (E : pk == peak).
    { apply Qle_antisym.
      - rewrite <- EX. rewrite Qabs_pos by (apply Qlt_le_weak, POS; exact IX). apply LP. exact IX.
      - pose proof (BX peak IP) as B. rewrite Qabs_pos in B by (apply Qlt_le_weak; exact PP). exact B. }
    pose proof (control_kept _ _ _ _ G) as CK. rewrite Forall_forall in CK.
    assert (CH : Forall2 (fun x s => plays (nominal_capacity p) x s) l (expand segs)).
    { eapply F2_map_impl; [|exact F]. intros c s I J (C1 & _ & m & V & B). pose proof (POS c I) as PC. split; [exact (C1 PC)|]. split.
      - unfold expand in J. apply in_flat_map in J as (s' & J & K). apply repeat_spec in K as ->. rewrite (CK s' J). reflexivity.
      - exists m. split; [exact V|]. cbn [charge_config value_scale] in B. rewrite (Qabs_pos c) in B by (apply Qlt_le_weak; exact PC).
        assert (X : c * (nominal_capacity p * peak) / pk == nominal_capacity p * c) by (rewrite E; field; lra). rewrite X in B. exact B. }
    split; [exact CH|]. pose proof (segments_limits _ _ _ _ _ G) as LK. rewrite Forall_forall in *. intros s I. destruct (LK s I) as (LC & _). apply LC.
    assert (J : In s (expand segs)). { unfold expand. apply in_flat_map. exists s. split; [exact I|]. specialize (D s I). cbn beta in D. destruct (sg_duration s); [lia|]. left. reflexivity. }
    clear - CH J. induction CH as [|x y l m P CH IH]; [destruct J|]. destruct J as [<-|J]; [exact (proj1 P) | exact (IH J)].
Qed.
Lemma charge_file pchip fsolve hi lo u m p segs : shape_preserving pchip -> 0 < lo <= hi -> 0 < u -> proper u m p ->
  insert_charging_parametersv1 pchip fsolve hi lo p = Ok segs ->
  exists sm st secs l, uniform_currents pchip fsolve (rate_4 p) (start_soc p) (fast_soc_limit p) hi lo (rates_of p) (mesh_of p) = Ok (sm, st, secs) /\
    (ch_type p = "smooth"%string /\ l = sm \/ ch_type p = "step"%string /\ l = st) /\ Forall2 (plays (nominal_capacity p)) l (expand segs) /\
    Forall (fun c => 0 < c <= hi) l /\ (String.length (wave_name p) < 25)%nat /\
    Forall (fun s => sg_limit_mode s = "V"%string /\ sg_limit_value s = cutoff_voltage p - voltage_offset p /\ sg_end_mode s = "V"%string /\ sg_operation s = ">="%string /\ sg_end_value s = 425 # 100) segs.
Proof.
  intros SP LE U PR. destruct (proper_spans u m p PR) as (S & R). unfold insert_charging_parametersv1. fold (rates_of p) (mesh_of p).
  destruct (uniform_currents pchip fsolve (rate_4 p) (start_soc p) (fast_soc_limit p) hi lo (rates_of p) (mesh_of p)) as [[[sm st] secs]|] eqn:UC; [|discriminate]. cbn [bind].
  destruct PR as (_ & _ & _ & _ & CAP & _ & _ & _ & (R41 & R42)).
  destruct (uniform_within pchip fsolve (rate_4 p) (start_soc p) (fast_soc_limit p) hi lo u m SP LE U ltac:(lra) (rates_of p) (mesh_of p) S R sm st secs UC) as (n & SE & L1 & L2 & F1 & F2 & _).
  destruct (top sm) as [ts|] eqn:T1; [|discriminate]. cbn [bind]. destruct (Qlt_bool hi ts) eqn:H1; [discriminate|]. destruct (top st) as [tm|] eqn:T2; [|discriminate]. cbn [bind]. destruct (Qlt_bool hi tm) eqn:H2; [discriminate|].
  apply Qlt_bool_false in H1, H2. pose proof (top_spec _ _ T1) as (_ & LT1). pose proof (top_spec _ _ T2) as (_ & LT2).
  assert (P1 : Forall (fun c => 0 < c <= hi) sm) by (rewrite Forall_forall in *; intros c I; pose proof (F1 c I) as (A & B); lra).
  assert (P2 : Forall (fun c => 0 < c <= hi) st) by (rewrite Forall_forall in *; intros c I; pose proof (F2 c I) as (A & B); pose proof (LT2 c I); unfold Qdiv in A; change (/ 2) with (1 # 2) in A; lra).
  assert (LS : length secs = n) by (rewrite SE; unfold clock; rewrite map_length, seq_length; reflexivity).
  destruct (String.eqb_spec (ch_type p) "smooth") as [K|K]; [|destruct (String.eqb_spec (ch_type p) "step") as [K'|K']; [|discriminate]]; cbn [bind].
  - rewrite T1. cbn [bind]. destruct (Nat.leb_spec 25 (String.length (wave_name p))) as [W|W]; [discriminate|]. intros G. exists sm, st, secs, sm. split; [reflexivity|]. split; [left; split; [exact K | reflexivity]|].
    destruct (played p ts sm secs segs CAP) as (A & B); [intros x I; rewrite Forall_forall in P1; apply P1; exact I | exact T1 | lia | exact G | repeat split; assumption].
  - rewrite T2. cbn [bind]. destruct (Nat.leb_spec 25 (String.length (wave_name p))) as [W|W]; [discriminate|]. intros G. exists sm, st, secs, st. split; [reflexivity|]. split; [right; split; [exact K' | reflexivity]|].
    destruct (played p tm st secs segs CAP) as (A & B); [intros x I; rewrite Forall_forall in P2; apply P2; exact I | exact T2 | lia | exact G | repeat split; assumption].
Qed.
Lemma generate_defined cfg times l : l <> [] -> exists segs, generate_maccor_waveform_file cfg {| wv_time := times; wv_power := None; wv_current := Some l |} = Ok segs.
Proof. intros N. unfold generate_maccor_waveform_file. cbn [wv_power wv_current wv_time]. unfold segments_of, peak_of. destruct l as [|x l]; [congruence|]. cbn [map bind]. eexists. reflexivity. Qed.
(** the last point of the steps *)
Lemma windows_last : forall mesh rates s w r, increasing mesh -> (2 <= length mesh)%nat -> s == last mesh 0 -> nth_error rates (length mesh - 2) = Some r -> windows rates mesh s = Ok w -> w == r / 2.
Proof.
  induction mesh as [|a mesh IH]; intros rates s w r I L E N W; cbn [length] in L; [lia|]. destruct mesh as [|b mesh]; [cbn [length] in L; lia|]. destruct rates as [|c rates]; [discriminate|].
  rewrite windows_cons in W. destruct (windows rates (b :: mesh) s) as [v|] eqn:V; [|discriminate]. cbn [bind] in W. injection W as <-. pose proof (last_above a b mesh I) as LA. apply increasing_cons in I as (I & J).
  destruct mesh as [|d mesh].
  - cbn [last] in E. cbn in N. injection N as ->. cbn in V. injection V as <-. rewrite (heaviside_pos (s - a)) by lra. rewrite (heaviside_zero (b - s)) by lra. field.
  - change (last (a :: b :: d :: mesh) 0) with (last (b :: d :: mesh) 0) in *. pose proof (last_above b d mesh J) as LB. pose proof J as J'. apply increasing_cons in J' as (J' & _). rewrite (heaviside_neg (b - s)) by lra.
    rewrite (IH rates s v r J ltac:(cbn [length]; lia) E); [ring | | exact V]. cbn [length] in *. replace (S (S (length mesh)) - 2)%nat with (length mesh) by lia. replace (S (S (S (length mesh))) - 2)%nat with (S (length mesh)) in N by lia. exact N.
Qed.

(** ** linear interpolation has what is asked of the interpolation *)
Definition linear_between (xs ys : list Q) (x : Q) : num := if Qlt_bool x (hd 0 xs) then None else segment_at (combine xs ys) x.
Lemma segment_defined xs : forall ys x, (2 <= length xs)%nat -> length xs = length ys -> x <= last xs 0 -> exists y, segment_at (combine xs ys) x = Some y.
Proof.
  induction xs as [|a xs IH]; intros ys x L E B; cbn [length] in L; [lia|]. destruct xs as [|b xs]; [cbn [length] in L; lia|]. destruct ys as [|u [|v ys]]; try discriminate.
  change (combine (a :: b :: xs) (u :: v :: ys)) with ((a, u) :: (b, v) :: combine xs ys). cbn [segment_at fst snd]. destruct (Qle_bool x b) eqn:Q; [eexists; reflexivity|].
  destruct xs as [|d xs]; [cbn [last] in B; apply Qle_bool_iff in B; congruence|]. apply (IH (v :: ys) x); [cbn [length]; lia | cbn [length] in *; lia | exact B].
Qed.
Lemma linear_shape : shape_preserving linear_between.
Proof.
  intros xs ys lo hi x I L E F (B1 & B2). unfold linear_between. destruct (Qlt_bool x (hd 0 xs)) eqn:Q; [apply Qlt_bool_iff in Q; lra|].
  destruct (segment_defined xs ys x L E B2) as (y & Y). exists y. split; [exact Y|]. exact (segment_between lo hi xs ys x y I E F B1 Y).
Qed.
Lemma node_above a b xs i z : increasing (a :: b :: xs) -> nth_error (b :: xs) i = Some z -> b <= z /\ (i <> 0%nat -> b < z).
Proof.
  revert a b i. induction xs as [|d xs IH]; intros a b i I N.
  - destruct i as [|i]; [injection N as <-; split; [lra | congruence] | destruct i; discriminate].
  - destruct i as [|i]; [injection N as <-; split; [lra | congruence]|]. apply increasing_cons in I as (_ & I). destruct (IH b d i I N) as (A & _). apply increasing_cons in I as (I & _). split; [lra | intros _; lra].
Qed.
Lemma linear_nodes : through_nodes linear_between.
Proof.
  intros xs ys i z x y I L E N X Y. unfold linear_between. destruct xs as [|a [|b xs]]; cbn [length] in L; try lia. destruct ys as [|u [|v ys]]; try discriminate.
  assert (LOW : a <= x). { destruct i as [|i]; [injection N as <-; lra|]. destruct (node_above a b xs i z I N) as (A & _). apply increasing_cons in I as (I & _). lra. }
  cbn [hd]. destruct (Qlt_bool x a) eqn:Q; [apply Qlt_bool_iff in Q; lra|]. clear L.
  revert a b u v xs ys I E N Y LOW Q. induction i as [|i IH]; intros a b u v xs ys I E N Y LOW Q; change (combine (a :: b :: xs) (u :: v :: ys)) with ((a, u) :: (b, v) :: combine xs ys); cbn [segment_at fst snd].
  - injection N as <-. injection Y as <-. pose proof I as I'. apply increasing_cons in I' as (AB & _). destruct (Qle_bool x b) eqn:B; [|exfalso; assert (x <= b) as C by lra; apply Qle_bool_iff in C; congruence].
    eexists. split; [reflexivity|]. rewrite X. field. lra.
  - destruct (node_above a b xs i z I N) as (A1 & A2). pose proof I as I'. apply increasing_cons in I' as (AB & I2). destruct i as [|i].
    + injection N as <-. injection Y as <-. destruct (Qle_bool x b) eqn:B; [|exfalso; assert (x <= b) as C by lra; apply Qle_bool_iff in C; congruence]. eexists. split; [reflexivity|]. rewrite X. field. lra.
    + destruct (Qle_bool x b) eqn:B; [apply Qle_bool_iff in B; specialize (A2 ltac:(lia)); lra|]. destruct xs as [|d xs]; [destruct i; discriminate N|]. destruct ys as [|w ys]; [discriminate E|].
      assert (C : b <= x) by (specialize (A2 ltac:(lia)); lra). apply (IH b d v w xs ys I2); [cbn [length] in *; lia | exact N | exact Y | exact C | apply Qlt_bool_false; exact C].
Qed.
