(** Lemmas for C143. *)
From Verif Require Import Py Num Model_Stamp Model_Text Proofs_Text Proofs_Stamp Model_Dtypes Spec_Dtypes.
From Coq Require Import Qpower Lqa.

(** ** Numbers with 24 binary digits *)
Notation p := (Qpower 2).
Lemma p_plus a b : p (a + b) == p a * p b.
Proof. apply Qpower_plus. intro H. discriminate H. Qed.
Lemma p_nat a : (0 <= a)%Z -> p a == inject_Z (2 ^ a).
Proof. intro H. rewrite Zpower_Qpower by exact H. reflexivity. Qed.
Lemma p_pos a : 0 < p a.
Proof.
  destruct (Z_le_gt_dec 0 a) as [H|H].
  - rewrite p_nat by exact H. rewrite <- (Zlt_Qlt 0). apply Z.pow_pos_nonneg; lia.
  - assert (E : p a * p (- a) == 1) by (rewrite <- p_plus, Z.add_opp_diag_r; reflexivity). assert (Q : 0 < p (- a)) by (rewrite p_nat by lia; rewrite <- (Zlt_Qlt 0); apply Z.pow_pos_nonneg; lia).
    apply Qnot_le_lt. intro L. nra.
Qed.
Lemma p_mono a b : (a <= b)%Z -> p a <= p b.
Proof.
  intro H. replace b with (a + (b - a))%Z by lia. rewrite p_plus. assert (G : 1 <= p (b - a)).
  { rewrite p_nat by lia. rewrite <- (Zle_Qle 1). assert (0 < 2 ^ (b - a))%Z by (apply Z.pow_pos_nonneg; lia). lia. }
  pose proof (p_pos a). nra.
Qed.
Lemma p_mono_lt a b : p a < p b -> (a < b)%Z.
Proof. intro H. destruct (Z_lt_le_dec a b) as [|L]; [assumption|]. pose proof (p_mono _ _ L). lra. Qed.
Lemma exponent_is x : 0 < x -> p (exponent x) <= x /\ x < p (exponent x + 1).
Proof.
  intro X. unfold exponent. set (n := Qnum x). set (d := Zpos (Qden x)). set (a := Z.log2 n). set (b := Z.log2 d).
  assert (N : (0 < n)%Z) by (unfold Qlt in X; cbn in X; unfold n; lia).
  destruct (Z.log2_spec n N) as [A1 A2]. destruct (Z.log2_spec d) as [B1 B2]; [reflexivity|]. fold a in A1, A2. fold b in B1, B2.
  assert (A0 : (0 <= a)%Z) by apply Z.log2_nonneg. assert (B0 : (0 <= b)%Z) by apply Z.log2_nonneg. rewrite <- Z.add_1_r in A2, B2.
  assert (E : x * inject_Z d == inject_Z n). { unfold Qeq, Qmult, inject_Z, n, d. cbn. destruct x as [xn xd]. cbn. lia. }
  assert (PA1 : p a <= inject_Z n) by (rewrite p_nat, <- Zle_Qle by exact A0; exact A1). assert (PA2 : inject_Z n < p (a + 1)) by (rewrite p_nat, <- Zlt_Qlt by lia; exact A2).
  assert (PB1 : p b <= inject_Z d) by (rewrite p_nat, <- Zle_Qle by exact B0; exact B1). assert (PB2 : inject_Z d < p (b + 1)) by (rewrite p_nat, <- Zlt_Qlt by lia; exact B2).
  assert (D : 0 < inject_Z d) by (pose proof (p_pos b); lra).
  assert (U : x < p (a - b + 1)).
  { assert (H : p (a + 1) == p (a - b + 1) * p b) by (rewrite <- p_plus; replace (a - b + 1 + b)%Z with (a + 1)%Z by lia; reflexivity). pose proof (p_pos (a - b + 1)). apply (Qmult_lt_r _ _ _ D). rewrite E. nra. }
  assert (L : p (a - b - 1) <= x).
  { assert (H : p a == p (a - b - 1) * p (b + 1)) by (rewrite <- p_plus; replace (a - b - 1 + (b + 1))%Z with a by lia; reflexivity). pose proof (p_pos (a - b - 1)). apply (Qmult_le_r _ _ _ D). rewrite E. nra. }
  destruct (Qle_bool (p (a - b)) x) eqn:C.
  - apply Qle_bool_iff in C. split; assumption.
  - assert (C' : x < p (a - b)) by (apply Qnot_le_lt; intro H; apply Qle_bool_iff in H; congruence). split; [exact L|]. replace (a - b - 1 + 1)%Z with (a - b)%Z by lia. exact C'.
Qed.
Definition fpos (x : Q) : Q := inject_Z (round_even (x / p (exponent x - 23))) * p (exponent x - 23).
Lemma float32_pos x : 0 < x -> float32 x = fpos x.
Proof. intro H. unfold float32. destruct (Qle_bool x 0) eqn:E; [apply Qle_bool_iff in E; lra|reflexivity]. Qed.
Lemma float32_neg x : x < 0 -> float32 x = - fpos (- x).
Proof.
  intro H. unfold float32. destruct (Qle_bool x 0) eqn:E.
  - destruct (Qle_bool 0 x) eqn:F; [apply Qle_bool_iff in F; lra|reflexivity].
  - assert (x <= 0) by lra. apply Qle_bool_iff in H0. congruence.
Qed.
Lemma float32_zero x : x == 0 -> float32 x = 0.
Proof. intro H. unfold float32. assert (A : Qle_bool x 0 = true) by (apply Qle_bool_iff; lra). assert (B : Qle_bool 0 x = true) by (apply Qle_bool_iff; lra). rewrite A, B. reflexivity. Qed.
Lemma fpos_is x : 0 < x -> single (fpos x) /\ 0 < fpos x /\ Qabs (fpos x - x) <= x * (1 # 16777216).
Proof.
  intro X. destruct (exponent_is x X) as [L U]. unfold fpos. set (e := exponent x) in *. set (u := p (e - 23)). assert (PU : 0 < u) by apply p_pos. set (m := round_even (x / u)).
  assert (DU : x / u * u == x) by (field; lra).
  assert (E23 : p e == u * inject_Z (2 ^ 23)) by (unfold u; rewrite <- (p_nat 23) by lia; rewrite <- p_plus; replace (e - 23 + 23)%Z with e by lia; reflexivity).
  assert (E24 : p (e + 1) == u * inject_Z (2 ^ 24)) by (unfold u; rewrite <- (p_nat 24) by lia; rewrite <- p_plus; replace (e - 23 + 24)%Z with (e + 1)%Z by lia; reflexivity).
  assert (R1 : inject_Z (2 ^ 23) <= x / u) by (apply (Qmult_le_r _ _ _ PU); rewrite DU; lra).
  assert (R2 : x / u <= inject_Z (2 ^ 24)) by (apply (Qmult_le_r _ _ _ PU); rewrite DU; lra).
  assert (M1 : (2 ^ 23 <= m)%Z) by (rewrite <- (round_even_int (inject_Z (2 ^ 23)) (2 ^ 23)) by reflexivity; apply round_even_mono, R1).
  assert (M2 : (m <= 2 ^ 24)%Z) by (rewrite <- (round_even_int (inject_Z (2 ^ 24)) (2 ^ 24)) by reflexivity; apply round_even_mono, R2).
  split; [exists m, (e - 23)%Z; split; [rewrite Z.abs_eq by lia; exact M2|reflexivity]|].
  assert (MQ : inject_Z (2 ^ 23) <= inject_Z m) by (rewrite <- Zle_Qle; exact M1). change (inject_Z (2 ^ 23)) with (8388608 # 1) in *.
  split; [nra|].
  pose proof (round_even_near (x / u)) as NR. fold m in NR. apply Qabs_Qle_condition in NR. destruct NR as [N1 N2]. apply Qabs_Qle_condition.
  assert (A : inject_Z m * u - x == (inject_Z m - x / u) * u) by (rewrite <- DU at 1; ring). rewrite A. split; nra.
Qed.
Lemma fpos_fix x : 0 < x -> single x -> fpos x == x.
Proof.
  intros X (m & f & M & E). destruct (exponent_is x X) as [L U]. unfold fpos. set (e := exponent x) in *. set (u := p (e - 23)). assert (PU : 0 < u) by apply p_pos. assert (PF := p_pos f).
  assert (M0 : (0 < m)%Z). { rewrite Zlt_Qlt. change (inject_Z 0) with 0. apply Qnot_le_lt. intro H. assert (x <= 0) by nra. lra. }
  rewrite Z.abs_eq in M by lia.
  assert (MQ : inject_Z m <= p 24) by (rewrite (p_nat 24), <- Zle_Qle by lia; exact M).
  assert (I : exists k, x / u == inject_Z k).
  { destruct (Z_le_gt_dec (e - 23) f) as [G|G].
    - exists (m * 2 ^ (f - (e - 23)))%Z. rewrite inject_Z_mult, <- p_nat by lia. assert (F : p f == p (f - (e - 23)) * u) by (unfold u; rewrite <- p_plus; replace (f - (e - 23) + (e - 23))%Z with f by lia; reflexivity). rewrite E, F. field. lra.
    - assert (f = e - 24)%Z as ->.
      { assert (p e <= p (f + 24)) by (rewrite p_plus; nra). destruct (Z_lt_le_dec (f + 24) e) as [H1|H1]; [|lia]. exfalso.
        assert (H2 : p (f + 24) < p e). { replace e with ((f + 24) + (e - (f + 24)))%Z by lia. rewrite (p_plus (f + 24)). pose proof (p_mono 1 (e - (f + 24)) ltac:(lia)) as H2. change (p 1) with (2 # 1) in H2. pose proof (p_pos (f + 24)). nra. }
        lra. }
      assert (E24 : p e == p (e - 24) * p 24) by (rewrite <- p_plus; replace (e - 24 + 24)%Z with e by lia; reflexivity).
      assert (MM : inject_Z m == p 24) by (apply Qle_antisym; [exact MQ|]; nra).
      exists (2 ^ 23)%Z. rewrite <- p_nat by lia. assert (F : p (e - 24) * p 24 == p 23 * u) by (unfold u; rewrite <- !p_plus; replace (e - 24 + 24)%Z with (23 + (e - 23))%Z by lia; reflexivity).
      rewrite E, MM. assert (F' : p 24 * p (e - 24) == p 23 * u) by (rewrite Qmult_comm; exact F). rewrite F'. field. lra. }
  destruct I as (k & K). rewrite (round_even_int _ k K). rewrite <- K. field. lra.
Qed.
Lemma single_opp q : single q -> single (- q).
Proof. intros (m & e & M & E). exists (- m)%Z, e. split; [rewrite Z.abs_opp; exact M|]. rewrite E, inject_Z_opp. ring. Qed.
Lemma float32_is q : single (float32 q) /\ Qabs (float32 q - q) <= Qabs q * (1 # 16777216).
Proof.
  destruct (Q_dec q 0) as [[H|H]|H].
  - rewrite float32_neg by exact H. destruct (fpos_is (- q)) as (S & _ & N); [lra|]. split; [apply single_opp, S|].
    rewrite (Qabs_neg q) by lra. assert (E : - fpos (- q) - q == - (fpos (- q) - - q)) by ring. rewrite E, Qabs_opp. exact N.
  - rewrite float32_pos by exact H. destruct (fpos_is q H) as (S & _ & N). split; [exact S|]. rewrite (Qabs_pos q) by lra. exact N.
  - rewrite float32_zero by exact H. split; [exists 0%Z, 0%Z; split; [cbn; lia|reflexivity]|]. assert (E : 0 - q == 0) by lra. rewrite E, H. cbn. lra.
Qed.
Lemma float32_fix q : single q -> float32 q == q.
Proof.
  intro S. destruct (Q_dec q 0) as [[H|H]|H].
  - rewrite float32_neg by exact H. rewrite fpos_fix; [ring|lra|apply single_opp, S].
  - rewrite float32_pos by exact H. apply fpos_fix; assumption.
  - rewrite float32_zero by exact H. lra.
Qed.

(** ** Integers *)
Lemma truncated_cut q y : cut q y <-> y = truncated q.
Proof.
  unfold cut, truncated. pose proof (Qfloor_le q) as F1. pose proof (Qlt_floor q) as F2. pose proof (Qfloor_le (- q)) as G1. pose proof (Qlt_floor (- q)) as G2. rewrite inject_Z_plus in F2, G2. change (inject_Z 1) with 1 in *.
  assert (INT : forall a b : Z, inject_Z a < inject_Z b + 1 -> (a <= b)%Z). { intros a b H. change 1 with (inject_Z 1) in H. rewrite <- inject_Z_plus, <- Zlt_Qlt in H. lia. }
  destruct (Qle_bool 0 q) eqn:C.
  - apply Qle_bool_iff in C. split.
    + intros [(_ & A & B)|(Q0 & A & B)].
      * assert (y <= Qfloor q)%Z by (apply INT; lra). assert (Qfloor q <= y)%Z by (apply INT; lra). lia.
      * assert (y <= 0)%Z by (apply INT; change (inject_Z 0) with 0; lra). assert (0 <= y)%Z by (apply INT; change (inject_Z 0) with 0; lra). assert (Qfloor q <= 0)%Z by (apply INT; change (inject_Z 0) with 0; lra). assert (0 <= Qfloor q)%Z by (apply INT; change (inject_Z 0) with 0; lra). lia.
    + intros ->. left. repeat split; lra.
  - assert (N : q < 0) by (apply Qnot_le_lt; intro H; apply Qle_bool_iff in H; congruence). split.
    + intros [(Q0 & _)|(_ & A & B)]; [lra|]. assert (- y <= Qfloor (- q))%Z by (apply INT; rewrite inject_Z_opp; lra). assert (Qfloor (- q) <= - y)%Z by (apply INT; rewrite inject_Z_opp; lra). lia.
    + intros ->. right. rewrite inject_Z_opp. repeat split; lra.
Qed.
Lemma truncated_int z q : q == inject_Z z -> truncated q = z.
Proof. intro H. symmetry. apply truncated_cut. unfold cut. destruct (Qlt_le_dec q 0); [right|left]; repeat split; lra. Qed.
Lemma wrapped_range bits z : (0 < bits)%Z -> in_range bits (wrapped bits z).
Proof.
  intro B. unfold in_range, wrapped. assert (P : (2 ^ bits = 2 * 2 ^ (bits - 1))%Z) by (rewrite <- Z.pow_succ_r by lia; f_equal; lia).
  assert (0 < 2 ^ (bits - 1))%Z by (apply Z.pow_pos_nonneg; lia). pose proof (Z.mod_pos_bound (z + 2 ^ (bits - 1)) (2 ^ bits) ltac:(lia)). lia.
Qed.
Lemma wrapped_same bits z : (0 < bits)%Z -> in_range bits z -> wrapped bits z = z.
Proof.
  intros B R. unfold in_range in R. unfold wrapped. assert (P : (2 ^ bits = 2 * 2 ^ (bits - 1))%Z) by (rewrite <- Z.pow_succ_r by lia; f_equal; lia). rewrite Z.mod_small by lia. lia.
Qed.

(** ** Cells *)
Lemma int_bits_is ty bits : int_bits ty = Some bits -> (ty = "int32"%string /\ bits = 32%Z) \/ (ty = "int16"%string /\ bits = 16%Z).
Proof.
  unfold int_bits. destruct (String.eqb_spec ty "int32"); [intro H; injection H as <-; left; split; [assumption|reflexivity]|].
  destruct (String.eqb_spec ty "int16"); [intro H; injection H as <-; right; split; [assumption|reflexivity]|intro H; discriminate H].
Qed.
Definition known (ty : string) : Prop := In ty ["int32"; "int16"; "float32"; "float64"; "category"; "object"]%string.
Lemma cast_integer bits q : (0 < bits)%Z -> as_integer bits (Num q) (Num (inject_Z (wrapped bits (truncated q)))).
Proof.
  intro B. exists q, (wrapped bits (truncated q)). split; [reflexivity|]. split; [reflexivity|]. split; [apply wrapped_range, B|]. intros y C R. apply truncated_cut in C. subst y. apply wrapped_same; assumption.
Qed.
Lemma cast_becomes ty c d : known ty -> cast_cell ty c = Ok d -> becomes ty c d.
Proof.
  unfold known, becomes. intros K H. cbn in K. destruct K as [<-|[<-|[<-|[<-|[<-|[<-|[]]]]]]]; cbn [cast_cell int_bits String.eqb Ascii.eqb Bool.eqb] in H.
  - left. split; [reflexivity|]. destruct c; try discriminate H. injection H as <-. apply cast_integer. lia.
  - right; left. split; [reflexivity|]. destruct c; try discriminate H. injection H as <-. apply cast_integer. lia.
  - right; right; left. split; [reflexivity|]. destruct c as [q| |]; try discriminate H; injection H as <-.
    + right. exists (float32 q), q. split; [reflexivity|]. split; [reflexivity|]. apply float32_is.
    + left. split; reflexivity.
  - right; right; right; left. split; [reflexivity|]. destruct c; try discriminate H; injection H as <-; (split; [reflexivity|intros s E; discriminate E]).
  - right; right; right; right. split; [left; reflexivity|]. injection H as <-. reflexivity.
  - right; right; right; right. split; [right; reflexivity|]. injection H as <-. reflexivity.
Qed.
Lemma cast_error ty c e : cast_cell ty c = Err e -> e = ValueError /\ misfit ty c.
Proof.
  unfold cast_cell, misfit. destruct (int_bits ty) as [bits|] eqn:B.
  - assert (I : In ty ["int32"; "int16"]%string) by (apply int_bits_is in B; destruct B as [[-> _]|[-> _]]; [left|right; left]; reflexivity).
    destruct c; intro H; try discriminate H; injection H as <-; (split; [reflexivity|left; split; [exact I|intros q E; discriminate E]]).
  - destruct (String.eqb_spec ty "float32") as [->|_]; [|destruct (String.eqb_spec ty "float64") as [->|_]]; [| |intro H; discriminate H].
    + destruct c; intro H; try discriminate H. injection H as <-. split; [reflexivity|right]. split; [left; reflexivity|exists s; reflexivity].
    + destruct c; intro H; try discriminate H. injection H as <-. split; [reflexivity|right]. split; [right; left; reflexivity|exists s; reflexivity].
Qed.
Lemma cast_misfit ty c : misfit ty c -> cast_cell ty c = Err ValueError.
Proof.
  intros [[I N]|[I (s & ->)]]; cbn in I.
  - destruct I as [<-|[<-|[]]]; (destruct c as [q| |]; [exfalso; apply (N q); reflexivity|reflexivity|reflexivity]).
  - destruct I as [<-|[<-|[]]]; reflexivity.
Qed.
(** a cell that has the type already *)
Definition settled (ty : string) (c : cell) : Prop :=
  match int_bits ty with
  | Some bits => exists z, c = Num (inject_Z z) /\ in_range bits z
  | None => if String.eqb ty "float32" then c = Missing \/ exists q, c = Num q /\ single q else if String.eqb ty "float64" then forall s, c <> Words s else True
  end.
Lemma same_refl c : same_cell c c.
Proof. destruct c; cbn; reflexivity || exact I. Qed.
Lemma cast_settled ty c d : cast_cell ty c = Ok d -> settled ty d.
Proof.
  unfold cast_cell, settled. destruct (int_bits ty) as [bits|] eqn:B.
  - destruct c as [q| |]; intro H; try discriminate H. injection H as <-. eexists. split; [reflexivity|]. apply wrapped_range. apply int_bits_is in B. lia.
  - destruct (String.eqb ty "float32"); [|destruct (String.eqb ty "float64")]; [| |trivial].
    + destruct c as [q| |]; intro H; try discriminate H; injection H as <-; [right; eexists; split; [reflexivity|apply float32_is]|left; reflexivity].
    + destruct c as [q| |]; intro H; try discriminate H; injection H as <-; intros s E; discriminate E.
Qed.
Lemma settled_cast ty c : settled ty c -> exists d, cast_cell ty c = Ok d /\ same_cell d c.
Proof.
  unfold cast_cell, settled. destruct (int_bits ty) as [bits|] eqn:B.
  - intros (z & -> & R). eexists. split; [reflexivity|]. cbn [same_cell]. rewrite (truncated_int z) by reflexivity. rewrite wrapped_same; [reflexivity| |exact R]. apply int_bits_is in B. lia.
  - destruct (String.eqb ty "float32"); [|destruct (String.eqb ty "float64")].
    + intros [->|(q & -> & S)]; eexists; (split; [reflexivity|]); [exact I|]. cbn [same_cell]. apply float32_fix, S.
    + destruct c as [q| |]; intro H; [eexists; split; [reflexivity|apply same_refl]..|]. exfalso. apply (H s). reflexivity.
    + intros _. exists c. split; [reflexivity|apply same_refl].
Qed.
Lemma settled_series ty c : settled ty c -> exists d, series_cell ty c = Ok d /\ same_cell d c.
Proof.
  intro S. unfold series_cell. destruct (int_bits ty) as [bits|] eqn:B; [|apply settled_cast, S]. unfold settled in S. rewrite B in S. destruct S as (z & -> & R). cbv beta iota. rewrite (truncated_int z) by reflexivity. unfold in_range in R.
  assert (E : Qeq_bool (inject_Z z) (inject_Z z) = true) by (apply Qeq_bool_iff; reflexivity). rewrite E.
  destruct (Z.leb_spec (- 2 ^ (bits - 1)) z) as [_|]; [|lia]. destruct (Z.ltb_spec z (2 ^ (bits - 1))) as [_|]; [|lia]. cbn [andb]. eexists. split; [reflexivity|apply same_refl].
Qed.

(** ** Columns and frames *)
Lemma mapM_all {A B} (f : A -> result B) l m : mapM f l = Ok m -> Forall2 (fun a b => f a = Ok b) l m.
Proof.
  revert m. induction l as [|a l IH]; cbn; intros m H; [injection H as <-; constructor|].
  destruct (f a) as [b|] eqn:E; cbn in H; [|discriminate H]. destruct (mapM f l) as [k|] eqn:F; cbn in H; [|discriminate H]. injection H as <-. constructor; [exact E|apply IH; reflexivity].
Qed.
Lemma Forall2_weaken {A B} (P Q : A -> B -> Prop) l m : (forall a b, P a b -> Q a b) -> Forall2 P l m -> Forall2 Q l m.
Proof. intros H F. induction F; constructor; [apply H; assumption|assumption]. Qed.
Lemma mapM_some_err {A B} (f : A -> result B) l e : mapM f l = Err e -> exists a, In a l /\ f a = Err e.
Proof.
  induction l as [|a l IH]; cbn; intro H; [discriminate H|]. destruct (f a) as [b|x] eqn:E; cbn in H.
  - destruct (mapM f l) as [k|y] eqn:F; cbn in H; [discriminate H|]. injection H as <-. destruct (IH eq_refl) as (z & I & G). exists z. split; [right; exact I|exact G].
  - injection H as <-. exists a. split; [left; reflexivity|exact E].
Qed.
Lemma mapM_err_some {A B} (f : A -> result B) l a e : In a l -> f a = Err e -> exists x, mapM f l = Err x.
Proof.
  induction l as [|b l IH]; cbn; [intros []|]. intros [->|I] E; [rewrite E; eexists; reflexivity|]. destruct (f b); cbn; [|eexists; reflexivity]. destruct (IH I E) as (x & ->). eexists. reflexivity.
Qed.
Lemma mapM_of {A B} (f : A -> result B) (R : B -> A -> Prop) l : (forall a, In a l -> exists b, f a = Ok b /\ R b a) -> exists m, mapM f l = Ok m /\ Forall2 R m l.
Proof.
  induction l as [|a l IH]; cbn; intro H; [exists []; split; [reflexivity|constructor]|].
  destruct (H a (or_introl eq_refl)) as (b & E & Rb). rewrite E. cbn. destruct IH as (m & F & G); [intros x I; apply H; right; exact I|]. rewrite F. cbn. exists (b :: m). split; [reflexivity|constructor; assumption].
Qed.
Lemma sget_is {V} (t : list (string * V)) k v : NoDup (map fst t) -> (sget t k = Some v <-> In (k, v) t).
Proof.
  induction t as [|[k' v'] t IH]; cbn; intro N; [split; [intro H; discriminate H|intros []]|]. inversion N as [|? ? N1 N2]; subst. destruct (String.eqb_spec k k') as [->|D].
  - split; [intro H; injection H as ->; left; reflexivity|]. intros [H|H]; [injection H as ->; reflexivity|]. exfalso. apply N1. apply (in_map fst) in H. exact H.
  - rewrite IH by exact N2. split; [intro H; right; exact H|]. intros [H|H]; [injection H as -> _; contradiction|exact H].
Qed.
Fixpoint distinct (l : list string) : bool := match l with [] => true | x :: r => negb (existsb (String.eqb x) r) && distinct r end.
Lemma distinct_nodup l : distinct l = true -> NoDup l.
Proof.
  induction l as [|x l IH]; cbn; intro H; constructor; apply andb_prop in H as [H1 H2]; [|apply IH, H2]. intro I. apply negb_true_iff in H1. assert (existsb (String.eqb x) l = true) by (apply existsb_exists; exists x; split; [exact I|apply String.eqb_refl]). congruence.
Qed.
Lemma keys_nodup : NoDup (map fst structure_dtypes).
Proof. apply distinct_nodup. vm_compute. reflexivity. Qed.
Lemma tables_nodup key types : In (key, types) structure_dtypes -> NoDup (map fst types).
Proof.
  intro H. apply distinct_nodup. assert (A : forallb (fun kt => distinct (map fst (snd kt))) structure_dtypes = true) by (vm_compute; reflexivity). rewrite forallb_forall in A. exact (A _ H).
Qed.
Lemma tables_known key types name ty : In (key, types) structure_dtypes -> In (name, ty) types -> known ty.
Proof.
  intros H I. assert (A : forallb (fun kt => forallb (fun nt => existsb (String.eqb (snd nt)) ["int32"; "int16"; "float32"; "float64"; "category"; "object"]%string) (snd kt)) structure_dtypes = true) by (vm_compute; reflexivity).
  rewrite forallb_forall in A. pose proof (A _ H) as B. cbn beta in B. rewrite forallb_forall in B. specialize (B _ I). cbn beta in B. apply existsb_exists in B. destruct B as (t & J & E). cbn in E. apply String.eqb_eq in E. rewrite E. exact J.
Qed.
Lemma sget_frame key : is_frame key <-> exists types, sget structure_dtypes key = Some types.
Proof.
  assert (M : map fst structure_dtypes = ["cycles_interpolated"; "summary"; "diagnostic_summary"; "diagnostic_interpolated"]%string) by reflexivity.
  unfold is_frame. rewrite <- M. split.
  - intro H. apply in_map_iff in H. destruct H as ([k t] & <- & I). exists t. apply sget_is; [apply keys_nodup|exact I].
  - intros (t & H). apply sget_is in H; [|apply keys_nodup]. apply (in_map fst) in H. exact H.
Qed.
Lemma typed_is key types name ty : sget structure_dtypes key = Some types -> (typed key name ty <-> sget types name = Some ty).
Proof.
  intro H. apply sget_is in H; [|apply keys_nodup]. rewrite sget_is by (apply (tables_nodup key), H). split; [|intro I; exists types; split; assumption].
  intros (t & I & J). apply sget_is in H; [|apply keys_nodup]. apply sget_is in I; [|apply keys_nodup]. rewrite H in I. injection I as <-. exact J.
Qed.
Lemma typed_known key name ty : typed key name ty -> known ty.
Proof. intros (t & H & I). exact (tables_known _ _ _ _ H I). Qed.

Definition cast_column (types : list (string * string)) (nc : string * list cell) : result (string * list cell) :=
  match sget types (fst nc) with Some ty => let! c := mapM (cast_cell ty) (snd nc) in Ok (fst nc, c) | None => Ok nc end.
Definition load_column (types : list (string * string)) (nc : string * list cell) : result (string * list cell) :=
  match sget types (fst nc) with Some ty => let! c := mapM (series_cell ty) (snd nc) in Ok (fst nc, c) | None => Ok nc end.
Lemma kept key f g : cast_dtypes key f = Ok g -> Forall2 (column_becomes key) f g.
Proof.
  unfold cast_dtypes. destruct (sget structure_dtypes key) as [types|] eqn:K; [|intro H; discriminate H]. intro H. apply mapM_all in H.
  eapply Forall2_weaken; [|exact H]. intros a b E. cbv beta in E. unfold column_becomes. destruct (sget types (fst a)) as [ty|] eqn:T.
  - destruct (mapM (cast_cell ty) (snd a)) as [c|] eqn:M; cbn in E; [|discriminate E]. injection E as <-. cbn [fst snd]. split; [reflexivity|]. split.
    + intros ty' Y. pose proof (typed_known _ _ _ Y) as KN. apply (typed_is _ _ _ _ K) in Y. rewrite T in Y. injection Y as <-. apply mapM_all in M. eapply Forall2_weaken; [|exact M]. intros x y. apply cast_becomes, KN.
    + intro N. exfalso. apply (N ty). apply (typed_is _ _ _ _ K). exact T.
  - injection E as <-. split; [reflexivity|]. split; [|reflexivity]. intros ty Y. apply (typed_is _ _ _ _ K) in Y. congruence.
Qed.
Lemma refused key f e : cast_dtypes key f = Err e <->
  (~ is_frame key /\ e = KeyError) \/ (is_frame key /\ e = ValueError /\ exists name col ty c, In (name, col) f /\ typed key name ty /\ In c col /\ misfit ty c).
Proof.
  unfold cast_dtypes. pose proof (sget_frame key) as F. destruct (sget structure_dtypes key) as [types|] eqn:K.
  - assert (IF : is_frame key) by (apply F; eexists; reflexivity).
    assert (ERR : forall x, mapM (cast_column types) f = Err x -> x = ValueError /\ exists name col ty c, In (name, col) f /\ typed key name ty /\ In c col /\ misfit ty c).
    { intros x H. apply mapM_some_err in H. destruct H as ([name col] & I & H). unfold cast_column in H. cbn [fst snd] in H. destruct (sget types name) as [ty|] eqn:T; [|discriminate H].
      destruct (mapM (cast_cell ty) col) as [c|y] eqn:M; cbn in H; [discriminate H|]. injection H as <-. apply mapM_some_err in M. destruct M as (c & J & M). apply cast_error in M. destruct M as [-> MF].
      split; [reflexivity|]. exists name, col, ty, c. split; [exact I|]. split; [apply (typed_is _ _ _ _ K), T|]. split; assumption. }
    split.
    + intro H. right. split; [exact IF|]. apply ERR, H.
    + intros [[N _]|(_ & -> & name & col & ty & c & I & Y & J & MF)]; [contradiction|]. apply (typed_is _ _ _ _ K) in Y.
      destruct (mapM_err_some (cast_cell ty) col c ValueError J (cast_misfit _ _ MF)) as (x & M).
      destruct (mapM_err_some (cast_column types) f (name, col) x I) as (y & H); [unfold cast_column; cbn [fst snd]; rewrite Y, M; reflexivity|].
      destruct (ERR y H) as [-> _]. exact H.
  - split.
    + intro H. injection H as <-. left. split; [|reflexivity]. intro I. apply F in I. destruct I as (t & I). discriminate I.
    + intros [[_ ->]|(I & _)]; [reflexivity|]. apply F in I. destruct I as (t & I). discriminate I.
Qed.
Lemma again_column types a b : cast_column types a = Ok b ->
  (exists c, cast_column types b = Ok c /\ fst c = fst b /\ Forall2 same_cell (snd c) (snd b)) /\ (exists c, load_column types b = Ok c /\ fst c = fst b /\ Forall2 same_cell (snd c) (snd b)).
Proof.
  unfold cast_column, load_column. destruct (sget types (fst a)) as [ty|] eqn:T.
  - destruct (mapM (cast_cell ty) (snd a)) as [c|] eqn:M; cbn; intro H; [|discriminate H]. injection H as <-. cbn [fst snd]. rewrite T. apply mapM_all in M.
    assert (S : forall d, In d c -> settled ty d). { clear T. induction M; intros d I; [destruct I|]. destruct I as [<-|I]; [eapply cast_settled; eassumption|apply IHM, I]. }
    split.
    + destruct (mapM_of (cast_cell ty) same_cell c) as (m & E & G); [intros d I; apply settled_cast, S, I|]. rewrite E. cbn. eexists. split; [reflexivity|]. split; [reflexivity|exact G].
    + destruct (mapM_of (series_cell ty) same_cell c) as (m & E & G); [intros d I; apply settled_series, S, I|]. rewrite E. cbn. eexists. split; [reflexivity|]. split; [reflexivity|exact G].
  - intro H. injection H as <-. rewrite T. assert (R : Forall2 same_cell (snd a) (snd a)) by (induction (snd a); constructor; [apply same_refl|assumption]).
    split; (exists a; split; [reflexivity|split; [reflexivity|exact R]]).
Qed.
Lemma again key f g : cast_dtypes key f = Ok g -> (exists h, cast_dtypes key g = Ok h /\ same_frame h g) /\ (exists h, load_dtypes key g = Ok h /\ same_frame h g).
Proof.
  unfold cast_dtypes, load_dtypes. destruct (sget structure_dtypes key) as [types|] eqn:K; [|intro H; discriminate H]. intro H. apply mapM_all in H.
  assert (S : forall b, In b g -> exists a, cast_column types a = Ok b). { clear K. induction H; intros b I; [destruct I|]. destruct I as [<-|I]; [eexists; eassumption|apply IHForall2, I]. }
  split.
  - apply (mapM_of (cast_column types)). intros b I. destruct (S b I) as (a & E). apply (again_column _ _ _ E).
  - apply (mapM_of (load_column types)). intros b I. destruct (S b I) as (a & E). apply (again_column _ _ _ E).
Qed.
Lemma fits_cast ty c : fits ty c -> exists d, cast_cell ty c = Ok d /\ same_cell d c.
Proof.
  intros (F1 & F2 & F3 & F4). unfold cast_cell, int_bits. destruct (String.eqb_spec ty "int32") as [E|_]; [|destruct (String.eqb_spec ty "int16") as [E|_]].
  - destruct (F1 E) as (q & z & -> & Q & R). eexists. split; [reflexivity|]. cbn [same_cell]. rewrite (truncated_int z _ Q), wrapped_same by (lia || exact R). symmetry. exact Q.
  - destruct (F2 E) as (q & z & -> & Q & R). eexists. split; [reflexivity|]. cbn [same_cell]. rewrite (truncated_int z _ Q), wrapped_same by (lia || exact R). symmetry. exact Q.
  - destruct (String.eqb_spec ty "float32") as [E|_]; [|destruct (String.eqb_spec ty "float64") as [E|_]].
    + destruct (F3 E) as [->|(q & -> & S)]; eexists; (split; [reflexivity|]); [exact I|]. cbn [same_cell]. apply float32_fix, S.
    + pose proof (F4 E) as W. destruct c as [q| |s]; [eexists; split; [reflexivity|apply same_refl]..|]. exfalso. apply (W s). reflexivity.
    + exists c. split; [reflexivity|apply same_refl].
Qed.
Lemma same_refls l : Forall2 same_cell l l.
Proof. induction l; constructor; [apply same_refl|assumption]. Qed.
Lemma exact_cast key f : is_frame key -> all_fit key f -> exists g, cast_dtypes key f = Ok g /\ same_frame g f.
Proof.
  intros K A. apply sget_frame in K. destruct K as (types & K). unfold cast_dtypes. rewrite K. apply (mapM_of (cast_column types)). intros [name col] I. unfold cast_column. cbn [fst snd]. destruct (sget types name) as [ty|] eqn:T.
  - destruct (mapM_of (cast_cell ty) same_cell col) as (m & E & G). { intros c J. apply fits_cast. apply (A name col ty c I); [apply (typed_is _ _ _ _ K), T|exact J]. }
    rewrite E. cbn. eexists. split; [reflexivity|]. split; [reflexivity|exact G].
  - exists (name, col). split; [reflexivity|]. split; [reflexivity|]. apply same_refls.
Qed.
Lemma series_int bits c : (exists q z, c = Num q /\ q == inject_Z z /\ in_range bits z) <->
  exists q, c = Num q /\ (Qeq_bool (inject_Z (truncated q)) q && (- 2 ^ (bits - 1) <=? truncated q)%Z && (truncated q <? 2 ^ (bits - 1))%Z)%bool = true.
Proof.
  split.
  - intros (q & z & -> & Q & R1 & R2). exists q. split; [reflexivity|]. rewrite (truncated_int z _ Q). apply andb_true_intro. split; [apply andb_true_intro; split|]; [apply Qeq_bool_iff; symmetry; exact Q|apply Z.leb_le, R1|apply Z.ltb_lt, R2].
  - intros (q & -> & H). apply andb_prop in H as [H H3]. apply andb_prop in H as [H1 H2]. exists q, (truncated q). split; [reflexivity|]. split; [symmetry; apply Qeq_bool_iff, H1|]. split; [apply Z.leb_le, H2|apply Z.ltb_lt, H3].
Qed.
Lemma series_refused ty c : (exists e, series_cell ty c = Err e) <-> unfit ty c.
Proof.
  unfold series_cell, cast_cell, unfit, fits, int_bits. destruct (String.eqb_spec ty "int32") as [->|N1]; [|destruct (String.eqb_spec ty "int16") as [->|N2]].
  - pose proof (series_int 32 c) as S. split.
    + intros (e & H). left. split; [left; reflexivity|]. intros (F & _). destruct (proj1 S (F eq_refl)) as (q & -> & B). rewrite B in H. discriminate H.
    + intros [[_ N]|[[H|[H|[]]] _]]; [|discriminate H..]. destruct c as [q| |]; [|eexists; reflexivity..].
      match goal with |- exists e, (if ?b then _ else _) = _ => destruct b eqn:B end; [|eexists; reflexivity]. exfalso. apply N. split; [intros _; apply S; exists q; split; [reflexivity|exact B]|]. split; [intro H; discriminate H|]. split; intro H; discriminate H.
  - pose proof (series_int 16 c) as S. split.
    + intros (e & H). left. split; [right; left; reflexivity|]. intros (_ & F & _). destruct (proj1 S (F eq_refl)) as (q & -> & B). rewrite B in H. discriminate H.
    + intros [[_ N]|[[H|[H|[]]] _]]; [|discriminate H..]. destruct c as [q| |]; [|eexists; reflexivity..].
      match goal with |- exists e, (if ?b then _ else _) = _ => destruct b eqn:B end; [|eexists; reflexivity]. exfalso. apply N. split; [intro H; discriminate H|]. split; [intros _; apply S; exists q; split; [reflexivity|exact B]|]. split; intro H; discriminate H.
  - destruct (String.eqb_spec ty "float32") as [->|N3]; [|destruct (String.eqb_spec ty "float64") as [->|N4]].
    + split.
      * intros (e & H). destruct c; try discriminate H. right. split; [left; reflexivity|eexists; reflexivity].
      * intros [[[H|[H|[]]] _]|[_ (s & ->)]]; [discriminate H..|eexists; reflexivity].
    + split.
      * intros (e & H). destruct c; try discriminate H. right. split; [right; left; reflexivity|eexists; reflexivity].
      * intros [[[H|[H|[]]] _]|[_ (s & ->)]]; [discriminate H..|eexists; reflexivity].
    + split; [intros (e & H); discriminate H|]. intros [[[H|[H|[]]] _]|[[H|[H|[]]] _]]; subst ty; contradiction.
Qed.
Lemma load_refused key f : (exists e, load_dtypes key f = Err e) <-> exists name col ty c, In (name, col) f /\ typed key name ty /\ In c col /\ unfit ty c.
Proof.
  unfold load_dtypes. destruct (sget structure_dtypes key) as [types|] eqn:K.
  - split.
    + intros (x & H). apply mapM_some_err in H. destruct H as ([name col] & I & H). cbn [fst snd] in H. destruct (sget types name) as [ty|] eqn:T; [|discriminate H].
      destruct (mapM (series_cell ty) col) as [c|y] eqn:M; cbn in H; [discriminate H|]. apply mapM_some_err in M. destruct M as (c & J & M).
      exists name, col, ty, c. split; [exact I|]. split; [apply (typed_is _ _ _ _ K), T|]. split; [exact J|]. apply series_refused. eexists. exact M.
    + intros (name & col & ty & c & I & Y & J & U). apply (typed_is _ _ _ _ K) in Y. apply series_refused in U. destruct U as (e & U).
      destruct (mapM_err_some (series_cell ty) col c e J U) as (x & M). apply (mapM_err_some (load_column types) f (name, col) x I). unfold load_column. cbn [fst snd]. rewrite Y, M. reflexivity.
  - split; [intros (e & H); discriminate H|]. intros (name & col & ty & c & _ & (t & I & _) & _). apply sget_is in I; [|apply keys_nodup]. congruence.
Qed.
