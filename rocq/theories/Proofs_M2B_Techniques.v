(** Proofs for technique partitioning, filters, mappings and export. *)
From Verif Require Import Py Model_Text Proofs_Text Model_Units Spec_Units Proofs_Units Model_Biologic Model_M2B Spec_M2B
  Proofs_Datapath Proofs_M2B.

(** ** Techniques *)
Lemma slice_app {A} (l1 l2 l3 : list A) : slice (l1 ++ l2 ++ l3) (length l1) (length l1 + length l2) = l2.
Proof.
  unfold slice. rewrite skipn_app, skipn_all, Nat.sub_diag. cbn [skipn app].
  replace (length l1 + length l2 - length l1)%nat with (length l2) by lia.
  rewrite firstn_app, firstn_all, Nat.sub_diag. cbn [firstn]. apply app_nil_r.
Qed.
(** ranges cut [steps] from [a] to [b] *)
Definition range_ok (steps : list step) (r : nat * nat * option Z) : Prop :=
  let '(a, b, n) := r in
  (a < b <= length steps)%nat /\
  match n with
  | None => True
  | Some k => (a + 1 < b)%nat /\ exists o c, nth_error steps a = Some o /\ st_type o = "Do 1"%string /\
                nth_error steps (b - 1) = Some c /\ st_type c = "Loop 1"%string /\ loop_count c = Ok k
  end.
Inductive chain (steps : list step) : nat -> list (nat * nat * option Z) -> nat -> Prop :=
| ch_nil a : chain steps a [] a
| ch_cons a b n r c : range_ok steps (a, b, n) -> chain steps b r c -> chain steps a ((a, b, n) :: r) c.
Lemma chain_app steps a r b r' c : chain steps a r b -> chain steps b r' c -> chain steps a (r ++ r') c.
Proof. induction 1; intros H'; cbn; [exact H'|]. constructor; [assumption|]. apply IHchain. exact H'. Qed.
Lemma chain_le steps a r b : chain steps a r b -> (a <= b)%nat.
Proof. induction 1 as [|a b n r c [R _] C IH]; lia. Qed.

Definition scan_inv (steps : list step) (s : scan) (i : nat) : Prop :=
  chain steps 0 (sc_ranges s) (sc_start s) /\ (sc_start s <= i <= length steps)%nat /\
  match sc_open s with
  | Some o => (sc_start s <= o < i)%nat /\ exists st, nth_error steps o = Some st /\ st_type st = "Do 1"%string
  | None => sc_in s = false
  end.
Lemma scan_spec steps : forall rest s i s', skipn i steps = rest -> scan_inv steps s i -> scan_steps s i rest = Ok s' ->
  exists j, scan_inv steps s' j.
Proof.
  induction rest as [|st rest IH]; intros s i s' SK INV H; cbn [scan_steps] in H.
  - injection H as <-. exists i. exact INV.
  - assert (NI : nth_error steps i = Some st).
    { rewrite <- (firstn_skipn i steps), SK. assert (LE : (i < length steps)%nat).
      { destruct (le_lt_dec (length steps) i) as [X|X]; [|exact X]. rewrite skipn_all2 in SK by exact X. discriminate SK. }
      rewrite nth_error_app2; rewrite firstn_length_le by lia; [|lia]. rewrite Nat.sub_diag. reflexivity. }
    assert (IL : (i < length steps)%nat) by (apply nth_error_Some; congruence).
    assert (SK' : skipn (S i) steps = rest).
    { rewrite <- (firstn_skipn i steps), SK. rewrite skipn_app, firstn_length_le by lia.
      rewrite skipn_all2 by (rewrite firstn_length_le; lia). replace (S i - i)%nat with 1%nat by lia. reflexivity. }
    destruct INV as (CH & LE & OPN).
    destruct (String.eqb_spec (st_type st) "Do 1") as [T|T].
    { eapply IH; [exact SK'| |exact H]. split; [exact CH|]. split; [cbn; lia|]. cbn. split; [lia|]. exists st. auto. }
    destruct (String.eqb_spec (st_type st) "Do 2") as [T2|T2].
    { destruct (sc_open s) as [o|] eqn:SO; [|discriminate H]. eapply IH; [exact SK'| |exact H]. split; [exact CH|]. split; [cbn; lia|].
      cbn. destruct OPN as [A B]. split; [lia|exact B]. }
    destruct (String.eqb_spec (st_type st) "Loop 1") as [T3|T3]; cbn [andb] in H.
    + destruct (sc_in s) eqn:SI.
      * destruct (sc_open s) as [o|] eqn:SO; [|discriminate H]. destruct (loop_count st) as [n|] eqn:LC; [|discriminate H]. cbn [bind] in H.
        destruct OPN as [A (so & B1 & B2)].
        eapply IH; [exact SK'| |exact H]. split; [|split; [cbn; lia|reflexivity]]. cbn.
        apply (chain_app _ _ _ _ _ _ CH).
        assert (OI : o <> i) by (intros ->; rewrite NI in B1; injection B1 as <-; congruence).
        assert (LAST : range_ok steps (o, S i, Some n)).
        { split; [lia|]. split; [lia|]. exists so, st. cbn [Nat.sub]. rewrite Nat.sub_0_r. auto. }
        destruct (Nat.eqb_spec (sc_start s) o) as [->|NE]; cbn [app].
        -- constructor; [exact LAST|constructor].
        -- constructor; [split; [lia|exact I]|]. constructor; [exact LAST|constructor].
      * eapply IH; [exact SK'| |exact H]. split; [exact CH|]. split; [lia|]. destruct (sc_open s); [|exact SI].
        destruct OPN as [A B]. split; [lia|exact B].
    + eapply IH; [exact SK'| |exact H]. split; [exact CH|]. split; [lia|]. destruct (sc_open s); [|exact OPN].
      destruct OPN as [A B]. split; [lia|exact B].
Qed.
Lemma skipn_add {A} : forall m n (l : list A), skipn n (skipn m l) = skipn (m + n) l.
Proof. induction m as [|m IH]; intros n l; [reflexivity|]. destruct l; [destruct n; reflexivity|]. apply IH. Qed.
Lemma slice_split {A} (l : list A) a b : (a <= b <= length l)%nat -> slice l a b ++ skipn b l = skipn a l.
Proof.
  intros H. unfold slice. replace (skipn b l) with (skipn (b - a) (skipn a l)).
  - apply firstn_skipn.
  - rewrite skipn_add. f_equal. lia.
Qed.
Lemma skipn_nth {A} : forall a (l : list A) x, nth_error l a = Some x -> skipn a l = x :: skipn (S a) l.
Proof. induction a as [|a IH]; intros [|y l] x E; try discriminate E; cbn in *; [congruence|]. apply IH. exact E. Qed.
Lemma slice_ends {A} (l : list A) a b x y : (a + 1 < b <= length l)%nat -> nth_error l a = Some x -> nth_error l (b - 1) = Some y ->
  slice l a b = x :: slice l (a + 1) (b - 1) ++ [y].
Proof.
  intros H X Y. unfold slice.
  assert (E1 : skipn a l = x :: skipn (a + 1) l).
  { rewrite Nat.add_1_r. apply skipn_nth. exact X. }
  rewrite E1. replace (b - a)%nat with (S (b - 1 - (a + 1) + 1))%nat by lia. cbn [firstn]. f_equal.
  set (m := (b - 1 - (a + 1))%nat). set (t := skipn (a + 1) l).
  assert (N : nth_error t m = Some y).
  { unfold t, m. rewrite <- (firstn_skipn (a + 1) l) in Y. rewrite nth_error_app2 in Y by (rewrite firstn_length_le; lia).
    rewrite firstn_length_le in Y by lia. exact Y. }
  destruct (nth_error_split t m N) as (t1 & t2 & E & L). rewrite E, <- L.
  rewrite !firstn_app, firstn_all, Nat.sub_diag. cbn [firstn]. rewrite app_nil_r.
  replace (length t1 + 1 - length t1)%nat with 1%nat by lia. cbn [firstn]. rewrite firstn_all2 by lia. reflexivity.
Qed.
Lemma slice_length {A} (l : list A) a b : (b <= length l)%nat -> length (slice l a b) = (b - a)%nat.
Proof. intros H. unfold slice. rewrite firstn_length, skipn_length. lia. Qed.
Lemma build_spec steps : forall ranges a b num tps, chain steps a ranges b -> build_partitions steps a num ranges = Ok tps ->
  exists segs, concat segs ++ skipn b steps = skipn a steps /\ laid_out num (Z.of_nat a) segs tps.
Proof.
  intros ranges a b num tps CH. revert num tps. induction CH as [a|a b n r c R C IH]; intros num tps H; cbn [build_partitions] in H.
  - injection H as <-. exists []. split; reflexivity.
  - destruct (negb _ || negb _); [discriminate H|].
    match type of H with context[match n with Some k => @?f k | None => ?g end] => set (tp := match n with Some k => f k | None => g end) in H end.
    destruct (build_partitions steps b _ r) as [more|] eqn:B; [|discriminate H]. cbn [bind] in H. injection H as <-.
    destruct (IH _ _ B) as (segs & E1 & E2). destruct R as [R1 R2].
    exists (slice steps a b :: segs). cbn [concat]. split; [rewrite <- app_assoc, E1; apply slice_split; lia|].
    cbn [laid_out].
    assert (SL : length (slice steps a b) = (b - a)%nat) by (apply slice_length; lia).
    assert (Z.of_nat a + Z.of_nat (length (slice steps a b)) = Z.of_nat b)%Z as -> by lia.
    split; [unfold tp; destruct n; reflexivity|]. split; [unfold tp; destruct n; cbn [tp_loops tp_offset]; lia|].
    split; [intros X; rewrite X in SL; cbn in SL; lia|]. split; [|exact E2].
    unfold stands_for, tp. destruct n as [k|]; cbn [tp_loops tp_steps tp_count]; [|reflexivity].
    destruct R2 as (LT & o & c' & X1 & X2 & X3 & X4 & X5). exists o, c'. split; [apply slice_ends; [lia|assumption|assumption]|].
    split; [exact X2|]. split; [exact X4|]. unfold loop_count, py_int in X5. destruct (st_ends c') as [|en|]; [discriminate X5| |discriminate X5].
    exists en. split; [reflexivity|]. destruct (parse_int (e_value en)); [|discriminate X5]. injection X5 as ->. reflexivity.
Qed.
Theorem partition_covers steps tps : partition_steps steps = Ok tps -> exists segs, concat segs = steps /\ laid_out 1 0 segs tps.
Proof.
  unfold partition_steps. destruct (scan_steps _ 0 steps) as [s|] eqn:S; [|discriminate]. cbn [bind].
  assert (INV0 : scan_inv steps {| sc_open := None; sc_start := 0; sc_in := false; sc_ranges := [] |} 0).
  { split; [constructor|]. split; [cbn; lia|reflexivity]. }
  destruct (scan_spec steps steps _ 0 s eq_refl INV0 S) as (j & CH & LE & _).
  set (ranges := sc_ranges s ++ _).
  assert (CH' : chain steps 0 ranges (length steps)).
  { unfold ranges. apply (chain_app _ _ _ _ _ _ CH). destruct (Nat.ltb_spec (sc_start s) (length steps)) as [L|L].
    - constructor; [split; [lia|exact I]|constructor].
    - assert (sc_start s = length steps) by lia. rewrite H. constructor. }
  destruct ranges as [|[[a b0] n0] r] eqn:R; [discriminate|].
  destruct (last_error _) as [[[? b] ?]|]; [|discriminate]. destruct (_ || _); [discriminate|]. intros B.
  destruct (build_spec steps _ _ _ _ _ CH' B) as (segs & E1 & E2). exists segs. split; [|exact E2].
  rewrite skipn_all, app_nil_r in E1. exact E1.
Qed.

(** ** Well nested procedures *)
Lemma scan_app : forall l1 s i l2, scan_steps s i (l1 ++ l2) = bind (scan_steps s i l1) (fun s' => scan_steps s' (i + length l1) l2).
Proof.
  induction l1 as [|st l1 IH]; intros s i l2; cbn [app scan_steps length].
  - cbn [bind]. rewrite Nat.add_0_r. reflexivity.
  - replace (i + S (length l1))%nat with (S i + length l1)%nat by lia.
    destruct (String.eqb (st_type st) "Do 1"); [apply IH|].
    destruct (String.eqb (st_type st) "Do 2"); [destruct (sc_open s); [apply IH|reflexivity]|].
    destruct (_ && _); [|apply IH]. destruct (sc_open s); [|reflexivity].
    destruct (loop_count st); [|reflexivity]. cbn [bind]. apply IH.
Qed.
Definition same_but_open (s s' : scan) : Prop := sc_start s' = sc_start s /\ sc_in s' = sc_in s /\ sc_ranges s' = sc_ranges s.
Lemma scan_plain st s i r : plain st -> scan_steps s i (st :: r) = scan_steps s (S i) r.
Proof.
  intros P. cbn [scan_steps]. unfold plain in P. cbn [In] in P.
  destruct (String.eqb_spec (st_type st) "Do 1"); [exfalso; apply P; auto|].
  destruct (String.eqb_spec (st_type st) "Do 2"); [exfalso; apply P; auto|].
  destruct (String.eqb_spec (st_type st) "Loop 1"); [exfalso; apply P; auto|]. reflexivity.
Qed.
Lemma scan_plains : forall body s i, Forall plain body -> scan_steps s i body = Ok s.
Proof. induction body as [|st body IH]; intros s i F; [reflexivity|]. inversion F; subst. rewrite scan_plain by assumption. apply IH. assumption. Qed.
Lemma scan_unnested run : unnested run -> forall s i, sc_in s = false -> exists s', scan_steps s i run = Ok s' /\ same_but_open s s'.
Proof.
  induction 1 as [|st r P U IH|o body c r TO F TC U IH]; intros s i IN.
  - exists s. split; [reflexivity|]. repeat split.
  - rewrite scan_plain by exact P. apply IH. exact IN.
  - change (o :: body ++ c :: r) with ([o] ++ body ++ [c] ++ r). rewrite scan_app. cbn [scan_steps]. rewrite TO. cbn [String.eqb Ascii.eqb Bool.eqb andb]. cbn [bind].
    rewrite scan_app, scan_plains by exact F. cbn [bind]. rewrite scan_app. cbn [scan_steps].
    rewrite TC. cbn [sc_in]. rewrite IN. cbn [String.eqb Ascii.eqb Bool.eqb andb bind].
    match goal with |- context[scan_steps ?s1 ?i1 r] => destruct (IH s1 i1) as (s' & E & A & B & C) end; [first [reflexivity|cbn; exact IN]|].
    exists s'. split; [exact E|]. cbn [sc_start sc_in sc_ranges] in A, B, C. repeat split; congruence.
Qed.
Lemma scan_body : forall body s i o, Forall (fun st => ~ In (st_type st) ["Do 1"; "Loop 1"]%string) body -> sc_open s = Some o ->
  exists s', scan_steps s i body = Ok s' /\ sc_open s' = Some o /\ sc_start s' = sc_start s /\ sc_ranges s' = sc_ranges s /\
    (sc_in s = true \/ Exists (fun st => st_type st = "Do 2"%string) body -> sc_in s' = true).
Proof.
  induction body as [|st body IH]; intros s i o F O.
  - exists s. repeat (split; [first [reflexivity|assumption]|]). intros [X|X]; [exact X|inversion X].
  - inversion F as [|? ? P F']; subst. cbn [scan_steps]. cbn [In] in P.
    destruct (String.eqb_spec (st_type st) "Do 1"); [exfalso; apply P; auto|].
    destruct (String.eqb_spec (st_type st) "Do 2") as [T|T].
    + rewrite O. match goal with |- context[scan_steps ?s1 ?i1 body] => destruct (IH s1 i1 o F' eq_refl) as (s' & A & B & C & D & E) end.
      exists s'. split; [exact A|]. split; [exact B|]. split; [exact C|]. split; [exact D|]. intros _. apply E. left. reflexivity.
    + destruct (String.eqb_spec (st_type st) "Loop 1"); [exfalso; apply P; auto|]. cbn [andb].
      destruct (IH s (S i) o F' O) as (s' & A & B & C & D & E).
      exists s'. split; [exact A|]. split; [exact B|]. split; [exact C|]. split; [exact D|]. intros [X|X]; apply E; [left; exact X|].
      inversion X; subst; [contradiction|right; assumption].
Qed.
Definition run_range (a : nat) (run : list step) : list (nat * nat * option Z) :=
  match run with [] => [] | _ => [(a, (a + length run)%nat, None)] end.
Fixpoint exp_ranges (a : nat) (p : procedure) : list (nat * nat * option Z) :=
  match p with
  | [] => []
  | (run, n) :: r => let b := (a + length run)%nat in let c := (b + length (nested_steps n))%nat in
      run_range a run ++ (b, c, Some (ne_count n)) :: exp_ranges c r
  end.
Fixpoint width (p : procedure) : nat :=
  match p with [] => 0%nat | (run, n) :: r => (length run + length (nested_steps n) + width r)%nat end.
Lemma scan_procedure : forall p s a tail, Forall (fun x => unnested (fst x) /\ is_nested (snd x)) p -> unnested tail ->
  sc_in s = false -> sc_start s = a ->
  exists s', scan_steps s a (procedure_steps p tail) = Ok s' /\ sc_ranges s' = sc_ranges s ++ exp_ranges a p /\ sc_start s' = (a + width p)%nat.
Proof.
  induction p as [|[run n] p IH]; intros s a tail F U IN ST; cbn [procedure_steps exp_ranges width].
  - destruct (scan_unnested tail U s a IN) as (s' & E & A & B & C). exists s'. split; [exact E|]. rewrite app_nil_r, Nat.add_0_r. split; congruence.
  - inversion F as [|? ? [F1 F2] F']; subst. cbn [fst snd] in *.
    rewrite scan_app. destruct (scan_unnested run F1 s (sc_start s) IN) as (s1 & E1 & A1 & B1 & C1). rewrite E1. cbn [bind].
    destruct F2 as (TO & TC & FB & EX & en & EE & PI). unfold nested_steps.
    set (b := (sc_start s + length run)%nat).
    change ((ne_open n :: ne_body n ++ [ne_close n]) ++ procedure_steps p tail) with ([ne_open n] ++ (ne_body n ++ [ne_close n]) ++ procedure_steps p tail).
    rewrite <- app_assoc. rewrite scan_app. cbn [scan_steps]. rewrite TO. cbn [String.eqb Ascii.eqb Bool.eqb andb bind].
    rewrite scan_app. match goal with |- context[scan_steps ?s2 ?i2 (ne_body n)] => destruct (scan_body (ne_body n) s2 i2 b FB eq_refl) as (s3 & E3 & O3 & A3 & D3 & I3) end.
    rewrite E3. cbn [bind]. specialize (I3 (or_intror EX)). cbn [sc_start sc_ranges] in A3, D3.
    rewrite scan_app. cbn [scan_steps]. rewrite TC. cbn [String.eqb Ascii.eqb Bool.eqb andb]. rewrite I3, O3.
    unfold loop_count, py_int. rewrite EE, PI. cbn [bind].
    match goal with |- context[scan_steps ?s4 ?i4 (procedure_steps p tail)] =>
      destruct (IH s4 i4 tail F' U eq_refl) as (s' & E & R & W) end.
    { cbn [sc_start length]. lia. }
    exists s'. split; [exact E|]. rewrite R, W. cbn [sc_ranges sc_start length]. rewrite app_length. cbn [length].
    assert (EQ : (b + 1 + length (ne_body n) + 1)%nat = (b + S (length (ne_body n) + 1))%nat) by lia. rewrite EQ. split.
    + rewrite D3, C1, A3, A1. rewrite <- !app_assoc. f_equal.
      replace (S (b + 1 + length (ne_body n)))%nat with (b + S (length (ne_body n) + 1))%nat by lia.
      unfold run_range. destruct run as [|x run].
      * unfold b. cbn [length]. rewrite Nat.add_0_r, Nat.eqb_refl. reflexivity.
      * destruct (Nat.eqb_spec (sc_start s) b) as [X|X]; [unfold b in X; cbn [length] in X; lia|]. reflexivity.
    + unfold b. lia.
Qed.
Lemma procedure_length : forall p tail, length (procedure_steps p tail) = (width p + length tail)%nat.
Proof. induction p as [|[run n] p IH]; intros tail; cbn [procedure_steps width]; [reflexivity|]. rewrite !app_length, IH. lia. Qed.
Lemma build_run (run pre rest : list step) num more rg :
  build_partitions (pre ++ run ++ rest) (length pre + length run) (num + Z.of_nat (length (run_technique num (Z.of_nat (length pre)) run))) rg = Ok more ->
  build_partitions (pre ++ run ++ rest) (length pre) num (run_range (length pre) run ++ rg) = Ok (run_technique num (Z.of_nat (length pre)) run ++ more).
Proof.
  destruct run as [|x run]; cbn [run_range run_technique length app].
  - rewrite Nat.add_0_r. cbn. rewrite Z.add_0_r. intros H. exact H.
  - intros H. cbn [build_partitions]. rewrite Nat.eqb_refl. cbn [negb orb].
    destruct (Nat.ltb_spec (length pre) (length pre + S (length run))) as [_|X]; [|lia]. cbn [negb]. cbn [tp_loops].
    change (num + Z.of_nat 1)%Z with (num + 1)%Z in H. rewrite H. cbn [bind].
    change (pre ++ x :: run ++ rest) with (pre ++ (x :: run) ++ rest).
    change (S (length run)) with (length (x :: run)). rewrite slice_app. reflexivity.
Qed.
Lemma build_procedure : forall p pre tail num, Forall (fun x => unnested (fst x) /\ is_nested (snd x)) p ->
  build_partitions (pre ++ procedure_steps p tail) (length pre) num (exp_ranges (length pre) p ++ run_range (length pre + width p) tail)
  = Ok (techniques num (Z.of_nat (length pre)) p tail).
Proof.
  induction p as [|[run n] p IH]; intros pre tail num F; cbn [procedure_steps exp_ranges width techniques].
  - rewrite Nat.add_0_r. cbn [app]. pose proof (build_run tail pre [] num [] []) as B.
    rewrite !app_nil_r in B. apply B. reflexivity.
  - inversion F as [|? ? [F1 F2] F']; subst. cbn [fst snd] in *.
    rewrite <- app_assoc. apply build_run. cbn [app build_partitions].
    rewrite Nat.eqb_refl. cbn [negb orb]. unfold nested_steps at 1. cbn [length].
    match goal with |- context[(?x <? ?y)%nat] => destruct (Nat.ltb_spec x y) as [_|X]; [|unfold nested_steps in X; cbn [length] in X; lia] end.
    cbn [negb tp_loops].
    specialize (IH ((pre ++ run) ++ nested_steps n) tail (num + Z.of_nat (length (run_technique num (Z.of_nat (length pre)) run)) + 2)%Z F').
    rewrite <- !app_assoc in IH.
    assert (LN : length (pre ++ run ++ nested_steps n) = (length pre + length run + length (nested_steps n))%nat) by (rewrite !app_length; lia).
    rewrite LN in IH.
    rewrite <- Nat.add_assoc in IH. replace (length pre + (length run + length (nested_steps n) + width p))%nat with (length pre + (length run + length (nested_steps n)) + width p)%nat by lia.
    rewrite <- Nat.add_assoc. rewrite IH. cbn [bind].
    assert (SL : slice (pre ++ run ++ nested_steps n ++ procedure_steps p tail) (length pre + length run + 1) (length pre + (length run + length (nested_steps n)) - 1) = ne_body n).
    { pose proof (slice_app (pre ++ run ++ [ne_open n]) (ne_body n) (ne_close n :: procedure_steps p tail)) as SA.
      unfold nested_steps. rewrite !app_length in SA. cbn [length] in *. rewrite app_length. cbn [length].
      replace (length pre + (length run + 1))%nat with (length pre + length run + 1)%nat in SA by lia.
      replace (length pre + (length run + S (length (ne_body n) + 1)) - 1)%nat with (length pre + length run + 1 + length (ne_body n))%nat by lia.
      refine (eq_trans _ SA). f_equal. rewrite <- !app_assoc. cbn [app]. rewrite <- app_assoc. reflexivity. }
    rewrite SL. do 3 f_equal.
    + f_equal. lia.
    + f_equal. lia.
Qed.
Theorem partition_exact p tail : Forall (fun x => unnested (fst x) /\ is_nested (snd x)) p -> unnested tail ->
  procedure_steps p tail <> [] -> partition_steps (procedure_steps p tail) = Ok (techniques 1 0 p tail).
Proof.
  intros F U NE. unfold partition_steps. set (steps := procedure_steps p tail).
  destruct (scan_procedure p {| sc_open := None; sc_start := 0; sc_in := false; sc_ranges := [] |} 0 tail F U eq_refl eq_refl) as (s & E & R & W).
  fold steps in E. rewrite E. cbn [bind]. cbn [sc_ranges app] in R. rewrite Nat.add_0_l in W.
  assert (RG : sc_ranges s ++ (if (sc_start s <? length steps)%nat then [(sc_start s, length steps, None)] else []) = exp_ranges 0 p ++ run_range (width p) tail).
  { rewrite R, W. f_equal. unfold steps. rewrite procedure_length. destruct tail as [|x tail]; cbn [run_range length].
    - rewrite Nat.add_0_r, Nat.ltb_irrefl. reflexivity.
    - destruct (Nat.ltb_spec (width p) (width p + S (length tail))); [reflexivity|lia]. }
  rewrite RG. pose proof (build_procedure p [] tail 1 F) as B. cbn [app length] in B. change (Z.of_nat 0) with 0%Z in B. rewrite Nat.add_0_l in B.
  fold steps in B.
  assert (CH : exists a b n r, exp_ranges 0 p ++ run_range (width p) tail = (0%nat, b, n) :: r /\ a = tt).
  { destruct p as [|[run n] p]; cbn [exp_ranges width].
    - destruct tail as [|x tail]; [contradiction NE; reflexivity|]. exists tt. cbn. eauto.
    - destruct run as [|x run]; exists tt; cbn [run_range app length]; eauto. }
  destruct CH as (_ & b & n & r & CH & _).
  assert (LAST : exists a n, last_error (exp_ranges 0 p ++ run_range (width p) tail) = Some (a, length steps, n)).
  { unfold steps. rewrite procedure_length. destruct tail as [|x tail].
    - rewrite app_nil_r. cbn [length]. rewrite Nat.add_0_r.
      assert (LE : forall p a, p <> [] -> exists c n, last_error (exp_ranges a p) = Some (c, (a + width p)%nat, n)).
      { clear. induction p as [|[run n] p IH]; intros a NE; [contradiction|]. cbn [exp_ranges width].
        assert (X : forall (l : list (nat * nat * option Z)) m, m <> [] -> last_error (l ++ m) = last_error m).
        { induction l as [|y l IHl]; intros m NM; [reflexivity|]. cbn [app]. specialize (IHl m NM). destruct (l ++ m) as [|z w] eqn:Q0.
          - destruct l; [contradiction|discriminate Q0].
          - exact IHl. }
        rewrite X by discriminate. destruct p as [|q p].
        - cbn [exp_ranges last_error width]. do 2 eexists. do 3 f_equal. lia.
        - destruct (IH (a + length run + length (nested_steps n))%nat ltac:(discriminate)) as (c & m & E).
          set (z := exp_ranges _ (q :: p)) in *.
          assert (z <> []) by (unfold z; destruct q as [run' n']; cbn [exp_ranges]; destruct run'; discriminate).
          change ((?h :: z)) with ([h] ++ z). rewrite (X [_] z) by assumption. rewrite E. do 2 eexists. do 3 f_equal. lia. }
      destruct (LE p 0%nat) as (c & m & E'). { intros ->. apply NE. reflexivity. }
      exists c, m. exact E'.
    - assert (X : forall (l : list (nat * nat * option Z)) y, last_error (l ++ [y]) = Some y).
      { induction l as [|y l IHl]; intros y0; [reflexivity|]. cbn [app]. specialize (IHl y0). destruct (l ++ [y0]) eqn:Q0; [destruct l; discriminate Q0|]. exact IHl. }
      cbn [run_range]. rewrite X. eauto. }
  destruct LAST as (a & m & LAST). rewrite CH. rewrite CH in B, LAST. rewrite LAST. cbn [Nat.eqb negb orb]. rewrite Nat.eqb_refl. cbn [negb]. exact B.
Qed.
