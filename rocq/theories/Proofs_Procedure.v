(** Lemmas about reading and writing places of a procedure and running the statements of the helpers. *)
From Verif Require Import Py Model_Text Spec_Numeral Model_Procedure Spec_Procedure Proofs_Datapath.
From Coq Require Import Permutation.

(** ** Reading *)
Lemma get_inside q : forall v w, get q v = Ok w <-> inside v q w.
Proof.
  induction q as [|k q IH]; intros v w; cbn [get].
  - split; [intros [= ->]; constructor | inversion 1; reflexivity].
  - split.
    + destruct k as [s|n], v as [|t|x|d|l]; cbn [get1 bind]; try discriminate.
      * destruct (sget d s) as [x|] eqn:E; cbn [bind]; [|discriminate]. intros G. econstructor; [exact E | apply IH; exact G].
      * destruct (nth_error l n) as [x|] eqn:E; cbn [bind]; [|discriminate]. intros G. econstructor; [exact E | apply IH; exact G].
    + inversion 1 as [|d k' x q' w' E G|l n x q' w' E G]; subst; cbn [get1]; rewrite E; cbn [bind]; apply IH; exact G.
Qed.
Lemma reads_get p n q v : reads p n q v <-> step_get p n q = Ok v.
Proof.
  unfold reads, step_get. split.
  - intros (s & E & G). rewrite E. apply get_inside. exact G.
  - destruct (nth_error p n) as [s|]; [|discriminate]. intros G. exists s. split; [reflexivity | apply get_inside; exact G].
Qed.
Lemma get_app q r v : get (q ++ r) v = (let! w := get q v in get r w).
Proof. revert v. induction q as [|k q IH]; intros v; cbn [app get bind]; [reflexivity|]. destruct (get1 k v); cbn [bind]; [apply IH | reflexivity]. Qed.

Definition key_eqb (a b : key) : bool := match a, b with K s, K t => String.eqb s t | I n, I m => Nat.eqb n m | _, _ => false end.
Lemma key_eqb_iff a b : key_eqb a b = true <-> a = b.
Proof.
  destruct a, b; cbn; try (split; discriminate).
  - rewrite String.eqb_eq. split; congruence.
  - rewrite Nat.eqb_eq. split; congruence.
Qed.
Lemma key_eqb_refl a : key_eqb a a = true.
Proof. apply key_eqb_iff. reflexivity. Qed.
Fixpoint apartb (a b : place) : bool :=
  match a, b with k :: a, l :: b => if key_eqb k l then apartb a b else true | _, _ => false end.
Lemma apartb_iff a : forall b, apartb a b = true <-> apart a b.
Proof.
  induction a as [|k a IH]; intros [|l b]; cbn [apartb].
  - split; [discriminate|]. intros ([|x pre] & k & m & ra & rb & E & _); discriminate.
  - split; [discriminate|]. intros ([|x pre] & k & m & ra & rb & E & _); discriminate.
  - split; [discriminate|]. intros ([|x pre] & k' & m & ra & rb & _ & E & _); discriminate.
  - destruct (key_eqb k l) eqn:E.
    + apply key_eqb_iff in E as <-. rewrite IH. split.
      * intros (pre & x & y & ra & rb & -> & -> & N). exists (k :: pre), x, y, ra, rb. auto.
      * intros ([|z pre] & x & y & ra & rb & A & B & N); cbn [app] in A, B.
        -- congruence.
        -- exists pre, x, y, ra, rb. repeat split; congruence.
    + split; [intros _|reflexivity]. exists [], k, l, a, b. repeat split; auto. intros ->. rewrite key_eqb_refl in E. discriminate.
Qed.
Lemma apart_sym a b : apart a b -> apart b a.
Proof. intros (pre & k & l & ra & rb & -> & -> & N). exists pre, l, k, rb, ra. auto. Qed.

(** ** Writing *)
Lemma nth_set {A} (l : list A) : forall n m x, nth_error (set_nth l n x) m = if Nat.eqb n m then match nth_error l m with Some _ => Some x | None => None end else nth_error l m.
Proof.
  induction l as [|y l IH]; intros [|n] [|m] x; cbn [set_nth nth_error Nat.eqb]; try reflexivity.
  - destruct (n =? m)%nat; reflexivity.
  - apply IH.
Qed.
Lemma set_nth_length {A} (l : list A) : forall n x, length (set_nth l n x) = length l.
Proof. induction l as [|y l IH]; intros [|n] x; cbn; congruence. Qed.

Lemma get1_set1 k v x x' v' :
  get1 k v = Ok x ->
  match k, v with K s, VDict d => Ok (VDict (sset d s x')) | I n, VList l => Ok (VList (set_nth l n x')) | _, _ => Err TypeError end = Ok v' ->
  get1 k v' = Ok x' /\ forall l, l <> k -> get1 l v' = get1 l v.
Proof.
  intros G P. destruct k as [s|n], v as [|t|y|d|l]; try discriminate; injection P as <-; cbn [get1] in *.
  - split; [rewrite sget_sset, String.eqb_refl; reflexivity|]. intros [t|m] N; cbn [get1]; [|reflexivity].
    rewrite sget_sset. destruct (String.eqb_spec t s); [congruence | reflexivity].
  - destruct (nth_error l n) eqn:E; [|discriminate]. split.
    + rewrite nth_set, Nat.eqb_refl, E. reflexivity.
    + intros [t|m] N; cbn [get1]; [reflexivity|]. rewrite nth_set. destruct (Nat.eqb_spec n m); [congruence | reflexivity].
Qed.
(** one level of an assignment *)
Lemma put_step k r w v v' :
  put (k :: r) w v = Ok v' ->
  (r = [] /\ exists s d, k = K s /\ v = VDict d /\ v' = VDict (sset d s w)) \/
  (r <> [] /\ exists x x', get1 k v = Ok x /\ put r w x = Ok x' /\
    match k, v with K s, VDict d => Ok (VDict (sset d s x')) | I n, VList l => Ok (VList (set_nth l n x')) | _, _ => Err TypeError end = Ok v').
Proof.
  destruct r as [|k' r].
  - cbn [put]. left. split; [reflexivity|]. destruct k as [s|n], v; try discriminate. injection H as <-. exists s, d. auto.
  - intros P. right. split; [discriminate|]. change (put (k :: k' :: r) w v) with
      (let! x := get1 k v in let! x' := put (k' :: r) w x in
       match k, v with K s, VDict d => Ok (VDict (sset d s x')) | I n, VList l => Ok (VList (set_nth l n x')) | _, _ => Err TypeError end) in P.
    destruct (get1 k v) as [x|]; cbn [bind] in P; [|discriminate]. destruct (put (k' :: r) w x) as [x'|] eqn:Px; cbn [bind] in P; [|discriminate].
    exists x, x'. auto.
Qed.
Lemma put_one k w v v' x : put [k] w v = Ok v' -> get1 k v' = Ok w /\ (forall l, l <> k -> get1 l v' = get1 l v) /\ (get1 k v = Ok x -> True).
Proof.
  intros P. destruct (put_step _ _ _ _ _ P) as [(_ & s & d & -> & -> & ->)|(N & _)]; [|congruence]. cbn [get1]. split.
  - rewrite sget_sset, String.eqb_refl. reflexivity.
  - split; [|auto]. intros [t|m] N; cbn [get1]; [|reflexivity]. rewrite sget_sset. destruct (String.eqb_spec t s); [congruence | reflexivity].
Qed.
Lemma put_same q : forall w v v', q <> [] -> put q w v = Ok v' -> get q v' = Ok w.
Proof.
  induction q as [|k q IH]; intros w v v' N P; [congruence|]. destruct q as [|k' q].
  - destruct (put_one _ _ _ _ VNone P) as (G & _). cbn [get]. rewrite G. reflexivity.
  - destruct (put_step _ _ _ _ _ P) as [(E & _)|(_ & x & x' & G & Px & S)]; [discriminate|].
    destruct (get1_set1 _ _ _ _ _ G S) as (G' & _). cbn [get]. rewrite G'. cbn [bind]. apply (IH w x x'); [discriminate | exact Px].
Qed.
Lemma put_apart q : forall r w v v', put q w v = Ok v' -> apartb q r = true -> get r v' = get r v.
Proof.
  induction q as [|k q IH]; intros [|l r] w v v' P A; try discriminate. cbn [apartb] in A.
  destruct (key_eqb k l) eqn:E.
  - apply key_eqb_iff in E as <-. destruct q as [|k' q]; [discriminate|].
    destruct (put_step _ _ _ _ _ P) as [(E & _)|(_ & x & x' & G & Px & S)]; [discriminate|].
    destruct (get1_set1 _ _ _ _ _ G S) as (G' & _). cbn [get]. rewrite G, G'. cbn [bind]. exact (IH r w x x' Px A).
  - assert (N : l <> k) by (intros ->; rewrite key_eqb_refl in E; discriminate). cbn [get].
    destruct q as [|k' q].
    + destruct (put_one _ _ _ _ VNone P) as (_ & O & _). rewrite (O l N). reflexivity.
    + destruct (put_step _ _ _ _ _ P) as [(F & _)|(_ & x & x' & G & Px & S)]; [discriminate|].
      destruct (get1_set1 _ _ _ _ _ G S) as (_ & O). rewrite (O l N). reflexivity.
Qed.

Definition dict_at (q : place) (v : val) : Prop := exists d, get q v = Ok (VDict d).
(** an assignment leaves dictionaries dictionaries *)
Lemma put_dict q r : forall w v v', r <> [] -> put (q ++ r) w v = Ok v' -> dict_at q v' <-> dict_at q v.
Proof.
  unfold dict_at. induction q as [|k q IH]; intros w v v' N P; cbn [app get] in *.
  - destruct r as [|k r]; [congruence|]. destruct (put_step _ _ _ _ _ P) as [(_ & s & d & -> & -> & ->)|(_ & x & x' & G & Px & S)].
    + split; intros _; eexists; reflexivity.
    + destruct k, v; try discriminate; injection S as <-; split; intros (d0 & D); try discriminate; eexists; reflexivity.
  - destruct (put_step _ _ _ _ _ P) as [(E & _)|(_ & x & x' & G & Px & S)].
    + apply app_eq_nil in E as (_ & E). congruence.
    + destruct (get1_set1 _ _ _ _ _ G S) as (G' & _). rewrite G, G'. cbn [bind]. apply (IH w x x' N Px).
Qed.
Lemma removelast_cons {A} (x : A) l : l <> [] -> removelast (x :: l) = x :: removelast l.
Proof. destruct l; [congruence | reflexivity]. Qed.
Lemma put_dict_apart q : forall r w v v', put q w v = Ok v' -> apartb q r = true -> dict_at (removelast r) v' <-> dict_at (removelast r) v.
Proof.
  intros r w v v' P A. apply apartb_iff in A as (pre & k & l & ra & rb & -> & -> & N). rewrite removelast_app by discriminate.
  destruct rb as [|y rb].
  - cbn [removelast]. rewrite app_nil_r. apply (put_dict pre (k :: ra) w v v'); [discriminate | exact P].
  - rewrite removelast_cons by discriminate.
    assert (E : get (pre ++ l :: removelast (y :: rb)) v' = get (pre ++ l :: removelast (y :: rb)) v)
      by (eapply put_apart; [exact P | apply apartb_iff; exists pre, k, l, ra, (removelast (y :: rb)); auto]).
    unfold dict_at. rewrite E. tauto.
Qed.

Definition ends_key (q : place) : bool := match rev q with K _ :: _ => true | _ => false end.
Lemma ends_key_spec q : ends_key q = true -> exists pre s, q = pre ++ [K s].
Proof.
  unfold ends_key. destruct (rev q) as [|[s|n] r] eqn:E; try discriminate. intros _. exists (rev r), s.
  rewrite <- (rev_involutive q), E. reflexivity.
Qed.
Lemma put_ok pre s : forall w v, (exists v', put (pre ++ [K s]) w v = Ok v') <-> dict_at pre v.
Proof.
  unfold dict_at. induction pre as [|k pre IH]; intros w v; cbn [app].
  - cbn [put get]. split.
    + intros (v' & P). destruct v; try discriminate. eexists. reflexivity.
    + intros (d & [= ->]). eexists. reflexivity.
  - split.
    + intros (v' & P). destruct (put_step _ _ _ _ _ P) as [(E & _)|(_ & x & x' & G & Px & S)]; [apply app_eq_nil in E as (_ & E); discriminate|].
      cbn [get]. rewrite G. cbn [bind]. apply (IH w x). exists x'. exact Px.
    + intros (d & G). cbn [get] in G. destruct (get1 k v) as [x|] eqn:G1; cbn [bind] in G; [|discriminate].
      destruct (proj2 (IH w x)) as (x' & Px); [exists d; exact G|].
      destruct (pre ++ [K s]) as [|k' r] eqn:E; [destruct pre; discriminate|].
      change (put (k :: k' :: r) w v) with
        (let! x := get1 k v in let! x' := put (k' :: r) w x in
         match k, v with K s, VDict d => Ok (VDict (sset d s x')) | I n, VList l => Ok (VList (set_nth l n x')) | _, _ => Err TypeError end).
      rewrite G1. cbn [bind]. rewrite Px. cbn [bind]. destruct k, v; try discriminate; eexists; reflexivity.
Qed.

(** ** Steps *)
Lemma step_put_nth p n q w p' : step_put p n q w = Ok p' ->
  exists s s', nth_error p n = Some s /\ put q w s = Ok s' /\ p' = set_nth p n s'.
Proof.
  unfold step_put. destruct (nth_error p n) as [s|]; [|discriminate]. destruct (put q w s) as [s'|] eqn:P; cbn [bind]; [|discriminate].
  intros [= <-]. exists s, s'. auto.
Qed.
Lemma step_put_length p n q w p' : step_put p n q w = Ok p' -> length p' = length p.
Proof. intros P. destruct (step_put_nth _ _ _ _ _ P) as (s & s' & _ & _ & ->). apply set_nth_length. Qed.
Lemma step_put_other p n q w p' m : step_put p n q w = Ok p' -> m <> n -> nth_error p' m = nth_error p m.
Proof.
  intros P N. destruct (step_put_nth _ _ _ _ _ P) as (s & s' & _ & _ & ->). rewrite nth_set. destruct (Nat.eqb_spec n m); [congruence | reflexivity].
Qed.
Lemma step_put_same p n q w p' : q <> [] -> step_put p n q w = Ok p' -> step_get p' n q = Ok w.
Proof.
  intros N P. destruct (step_put_nth _ _ _ _ _ P) as (s & s' & E & Ps & ->). unfold step_get. rewrite nth_set, Nat.eqb_refl, E.
  eapply put_same; eauto.
Qed.
Definition clear (n : nat) (q : place) (m : nat) (r : place) : bool := negb (Nat.eqb n m) || apartb q r.
Lemma step_put_clear p n q w p' m r : step_put p n q w = Ok p' -> clear n q m r = true -> step_get p' m r = step_get p m r.
Proof.
  unfold clear. intros P C. destruct (Nat.eqb_spec n m) as [<-|N]; cbn in C.
  - destruct (step_put_nth _ _ _ _ _ P) as (s & s' & E & Ps & ->). unfold step_get. rewrite nth_set, Nat.eqb_refl, E.
    eapply put_apart; eauto.
  - unfold step_get. rewrite (step_put_other _ _ _ _ _ m P) by auto. reflexivity.
Qed.
Definition step_dict (p : steps) (n : nat) (q : place) : Prop := exists d, step_get p n (removelast q) = Ok (VDict d).
Lemma step_put_dict p n q w p' m r : step_put p n q w = Ok p' -> clear n q m r = true -> step_dict p' m r <-> step_dict p m r.
Proof.
  unfold clear, step_dict. intros P C. destruct (Nat.eqb_spec n m) as [<-|N]; cbn in C.
  - destruct (step_put_nth _ _ _ _ _ P) as (s & s' & E & Ps & ->). unfold step_get. rewrite nth_set, Nat.eqb_refl, E.
    apply (put_dict_apart _ _ _ _ _ Ps C).
  - unfold step_get. rewrite (step_put_other _ _ _ _ _ m P) by auto. tauto.
Qed.
Lemma step_put_ok p n q w : ends_key q = true -> (exists p', step_put p n q w = Ok p') <-> step_dict p n q.
Proof.
  intros E. destruct (ends_key_spec q E) as (pre & s & ->). unfold step_put, step_dict, step_get. rewrite removelast_last.
  destruct (nth_error p n) as [v|].
  - rewrite <- (put_ok pre s w v). split.
    + intros (p' & P). destruct (put (pre ++ [K s]) w v) as [v'|]; [|discriminate]. exists v'. reflexivity.
    + intros (v' & ->). cbn [bind]. eexists. reflexivity.
  - split; intros (x & X); discriminate.
Qed.

(** ** Programs *)
Lemma run_app a b p : run (a ++ b) p = next (run a p) (run b).
Proof.
  revert p. induction a as [|i a IH]; intros p; cbn [app run]; [reflexivity|]. destruct (exec i p) as [p1 [e|]]; [reflexivity | apply IH].
Qed.
Definition puts_clear (prog : list instr) (n : nat) (q : place) : bool :=
  forallb (fun i => match i_act i with Put r _ => clear (i_step i) r n q | _ => true end) prog.
Lemma asserted_state r p : fst (asserted r p) = p.
Proof. destruct r as [[|]|]; reflexivity. Qed.
(** what one statement can do to the steps *)
Lemma exec_cases i p p' e : exec i p = (p', e) ->
  p' = p \/ exists q w, i_act i = Put q (Ok w) /\ step_put p (i_step i) q w = Ok p' /\ e = None.
Proof.
  unfold exec. intros X.
  assert (G : forall x, (match i_act i with
      | Is q f => asserted (let! v := step_get p (i_step i) q in f v) p
      | Rel q m r f => asserted (let! v := step_get p (i_step i) q in let! w := step_get p m r in f v w) p
      | Put q v => match v with Err e => (p, Some e) | Ok w => match step_put p (i_step i) q w with Ok p' => (p', None) | Err e => (p, Some e) end end
      end) = x -> x = (p', e) -> p' = p \/ exists q w, i_act i = Put q (Ok w) /\ step_put p (i_step i) q w = Ok p' /\ e = None).
  { intros x <- Y. destruct (i_act i) as [q f|q m r f|q [w|er]].
    - left. apply (f_equal fst) in Y. rewrite asserted_state in Y. auto.
    - left. apply (f_equal fst) in Y. rewrite asserted_state in Y. auto.
    - destruct (step_put p (i_step i) q w) as [p1|] eqn:P; injection Y as <- <-; [|auto]. right. exists q, w. auto.
    - injection Y as <- <-. auto. }
  destruct (i_if i) as [t|]; [|exact (G _ eq_refl X)].
  destruct (step_get p (i_step i) [K "StepType"]) as [v|er]; [|injection X as <- <-; auto].
  destruct (text_is t v); [exact (G _ eq_refl X) | injection X as <- <-; auto].
Qed.
Lemma run_frame prog : forall p p' e n q, run prog p = (p', e) -> puts_clear prog n q = true -> step_get p' n q = step_get p n q.
Proof.
  induction prog as [|i prog IH]; intros p p' e n q R C; cbn [run] in R; [injection R as <- <-; reflexivity|].
  cbn [puts_clear forallb] in C. apply andb_true_iff in C as (C1 & C2). destruct (exec i p) as [p1 e1] eqn:X.
  assert (S : step_get p1 n q = step_get p n q).
  { destruct (exec_cases _ _ _ _ X) as [->|(r & w & A & P & _)]; [reflexivity|]. rewrite A in C1. eapply step_put_clear; eauto. }
  destruct e1 as [er|]; [injection R as <- <-; exact S|]. rewrite <- S. eapply IH; eauto.
Qed.
Lemma run_length prog : forall p p' e, run prog p = (p', e) -> length p' = length p.
Proof.
  induction prog as [|i prog IH]; intros p p' e R; cbn [run] in R; [injection R as <- <-; reflexivity|].
  destruct (exec i p) as [p1 e1] eqn:X.
  assert (S : length p1 = length p).
  { destruct (exec_cases _ _ _ _ X) as [->|(r & w & A & P & _)]; [reflexivity|]. eapply step_put_length; eauto. }
  destruct e1 as [er|]; [injection R as <- <-; exact S|]. rewrite <- S. eapply IH; eauto.
Qed.
Definition no_put (prog : list instr) (n : nat) : bool :=
  forallb (fun i => match i_act i with Put _ _ => negb (Nat.eqb (i_step i) n) | _ => true end) prog.
Lemma run_untouched prog : forall p p' e n, run prog p = (p', e) -> no_put prog n = true -> nth_error p' n = nth_error p n.
Proof.
  induction prog as [|i prog IH]; intros p p' e n R C; cbn [run] in R; [injection R as <- <-; reflexivity|].
  cbn [no_put forallb] in C. apply andb_true_iff in C as (C1 & C2). destruct (exec i p) as [p1 e1] eqn:X.
  assert (S : nth_error p1 n = nth_error p n).
  { destruct (exec_cases _ _ _ _ X) as [->|(r & w & A & P & _)]; [reflexivity|]. rewrite A in C1. apply negb_true_iff, Nat.eqb_neq in C1.
    eapply step_put_other; eauto. }
  destruct e1 as [er|]; [injection R as <- <-; exact S|]. rewrite <- S. eapply IH; eauto.
Qed.

(** ** Programs that check before they write and write each place once *)
Definition place_of (a : act) : place := match a with Is q _ | Put q _ | Rel q _ _ _ => q end.
Fixpoint tidy (prog : list instr) : bool :=
  match prog with
  | [] => true
  | i :: r =>
      match i_if i with None => true | Some _ => false end &&
      match i_act i with
      | Is _ _ => true
      | Rel _ _ _ _ => false
      | Put q _ => ends_key q && forallb (fun j => clear (i_step i) q (i_step j) (place_of (i_act j))) r
      end && tidy r
  end.
Definition holds (p : steps) (i : instr) : Prop :=
  match i_act i with
  | Is q f => exists v, step_get p (i_step i) q = Ok v /\ f v = Ok true
  | Put q v => step_dict p (i_step i) q /\ exists w, v = Ok w
  | Rel _ _ _ _ => False
  end.
Definition done (p : steps) (i : instr) : Prop :=
  match i_act i with Put q v => exists w, v = Ok w /\ step_get p (i_step i) q = Ok w | _ => True end.
Lemma tidy_run prog : forall p p' e, tidy prog = true -> run prog p = (p', e) ->
  (e = None <-> Forall (holds p) prog) /\ (e = None -> Forall (done p') prog).
Proof.
  induction prog as [|[n g a] prog IH]; intros p p' e T R.
  - cbn in R. injection R as <- <-. split; [split; auto | auto].
  - cbn [tidy i_if i_act i_step] in T. apply andb_true_iff in T as (T & T2). apply andb_true_iff in T as (Tg & Ta).
    destruct g; [discriminate|]. cbn [run] in R. unfold exec in R. cbn [i_if i_act i_step] in R.
    destruct a as [q f|q m r f|q v]; [|discriminate|].
    + destruct (step_get p n q) as [v|er] eqn:G; cbn [bind asserted] in R.
      * destruct (f v) as [[|]|er] eqn:F; cbn [asserted] in R.
        -- destruct (IH _ _ _ T2 R) as (I1 & I2). split.
           ++ rewrite I1. split; [intros H; constructor; [exists v; auto | exact H] | intros H; inversion H; assumption].
           ++ intros E. constructor; [exact Logic.I | auto].
        -- injection R as <- <-. split; [split; [discriminate|] | discriminate].
           intros H. apply Forall_inv in H as (w & G' & F'). cbn [i_step] in G'. rewrite G in G'. injection G' as <-. congruence.
        -- injection R as <- <-. split; [split; [discriminate|] | discriminate].
           intros H. apply Forall_inv in H as (w & G' & F'). cbn [i_step] in G'. rewrite G in G'. injection G' as <-. congruence.
      * injection R as <- <-. split; [split; [discriminate|] | discriminate].
        intros H. apply Forall_inv in H as (w & G' & F'). cbn [i_step] in G'. congruence.
    + apply andb_true_iff in Ta as (Ek & Cl). destruct v as [w|er].
      * destruct (step_put p n q w) as [p1|er] eqn:P.
        -- destruct (IH _ _ _ T2 R) as (I1 & I2). split.
           ++ rewrite I1. split.
              ** intros H. constructor.
                 { split; [apply (step_put_ok p n q w Ek); exists p1; exact P | exists w; reflexivity]. }
                 rewrite Forall_forall in *. rewrite forallb_forall in Cl. intros j J. specialize (H j J). specialize (Cl j J).
                 unfold holds in *. destruct (i_act j) as [r f|r m r2 f|r v]; cbn [place_of] in Cl.
                 --- rewrite <- (step_put_clear _ _ _ _ _ _ _ P Cl). exact H.
                 --- exact H.
                 --- rewrite <- (step_put_dict _ _ _ _ _ _ _ P Cl). exact H.
              ** intros H. apply Forall_inv_tail in H as H'. clear H. rewrite Forall_forall in *. rewrite forallb_forall in Cl. intros j J.
                 specialize (H' j J). specialize (Cl j J). unfold holds in *. destruct (i_act j) as [r f|r m r2 f|r v]; cbn [place_of] in Cl.
                 --- rewrite (step_put_clear _ _ _ _ _ _ _ P Cl). exact H'.
                 --- exact H'.
                 --- rewrite (step_put_dict _ _ _ _ _ _ _ P Cl). exact H'.
           ++ intros E. constructor; [|auto]. unfold done. cbn [i_act i_step]. exists w. split; [reflexivity|].
              assert (F : puts_clear prog n q = true).
              { unfold puts_clear. rewrite forallb_forall in *. intros j J. specialize (Cl j J). destruct (i_act j) as [r f|r m r2 f|r v] eqn:A; auto.
                cbn [place_of] in Cl. unfold clear in *. rewrite Nat.eqb_sym. destruct (negb (n =? i_step j)%nat); [reflexivity|]. cbn in *.
                apply apartb_iff, apart_sym, apartb_iff. exact Cl. }
              rewrite (run_frame _ _ _ _ _ _ R F). eapply step_put_same; [|exact P].
              destruct (ends_key_spec q Ek) as (pre & s & ->). destruct pre; discriminate.
        -- injection R as <- <-. split; [split; [discriminate|] | discriminate]. intros H. apply Forall_inv in H as (D & _). cbn [i_step] in D.
           apply (step_put_ok p n q w Ek) in D as (p1 & D). congruence.
      * injection R as <- <-. split; [split; [discriminate|] | discriminate]. intros H. apply Forall_inv in H as (_ & w & D). discriminate.
Qed.

(** the type and the mode of a step are checked before anything of it is written *)
Fixpoint checks_first (before prog : list instr) : bool :=
  match prog with
  | [] => true
  | i :: r => match i_act i with
              | Is q _ => if apartb q StepType && apartb q StepMode then true else no_put before (i_step i)
              | _ => true
              end && checks_first (before ++ [i]) r
  end.
Lemma checks_first_spec prog : forall before a i b q f, checks_first before prog = true -> prog = a ++ i :: b -> i_act i = Is q f ->
  q = StepType \/ q = StepMode -> no_put (before ++ a) (i_step i) = true.
Proof.
  induction prog as [|j prog IH]; intros before a i b q f C E A Q; [destruct a; discriminate|].
  cbn [checks_first] in C. apply andb_true_iff in C as (C1 & C2). destruct a as [|x a].
  - injection E as -> ->. rewrite A in C1. rewrite app_nil_r. destruct Q as [-> | ->]; exact C1.
  - injection E as -> ->. specialize (IH _ _ _ _ _ _ C2 eq_refl A Q). rewrite <- app_assoc in IH. exact IH.
Qed.
Lemma run_check_fails a i b p p' e q f : i_if i = None -> i_act i = Is q f -> run (a ++ i :: b) p = (p', e) ->
  no_put a (i_step i) = true -> ~ (exists v, step_get p (i_step i) q = Ok v /\ f v = Ok true) ->
  nth_error p' (i_step i) = nth_error p (i_step i).
Proof.
  intros G A R N F. rewrite run_app in R. destruct (run a p) as [p1 e1] eqn:R1. pose proof (run_untouched _ _ _ _ _ R1 N) as U.
  destruct e1 as [er|]; cbn [next] in R; [injection R as <- <-; exact U|]. cbn [run] in R. unfold exec in R. rewrite G, A in R.
  assert (S : step_get p1 (i_step i) q = step_get p (i_step i) q) by (unfold step_get; rewrite U; reflexivity). rewrite S in R.
  destruct (step_get p (i_step i) q) as [v|er] eqn:Gv; cbn [bind] in R.
  - destruct (f v) as [[|]|er] eqn:Fv; cbn [asserted] in R; [exfalso; apply F; exists v; auto | injection R as <- <-; exact U | injection R as <- <-; exact U].
  - injection R as <- <-. exact U.
Qed.

(** ** From statements to documentation *)
Inductive implements : list instr -> list expects -> list writes -> Prop :=
| im_nil : implements [] [] []
| im_is i f prog E D x : i_act i = Is (x_place x) f -> i_step i = x_step x -> (forall v, f v = Ok true <-> x_is x v) ->
    implements prog E D -> implements (i :: prog) (x :: E) D
| im_put i v prog E D w : i_act i = Put (w_place w) v -> i_step i = w_step w -> ((exists y, v = Ok y) <-> w_if w) ->
    (forall y, v = Ok y -> w_is w y) -> implements prog E D -> implements (i :: prog) E (w :: D).
Lemma implements_app a1 E1 D1 a2 E2 D2 : implements a1 E1 D1 -> implements a2 E2 D2 -> implements (a1 ++ a2) (E1 ++ E2) (D1 ++ D2).
Proof. intros H H2. induction H; cbn [app]; [exact H2 | econstructor; eauto | econstructor; eauto]. Qed.
Lemma implements_holds prog E D p n : implements prog E D ->
  Forall (holds p) (at_step n prog) <-> Forall (expected p n) E /\ Forall (fun w => assignable p (n + w_step w) (w_place w) /\ w_if w) D.
Proof.
  induction 1 as [|i f prog E D x A S F H IH|i v prog E D w A S F Y H IH]; cbn [at_step map].
  - split; auto.
  - rewrite (Forall_cons_iff (holds p)), (Forall_cons_iff (expected p n)). fold (at_step n prog). rewrite IH.
    assert (X : holds p (shift n i) <-> expected p n x).
    { unfold holds, shift, expected. cbn [i_act i_step]. rewrite A, S. split; intros (v & G & Q); exists v.
      - split; [apply reads_get; exact G | apply F; exact Q].
      - split; [apply reads_get; exact G | apply F; exact Q]. }
    rewrite X. tauto.
  - rewrite (Forall_cons_iff (holds p)), (Forall_cons_iff (fun w => assignable p (n + w_step w) (w_place w) /\ w_if w)). fold (at_step n prog). rewrite IH.
    assert (X : holds p (shift n i) <-> assignable p (n + w_step w) (w_place w) /\ w_if w).
    { unfold holds, shift, assignable, step_dict. cbn [i_act i_step]. rewrite A, S, F. split; intros ((d & G) & Q); split; auto; exists d; apply reads_get; exact G. }
    rewrite X. tauto.
Qed.
Lemma implements_done prog E D p n : implements prog E D -> Forall (done p) (at_step n prog) ->
  Forall (fun w => exists v, reads p (n + w_step w) (w_place w) v /\ w_is w v) D.
Proof.
  induction 1 as [|i f prog E D x A S F H IH|i v prog E D w A S F Y H IH]; cbn [at_step map]; intros X; inversion X as [|i' l D1 D2]; subst; auto.
  constructor; [|auto]. unfold done, shift in D1. cbn [i_act i_step] in D1. rewrite A, S in D1. destruct D1 as (y & -> & G). exists y.
  split; [apply reads_get; exact G | auto].
Qed.
Lemma implements_clear prog E D n m q : implements prog E D -> (forall r, In (m, r) (places n D) -> apart r q) -> puts_clear (at_step n prog) m q = true.
Proof.
  induction 1 as [|i f prog E D x A S F H IH|i v prog E D w A S F Y H IH]; intros X; cbn [at_step map puts_clear forallb]; [reflexivity| |].
  - unfold shift at 1. cbn [i_act]. rewrite A. apply IH. exact X.
  - unfold shift at 1. cbn [i_act i_step]. rewrite A. apply andb_true_iff. split.
    + unfold clear. destruct (Nat.eqb_spec (n + i_step (shift n i)) m) as [E0|E0]; cbn [i_step shift].
      2:{ cbn. destruct (Nat.eqb_spec (n + i_step i) m) as [<-|]; [|reflexivity]. cbn. apply apartb_iff. apply X. left. rewrite S. reflexivity. }
      destruct (Nat.eqb_spec (n + i_step i) m) as [<-|]; [|reflexivity]. cbn. apply apartb_iff. apply X. left. rewrite S. reflexivity.
    + apply IH. intros r R. apply X. right. exact R.
Qed.
Lemma implements_check prog E D x : implements prog E D -> In x E ->
  exists a i b f, prog = a ++ i :: b /\ i_act i = Is (x_place x) f /\ i_step i = x_step x /\ (forall v, f v = Ok true <-> x_is x v).
Proof.
  induction 1 as [|i f prog E D y A S F H IH|i v prog E D w A S F Y H IH]; intros X; [destruct X| |].
  - destruct X as [->|X]; [exists [], i, prog, f; auto|]. destruct (IH X) as (a & j & b & g & -> & R). exists (i :: a), j, b, g. auto.
  - destruct (IH X) as (a & j & b & g & -> & R). exists (i :: a), j, b, g. auto.
Qed.
Lemma clear_shift n a q b r : clear (n + a) q (n + b) r = clear a q b r.
Proof. unfold clear. f_equal. f_equal. destruct (Nat.eqb_spec a b) as [->|N]; [apply Nat.eqb_refl | apply Nat.eqb_neq; lia]. Qed.
Lemma place_of_shift n i : place_of (i_act (shift n i)) = place_of (i_act i).
Proof. unfold shift. cbn [i_act]. destruct (i_act i); reflexivity. Qed.
Lemma tidy_shift n prog : tidy (at_step n prog) = tidy prog.
Proof.
  induction prog as [|i prog IH]; [reflexivity|]. cbn [at_step map tidy]. fold (at_step n prog). rewrite IH. f_equal. cbn [shift i_if i_act i_step]. f_equal.
  destruct (i_act i) as [q f|q m r f|q v]; try reflexivity. f_equal. unfold at_step. clear IH. induction prog as [|j prog IH]; [reflexivity|].
  cbn [map forallb]. rewrite IH, place_of_shift. f_equal. cbn [shift i_step]. apply clear_shift.
Qed.
Lemma no_put_shift n prog m : no_put (at_step n prog) (n + m) = no_put prog m.
Proof.
  induction prog as [|i prog IH]; [reflexivity|]. cbn [at_step map no_put forallb]. f_equal; [|exact IH]. cbn [shift i_act i_step].
  destruct (i_act i); try reflexivity. f_equal. destruct (Nat.eqb_spec (i_step i) m) as [->|N]; [apply Nat.eqb_refl | apply Nat.eqb_neq; lia].
Qed.
Theorem documented_run prog E D n : implements prog E D -> tidy prog = true -> checks_first [] prog = true ->
  documented (fun _ => True) E D n (run (at_step n prog)).
Proof.
  intros H T C p p' e _ R. pose proof T as T'. rewrite <- (tidy_shift n) in T'. destruct (tidy_run _ _ _ _ T' R) as (I1 & I2).
  split; [|split; [|split]].
  - split; [eapply run_length; eauto|]. intros m q Q v. rewrite !reads_get.
    rewrite (run_frame _ _ _ _ _ _ R (implements_clear _ _ _ n m q H Q)). tauto.
  - rewrite I1. apply implements_holds. exact H.
  - intros Z. eapply implements_done; eauto.
  - intros x X P N. destruct (implements_check _ _ _ _ H X) as (a & i & b & f & -> & A & S & F).
    pose proof (checks_first_spec _ _ _ _ _ _ _ C eq_refl A P) as NP. cbn [app] in NP.
    assert (G : i_if i = None).
    { clear - T. induction a as [|j a IH]; cbn [app tidy] in T.
      - destruct (i_if i); [discriminate | reflexivity].
      - apply andb_true_iff in T as (_ & T). auto. }
    unfold at_step in R. rewrite map_app in R. cbn [map] in R. rewrite <- S.
    change (n + i_step i)%nat with (i_step (shift n i)).
    eapply run_check_fails; [| | exact R | | ].
    + exact G.
    + cbn [shift i_act]. rewrite A. reflexivity.
    + cbn [shift i_step]. rewrite (no_put_shift n a). exact NP.
    + cbn [shift i_step]. rewrite S. intros (v & Gv & Fv). apply N. exists v. split; [apply reads_get; exact Gv | apply F; exact Fv].
Qed.
Lemma documented_perm pre E D n f E' D' : documented pre E D n f -> Permutation E E' -> Permutation D D' -> documented pre E' D' n f.
Proof.
  intros H PE PD p p' e P R. destruct (H p p' e P R) as (A & B & C & G). split; [|split; [|split]].
  - destruct A as (L & A). split; [exact L|]. intros m q Q. apply A. intros r I. apply Q. unfold places in *.
    eapply Permutation_in; [|exact I]. apply Permutation_map. exact PD.
  - rewrite B. rewrite !Forall_forall. split; intros (X & Y); split; intros z Z.
    + apply X. eapply Permutation_in; [apply Permutation_sym; exact PE | exact Z].
    + apply Y. eapply Permutation_in; [apply Permutation_sym; exact PD | exact Z].
    + apply X. eapply Permutation_in; eauto.
    + apply Y. eapply Permutation_in; eauto.
  - intros Z. specialize (C Z). rewrite Forall_forall in *. intros w W. apply C. eapply Permutation_in; [apply Permutation_sym; exact PD | exact W].
  - intros x X. apply G. eapply Permutation_in; [apply Permutation_sym; exact PE | exact X].
Qed.
