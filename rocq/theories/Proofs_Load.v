(** Lemmas for C28. *)
From Verif Require Import Py Model_Load Spec_Load Proofs_Strings.

Lemma app_nil_inv (s t : string) : (s ++ t)%string = ""%string -> s = ""%string /\ t = ""%string.
Proof. destruct s; simpl; [auto|discriminate]. Qed.
Lemma nullable_iff r : nullable r = true <-> matches r "".
Proof.
  induction r; simpl.
  - split; [discriminate|intro H; inversion H].
  - split; [constructor|reflexivity].
  - split; [discriminate|intro H; inversion H].
  - rewrite andb_true_iff, IHr1, IHr2. split.
    + intros [A B]. exact (m_seq _ _ "" "" A B).
    + intro H. inversion H as [| |a b s t A B E1 E2| | | |]; subst. apply app_nil_inv in E2. destruct E2; subst. auto.
  - rewrite orb_true_iff, IHr1, IHr2. split.
    + intros [A|A]; [apply m_alt_l|apply m_alt_r]; exact A.
    + intro H. inversion H; subst; auto.
  - split; [constructor|reflexivity].
Qed.
Lemma star_cons a c s : matches (RStar a) (String c s) -> exists s1 s2, s = (s1 ++ s2)%string /\ matches a (String c s1) /\ matches (RStar a) s2.
Proof.
  remember (RStar a) as r eqn:Er. remember (String c s) as w eqn:Ew. intro H. revert a c s Er Ew.
  induction H; intros a0 c0 s0 Er Ew; try discriminate.
  injection Er as ->. destruct s as [|c1 s1]; simpl in Ew.
  - apply IHmatches2; auto.
  - injection Ew as -> <-. exists s1, t. auto.
Qed.
Lemma deriv_iff c : forall r s, matches (deriv c r) s <-> matches r (String c s).
Proof.
  induction r; intro s; simpl.
  - split; intro H; inversion H.
  - split; intro H; inversion H.
  - destruct (p c) eqn:E.
    + split; intro H; inversion H; subst; [constructor; exact E|constructor].
    + split; intro H; inversion H; subst. congruence.
  - assert (G : matches (RSeq (deriv c r1) r2) s <-> exists s1 s2, s = (s1 ++ s2)%string /\ matches r1 (String c s1) /\ matches r2 s2).
    { split.
      - intro H. inversion H as [| |a b x y A B E1 E2| | | |]; subst. exists x, y. rewrite <- IHr1. auto.
      - intros (x & y & -> & A & B). constructor; [apply IHr1; exact A|exact B]. }
    assert (F : matches (RSeq r1 r2) (String c s) <->
       (exists s1 s2, s = (s1 ++ s2)%string /\ matches r1 (String c s1) /\ matches r2 s2) \/ (matches r1 "" /\ matches r2 (String c s))).
    { split.
      - intro H. inversion H as [| |a b x y A B E1 E2| | | |]; subst. destruct x as [|c' x]; simpl in E2.
        + subst. right. auto.
        + injection E2 as -> <-. left. exists x, y. auto.
      - intros [(x & y & -> & A & B)|(A & B)].
        + exact (m_seq _ _ (String c x) y A B).
        + exact (m_seq _ _ "" (String c s) A B). }
    rewrite F. destruct (nullable r1) eqn:N.
    + apply nullable_iff in N. rewrite <- IHr2, <- G. split.
      * intro H. inversion H; subst; auto.
      * intros [H|(_ & H)]; [apply m_alt_l|apply m_alt_r]; exact H.
    + rewrite G. split; [auto|]. intros [H|(A & _)]; [exact H|]. apply nullable_iff in A. congruence.
  - split; intro H.
    + inversion H; subst; [apply m_alt_l; apply IHr1|apply m_alt_r; apply IHr2]; assumption.
    + inversion H; subst; [apply m_alt_l; apply IHr1|apply m_alt_r; apply IHr2]; assumption.
  - split; intro H.
    + inversion H as [| |a b x y A B E1 E2| | | |]; subst. apply (m_star_1 r (String c x) y); [apply IHr; exact A|exact B].
    + destruct (star_cons _ _ _ H) as (x & y & -> & A & B). constructor; [apply IHr; exact A|exact B].
Qed.
Lemma re_match_iff s : forall r, re_match r s = true <-> exists p t, s = (p ++ t)%string /\ matches r p.
Proof.
  induction s as [|c s IH]; intro r; cbn [re_match]; rewrite orb_true_iff, nullable_iff.
  - split.
    + intros [H|H]; [exists ""%string, ""%string; auto|discriminate].
    + intros (p & t & E & H). symmetry in E. apply app_nil_inv in E. destruct E; subst. auto.
  - rewrite IH. split.
    + intros [H|(p & t & -> & H)]; [exists ""%string, (String c s); auto|]. exists (String c p), t. split; [reflexivity|]. apply deriv_iff. exact H.
    + intros (p & t & E & H). destruct p as [|c' p]; [auto|]. simpl in E. injection E as -> ->. right. exists p, t. split; [reflexivity|]. apply deriv_iff. exact H.
Qed.

(** Meaning of the building blocks *)
Lemma seq_iff a b s : matches (RSeq a b) s <-> exists x y, s = (x ++ y)%string /\ matches a x /\ matches b y.
Proof.
  split; [intro H; inversion H as [| |a' b' x y A B E1 E2| | | |]; subst; eauto|].
  intros (x & y & -> & A & B). constructor; assumption.
Qed.
Lemma alt_iff a b s : matches (RAlt a b) s <-> matches a s \/ matches b s.
Proof. split; [intro H; inversion H; subst; auto|intros [H|H]; [apply m_alt_l|apply m_alt_r]; exact H]. Qed.
Lemma eps_iff s : matches REps s <-> s = ""%string.
Proof. split; [intro H; inversion H; reflexivity|intros ->; constructor]. Qed.
Lemma str_iff w : forall s, matches (r_str w) s <-> s = w.
Proof.
  induction w as [|c w IH]; intro s; simpl; [apply eps_iff|]. rewrite seq_iff. split.
  - intros (x & y & -> & A & B). apply IH in B. subst. inversion A as [|p c' E| | | | |]; subst. apply Ascii.eqb_eq in E. subst. reflexivity.
  - intros ->. exists (String c ""), w. split; [reflexivity|]. split; [constructor; apply Ascii.eqb_refl|apply IH; reflexivity].
Qed.
Lemma any_iff s : matches r_any s <-> one_line s.
Proof.
  unfold one_line in *. induction s as [|c s IH]; cbn [all_chars]; [split; [intros _; exact I|intros _; apply m_star_0]|]. split.
  - intro H. destruct (star_cons _ _ _ H) as (x & y & -> & A & B). inversion A as [|p c' E| | | | |]; subst. simpl in *. split; [|apply IH; exact B].
    intros ->. rewrite Ascii.eqb_refl in E. discriminate.
  - intros (N & H). apply (m_star_1 r_dot (String c "") s); [|apply IH; exact H]. constructor.
    destruct (Ascii.eqb_spec c (ascii_of_nat 10)); [contradiction|reflexivity].
Qed.
Lemma digits_iff n : forall s, matches (r_times n r_digit) s <-> String.length s = n /\ all_chars digit s.
Proof.
  induction n as [|n IH]; intro s; simpl.
  - rewrite eps_iff. split; [intros ->; simpl; auto|]. destruct s; [auto|]. intros (H & _); discriminate.
  - rewrite seq_iff. split.
    + intros (x & y & -> & A & B). inversion A as [|p c E| | | | |]; subst. apply IH in B. destruct B as (B1 & B2). simpl. split; [rewrite B1; reflexivity|]. split; [|exact B2].
      apply andb_prop in E. destruct E as (E1 & E2). split; apply Nat.leb_le; assumption.
    + intros (L & D). destruct s as [|c s]; [discriminate|]. simpl in *. injection L as L. destruct D as (D1 & D2).
      exists (String c ""), s. split; [reflexivity|]. split; [|apply IH; auto]. constructor. destruct D1 as [X Y]. apply andb_true_intro. split; apply Nat.leb_le; assumption.
Qed.
Lemma rseq_nil s : matches (r_seq []) s <-> s = ""%string.
Proof. apply eps_iff. Qed.
Lemma rseq_cons a l s : matches (r_seq (a :: l)) s <-> exists x y, s = (x ++ y)%string /\ matches a x /\ matches (r_seq l) y.
Proof. apply seq_iff. Qed.
Lemma occurs_iff a name : re_match (r_seq [r_any; r_str a]) name = true <-> occurs a name.
Proof.
  rewrite re_match_iff. unfold occurs. split.
  - intros (p & t & -> & H). apply rseq_cons in H. destruct H as (x & y & -> & A & B). apply rseq_cons in B. destruct B as (y1 & y2 & -> & B & C).
    apply rseq_nil in C. subst. apply str_iff in B. subst. apply any_iff in A. exists x, t. split; [rewrite !app_assoc_s; reflexivity|exact A].
  - intros (x & z & -> & A). exists (x ++ a ++ "")%string, z. split; [rewrite !app_assoc_s; reflexivity|].
    apply rseq_cons. exists x, (a ++ "")%string. split; [reflexivity|]. split; [apply any_iff; exact A|].
    apply rseq_cons. exists a, ""%string. split; [reflexivity|]. split; [apply str_iff; reflexivity|apply rseq_nil; reflexivity].
Qed.
Lemma then_iff a b name : re_match (r_seq [r_any; r_str a; r_any; r_str b]) name = true <-> then_occurs a b name.
Proof.
  rewrite re_match_iff. unfold then_occurs. split.
  - intros (p & t & -> & H). apply rseq_cons in H. destruct H as (x & y & -> & A & B). apply rseq_cons in B. destruct B as (y1 & y2 & -> & B & C).
    apply rseq_cons in C. destruct C as (z1 & z2 & -> & C & D). apply rseq_cons in D. destruct D as (u & v & -> & D & E).
    apply rseq_nil in E. subst. apply str_iff in B, D. subst. apply any_iff in A, C. exists x, z1, t. split; [rewrite !app_assoc_s; reflexivity|auto].
  - intros (x & y & z & -> & A & C). exists (x ++ a ++ y ++ b ++ "")%string, z. split; [rewrite !app_assoc_s; reflexivity|].
    apply rseq_cons. exists x, (a ++ y ++ b ++ "")%string. split; [reflexivity|]. split; [apply any_iff; exact A|].
    apply rseq_cons. exists a, (y ++ b ++ "")%string. split; [reflexivity|]. split; [apply str_iff; reflexivity|].
    apply rseq_cons. exists y, (b ++ "")%string. split; [reflexivity|]. split; [apply any_iff; exact C|].
    apply rseq_cons. exists b, ""%string. split; [reflexivity|]. split; [apply str_iff; reflexivity|apply rseq_nil; reflexivity].
Qed.
Lemma all_app P s t : all_chars P (s ++ t) <-> all_chars P s /\ all_chars P t.
Proof. induction s; simpl; [tauto|]. rewrite IHs. tauto. Qed.
Lemma maccor_iff name : re_match p_maccor name = true <-> maccor_digits name.
Proof.
  rewrite re_match_iff. unfold maccor_digits, p_maccor. split.
  - intros (p & t & -> & H). apply rseq_cons in H. destruct H as (x & y & -> & A & B). apply rseq_cons in B. destruct B as (d & y2 & -> & B & C).
    apply rseq_cons in C. destruct C as (y & z2 & -> & C & D). apply rseq_cons in D. destruct D as (e & v & -> & D & E).
    apply rseq_nil in E. subst. apply any_iff in A, C. apply digits_iff in D. destruct D as (D1 & D2).
    apply alt_iff in B. destruct B as [B|B]; apply digits_iff in B; destruct B as (B1 & B2).
    + exists x, d, y, e, t. split; [rewrite !app_assoc_s; reflexivity|]. auto 10.
    + (* six digits: the last one belongs to the middle part *)
      assert (X : exists d5 c, d = (d5 ++ String c "")%string /\ String.length d5 = 5%nat).
      { do 6 (destruct d as [|? d]; [discriminate|]). destruct d; [|discriminate]. exists (String a (String a0 (String a1 (String a2 (String a3 ""))))), a4. auto. }
      destruct X as (d5 & c & -> & L5). apply all_app in B2. destruct B2 as (B2 & (Dc & _)).
      exists x, d5, (String c y), e, t. split; [rewrite !app_assoc_s; reflexivity|]. split; [exact A|]. split.
      * split; [|exact C]. intros ->. destruct Dc as [Dc _]. apply Nat.leb_le in Dc. vm_compute in Dc. discriminate Dc.
      * auto.
  - intros (x & d & y & e & z & -> & A & C & L5 & L3 & D5 & D3). exists (x ++ d ++ y ++ e ++ "")%string, z. split; [rewrite !app_assoc_s; reflexivity|].
    apply rseq_cons. exists x, (d ++ y ++ e ++ "")%string. split; [reflexivity|]. split; [apply any_iff; exact A|].
    apply rseq_cons. exists d, (y ++ e ++ "")%string. split; [reflexivity|]. split; [apply alt_iff; left; apply digits_iff; auto|].
    apply rseq_cons. exists y, (e ++ "")%string. split; [reflexivity|]. split; [apply any_iff; exact C|].
    apply rseq_cons. exists e, ""%string. split; [reflexivity|]. split; [apply digits_iff; auto|apply rseq_nil; reflexivity].
Qed.
Lemma biologic_iff name : re_match p_biologic name = true <-> then_occurs "_C" ".txt" name \/ then_occurs "_C" ".csv" name.
Proof.
  rewrite re_match_iff. unfold then_occurs, p_biologic. split.
  - intros (p & t & -> & H). apply rseq_cons in H. destruct H as (x & y & -> & A & B). apply rseq_cons in B. destruct B as (y1 & y2 & -> & B & C).
    apply rseq_cons in C. destruct C as (z1 & z2 & -> & C & D). apply rseq_cons in D. destruct D as (u & v & -> & D & E).
    apply rseq_cons in E. destruct E as (w & v2 & -> & E & F). apply rseq_nil in F. subst. apply str_iff in B, D. subst. apply any_iff in A, C.
    apply alt_iff in E. destruct E as [E|E]; apply str_iff in E; subst; [left|right]; exists x, z1, t; (split; [rewrite !app_assoc_s; reflexivity|auto]).
  - intro H. assert (X : exists e x y z, (e = "txt" \/ e = "csv")%string /\ name = (x ++ "_C" ++ y ++ "." ++ e ++ z)%string /\ one_line x /\ one_line y).
    { destruct H as [(x & y & z & -> & A & B)|(x & y & z & -> & A & B)]; [exists "txt"%string|exists "csv"%string]; exists x, y, z; auto. }
    destruct X as (e & x & y & z & E & -> & A & C). exists (x ++ "_C" ++ y ++ "." ++ e ++ "")%string, z. split; [rewrite !app_assoc_s; reflexivity|].
    apply rseq_cons. exists x, ("_C" ++ y ++ "." ++ e ++ "")%string. split; [reflexivity|]. split; [apply any_iff; exact A|].
    apply rseq_cons. exists "_C"%string, (y ++ "." ++ e ++ "")%string. split; [reflexivity|]. split; [apply str_iff; reflexivity|].
    apply rseq_cons. exists y, ("." ++ e ++ "")%string. split; [reflexivity|]. split; [apply any_iff; exact C|].
    apply rseq_cons. exists "."%string, (e ++ "")%string. split; [reflexivity|]. split; [apply str_iff; reflexivity|].
    apply rseq_cons. exists e, ""%string. split; [reflexivity|]. split; [|apply rseq_nil; reflexivity].
    apply alt_iff. destruct E as [-> | ->]; [left|right]; apply str_iff; reflexivity.
Qed.
(** Which test belongs to which loader. *)
Definition test (l : loader) (name : string) : bool :=
  match l with
  | Arbin => re_match p_arbin name || re_match p_fastcharge name
  | Maccor => re_match p_maccor name || re_match p_xtesla name
  | Indigo => re_match p_indigo name
  | Biologic => negb (re_match p_biologic_not name) && re_match p_biologic name
  | Neware => re_match p_neware name
  | BatteryArchive => re_match p_archive name
  end.
Lemma test_iff l name : test l name = true <-> names l name.
Proof.
  destruct l; cbn [test names].
  - rewrite orb_true_iff, <- !then_iff. reflexivity.
  - rewrite orb_true_iff, <- then_iff, <- maccor_iff. reflexivity.
  - rewrite <- occurs_iff. reflexivity.
  - rewrite andb_true_iff, negb_true_iff, biologic_iff. rewrite <- (occurs_iff "_CH"). change (r_seq [r_any; r_str "_CH"]) with p_biologic_not.
    destruct (re_match p_biologic_not name); split; intros (A & B); split; auto; try discriminate; try (intro; discriminate); exfalso; apply B; reflexivity.
  - rewrite <- then_iff. reflexivity.
  - rewrite <- occurs_iff. reflexivity.
Qed.
Lemma auto_load_find name : auto_load name = match find (fun l => test l name) priority with Some l => Ok l | None => Err ValueError end.
Proof.
  unfold auto_load, priority. cbn [find test].
  destruct (re_match p_arbin name || re_match p_fastcharge name); [reflexivity|].
  destruct (re_match p_maccor name || re_match p_xtesla name); [reflexivity|].
  destruct (re_match p_indigo name); [reflexivity|].
  destruct (negb (re_match p_biologic_not name) && re_match p_biologic name); [reflexivity|].
  destruct (re_match p_neware name); [reflexivity|]. destruct (re_match p_archive name); reflexivity.
Qed.
Lemma find_first {A} (f : A -> bool) l : match find f l with
  | Some x => exists b a, l = b ++ x :: a /\ f x = true /\ forall y, In y b -> f y = false
  | None => forall y, In y l -> f y = false end.
Proof.
  induction l as [|x l IH]; simpl; [intros y []|]. destruct (f x) eqn:E.
  - exists [], l. repeat split; auto. intros y [].
  - destruct (find f l) as [z|].
    + destruct IH as (b & a & -> & A1 & A2). exists (x :: b), a. repeat split; auto. intros y [<-|I]; auto.
    + intros y [<-|I]; auto.
Qed.
Lemma priority_nodup : NoDup priority.
Proof. unfold priority. repeat constructor; simpl; intuition discriminate. Qed.
Lemma auto_load_spec name :
  (forall l, auto_load name = Ok l <-> first_named l name) /\
  (forall e, auto_load name = Err e <-> e = ValueError /\ forall l, ~ names l name).
Proof.
  rewrite auto_load_find. pose proof (find_first (fun l => test l name) priority) as F.
  assert (U : forall l l', first_named l name -> first_named l' name -> l = l').
  { intros l l' (b & a & E & N & B) (b' & a' & E' & N' & B'). rewrite E in E'. clear E. revert b' E' B'.
    induction b as [|x b IH]; intros [|x' b'] E' B'; simpl in E'; injection E' as -> E'; auto.
    - exfalso. apply (B' x'); [left; reflexivity|exact N].
    - exfalso. apply (B l'); [left; reflexivity|exact N'].
    - apply IH with b'; auto. intros; apply B; right; assumption. intros; apply B'; right; assumption. }
  assert (All : forall l, In l priority) by (intros []; simpl; auto 10).
  destruct (find (fun l => test l name) priority) as [l0|].
  - destruct F as (b & a & E & T & B).
    assert (F0 : first_named l0 name).
    { exists b, a. split; [exact E|]. split; [apply test_iff; exact T|]. intros l' I N. apply test_iff in N. rewrite (B _ I) in N. discriminate. }
    split.
    + intro l. split; [intro H; injection H as <-; exact F0|]. intro H. f_equal. apply U; assumption.
    + intro e. split; [discriminate|]. intros (_ & H). exfalso. apply (H l0). apply test_iff. exact T.
  - assert (N : forall l, ~ names l name). { intros l K. apply test_iff in K. rewrite (F l (All l)) in K. discriminate. }
    split.
    + intro l. split; [discriminate|]. intros (b & a & _ & K & _). exfalso. exact (N _ K).
    + intro e. split; [intro H; injection H as <-; auto|intros (-> & _); reflexivity].
Qed.
