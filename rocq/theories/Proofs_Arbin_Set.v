(** Lemmas for C39, C67, C68. *)
From Coq Require Import Qpower.
From Verif Require Import Py Num Model_Text Model_Arbin Spec_Numeral Spec_Units Spec_Arbin Proofs_Strings Proofs_Text Proofs_Numeral Proofs_Units Proofs_Diagnostic Proofs_Datapath Proofs_Arbin.

(** ** Looking up and setting *)
Lemma holds_get : forall p n v, distinct n -> (holds n p v <-> get_keys p n = Some (Leaf v)).
Proof.
  induction p as [|k p IH]; intros n v D.
  - cbn. split; intro H; [inversion H; reflexivity|]. injection H as ->. constructor.
  - inversion D as [w|kvs ND F]; subst; cbn.
    + split; intro H; [inversion H|discriminate].
    + rewrite Forall_forall in F. split; intro H.
      * inversion H as [|? ? m ? ? I HN]; subst. apply (sget_in _ _ _ ND) in I as G. rewrite G. apply IH; [exact (F _ I)|exact HN].
      * destruct (sget kvs k) as [m|] eqn:G; [|discriminate]. apply (sget_in _ _ _ ND) in G. apply (holds_in _ k m); [exact G|]. apply IH; [exact (F _ G)|exact H].
Qed.
Lemma sset_keys {V} (d : list (string * V)) k v : map fst (sset d k v) = if smem d k then map fst d else map fst d ++ [k].
Proof.
  unfold sset, smem, d_mem. induction d as [|[a b] d IH]; [reflexivity|]. cbn. destruct (String.eqb_spec k a) as [->|]; cbn; [reflexivity|].
  rewrite IH. destruct (d_get String.eqb d k); reflexivity.
Qed.
Lemma smem_in {V} (d : list (string * V)) k : smem d k = true <-> In k (map fst d).
Proof.
  unfold smem, d_mem. induction d as [|[a b] d IH]; cbn; [split; [discriminate|tauto]|]. destruct (String.eqb_spec k a) as [->|]; [split; auto|].
  rewrite IH. split; [auto|]. intros [X|X]; [congruence|exact X].
Qed.
Lemma sset_forall {V} (P : V -> Prop) (d : list (string * V)) k v : Forall (fun kv => P (snd kv)) d -> P v -> Forall (fun kv => P (snd kv)) (sset d k v).
Proof.
  intros F H. unfold sset. induction F as [|[a b] d X F IH]; cbn; [constructor; auto|]. destruct (String.eqb k a); constructor; auto.
Qed.
Lemma set_distinct : forall p v n n', distinct n -> distinct v -> set_keys p v n = Ok n' -> distinct n'.
Proof.
  induction p as [|k p IH]; intros v n n' D V H; cbn in H; [injection H as <-; exact V|]. destruct n as [w|kvs]; [discriminate|].
  destruct (set_keys p v _) as [m|] eqn:E; [|discriminate]. cbn in H. injection H as <-. inversion D as [|? ND F]; subst.
  assert (DM : distinct m).
  { eapply IH; [|exact V|exact E]. destruct (sget kvs k) as [x|] eqn:G; [|constructor; constructor]. apply (sget_in _ _ _ ND) in G. rewrite Forall_forall in F. exact (F _ G). }
  constructor; [|apply sset_forall; assumption]. rewrite sset_keys. destruct (smem kvs k) eqn:M; [exact ND|].
  apply NoDup_app_iff. split; [exact ND|]. split; [constructor; [tauto|constructor]|]. intros x I [<-|[]]. apply smem_in in I. congruence.
Qed.
Lemma get_app p q n : get_keys (p ++ q) n = match get_keys p n with Some m => get_keys q m | None => None end.
Proof.
  revert n. induction p as [|k p IH]; intro n; [reflexivity|]. cbn. destruct n as [w|kvs]; [reflexivity|]. destruct (sget kvs k); [apply IH|reflexivity].
Qed.
Lemma get_set_below : forall p q v n n', set_keys p v n = Ok n' -> get_keys (p ++ q) n' = get_keys q v.
Proof.
  induction p as [|k p IH]; intros q v n n' H; cbn in H; [injection H as <-; reflexivity|]. destruct n as [w|kvs]; [discriminate|].
  destruct (set_keys p v _) as [m|] eqn:E; [|discriminate]. cbn in H. injection H as <-. cbn. rewrite sget_sset, String.eqb_refl. eapply IH; exact E.
Qed.
(** neither path is part of the other *)
Definition apart (p q : list string) : Prop := (forall r, q <> p ++ r) /\ (forall r, p <> q ++ r).
Lemma get_set_apart : forall p q v n n', set_keys p v n = Ok n' -> apart p q -> get_keys q n' = get_keys q n.
Proof.
  induction p as [|k p IH]; intros q v n n' H [A B]; cbn in H; [destruct (A q); reflexivity|]. destruct n as [w|kvs]; [discriminate|].
  destruct (set_keys p v _) as [m|] eqn:E; [|discriminate]. cbn in H. injection H as <-. destruct q as [|j q]; [destruct (B (k :: p)); reflexivity|].
  cbn. rewrite sget_sset. destruct (String.eqb_spec j k) as [->|NE].
  - assert (AP : apart p q). { split; intros r X; [apply (A r)|apply (B r)]; cbn; congruence. }
    rewrite (IH q v _ m E AP). destruct (sget kvs k) as [x|] eqn:G; [reflexivity|]. destruct q; [destruct AP as [_ X]; destruct (X p); reflexivity|reflexivity].
  - reflexivity.
Qed.
Lemma get_set_above : forall p r k v n n', set_keys (p ++ k :: r) v n = Ok n' -> (forall w, get_keys p n <> Some (Leaf w)) /\ (forall w, get_keys p n' <> Some (Leaf w)).
Proof.
  induction p as [|j p IH]; intros r k v n n' H; cbn in H.
  - destruct n as [w|kvs]; [discriminate|]. destruct (set_keys r v _) as [m|]; [|discriminate]. injection H as <-. split; intros w; discriminate.
  - destruct n as [w|kvs]; [discriminate|]. destruct (set_keys (p ++ k :: r) v _) as [m|] eqn:E; [|discriminate]. cbn in H. injection H as <-.
    destruct (IH _ _ _ _ _ E) as [A B]. split; intro w; cbn.
    + destruct (sget kvs j) as [x|]; [apply A|discriminate].
    + rewrite sget_sset, String.eqb_refl. apply B.
Qed.
Lemma compare_paths (p q : list string) : (exists r, q = p ++ r) \/ (exists k r, p = q ++ k :: r) \/ apart p q.
Proof.
  revert q. induction p as [|k p IH]; intro q; [left; exists q; reflexivity|]. destruct q as [|j q]; [right; left; exists k, p; reflexivity|].
  destruct (string_dec k j) as [->|NE].
  - destruct (IH q) as [(r & ->)|[(x & r & ->)|[A B]]]; [left; exists r; reflexivity|right; left; exists x, r; reflexivity|].
    right. right. split; intros r X; [apply (A r)|apply (B r)]; cbn in X; congruence.
  - right. right. split; intros r X; cbn in X; congruence.
Qed.
Lemma set_updates p v n n' : distinct n -> set_keys p (Leaf v) n = Ok n' -> updates n (fun q w => q = p /\ w = v) n'.
Proof.
  intros D H q w. pose proof (set_distinct p (Leaf v) n n' D (distinct_leaf v) H) as D'. rewrite (holds_get q n' w D'), (holds_get q n w D).
  destruct (compare_paths p q) as [(r & ->)|[(k & r & ->)|AP]].
  - rewrite (get_set_below p r _ _ _ H). split.
    + intro E. left. destruct r as [|j r]; cbn in E; [injection E as <-; rewrite app_nil_r; auto|discriminate].
    + intros [[E ->]|[_ N]]; [|destruct N; exists p, r, v; auto]. rewrite <- (app_nil_r p) in E at 2. apply app_inv_head in E. subst r. reflexivity.
  - destruct (get_set_above _ _ _ _ _ _ H) as [A B]. split; intro E; [destruct (B _ E)|]. destruct E as [[E _]|[E _]]; [|destruct (A _ E)].
    rewrite <- (app_nil_r q) in E at 1. apply app_inv_head in E. discriminate.
  - rewrite (get_set_apart p q _ _ _ H AP). split; [|intros [[-> ->]|[E _]]; [|exact E]].
    + intro E. right. split; [exact E|]. intros (q0 & r & w0 & (-> & ->) & ->). destruct AP as [A _]. destruct (A r). reflexivity.
    + destruct AP as [A _]. destruct (A []). rewrite app_nil_r. reflexivity.
Qed.
Lemma updates_ext s new new' s' : updates s new s' -> (forall p v, new p v <-> new' p v) -> updates s new' s'.
Proof.
  intros U E p v. rewrite (U p v), (E p v). split; (intros [H|[H N]]; [left; exact H|right; split; [exact H|]]).
  - intros (q & r & w & X & Y). apply N. exists q, r, w. split; [apply E; exact X|exact Y].
  - intros (q & r & w & X & Y). apply N. exists q, r, w. split; [apply E; exact X|exact Y].
Qed.
Lemma updates_none s : updates s (fun _ _ => False) s.
Proof. intros p v. split; [intro H; right; split; [exact H|intros (q & r & w & [] & _)]|intros [[]|[H _]]; exact H]. Qed.
Lemma updates_then s new1 s1 new2 s2 : updates s new1 s1 -> updates s1 new2 s2 ->
  (forall p v q w r, new1 p v -> new2 q w -> p <> q ++ r) -> updates s (fun p v => new1 p v \/ new2 p v) s2.
Proof.
  intros U1 U2 DJ p v. rewrite (U2 p v), (U1 p v). split.
  - intros [H|[[H|[H N1]] N2]]; [auto|auto|]. right. split; [exact H|]. intros (q & r & w & [X|X] & Y); [apply N1|apply N2]; exists q, r, w; auto.
  - intros [[H|H]|[H N]]; [|auto|].
    + right. split; [auto|]. intros (q & r & w & X & Y). eapply DJ; eauto.
    + right. split; [right; split; [exact H|]|]; intros (q & r & w & X & Y); apply N; exists q, r, w; auto.
Qed.

(** ** Steps by label *)
Lemma split2 k key : avoids ["."]%char k -> avoids ["."]%char key -> str_split "." ("Schedule." ++ k ++ "." ++ key) = ["Schedule"; k; key]%string.
Proof.
  intros K1 K2. change ("Schedule." ++ k ++ "." ++ key)%string with ("Schedule" ++ String "." (k ++ String "." key))%string.
  rewrite str_split_char by reflexivity. rewrite str_split_char by (apply (avoids_free _ _ _ K1); left; reflexivity).
  rewrite str_split_none by (apply (avoids_free _ _ _ K2); left; reflexivity). reflexivity.
Qed.
Lemma split1 k : avoids ["."]%char k -> str_split "." ("Schedule." ++ k) = ["Schedule"; k]%string.
Proof.
  intros K1. change ("Schedule." ++ k)%string with ("Schedule" ++ String "." k)%string.
  rewrite str_split_char by reflexivity. rewrite str_split_none by (apply (avoids_free _ _ _ K1); left; reflexivity). reflexivity.
Qed.
Lemma split3 k l key : avoids ["."]%char k -> avoids ["."]%char l -> avoids ["."]%char key ->
  str_split "." ("Schedule." ++ k ++ "." ++ l ++ "." ++ key) = ["Schedule"; k; l; key]%string.
Proof.
  intros K1 K2 K3. change ("Schedule." ++ k ++ "." ++ l ++ "." ++ key)%string with ("Schedule" ++ String "." (k ++ String "." (l ++ String "." key)))%string.
  rewrite str_split_char by reflexivity. rewrite str_split_char by (apply (avoids_free _ _ _ K1); left; reflexivity).
  rewrite str_split_char by (apply (avoids_free _ _ _ K2); left; reflexivity).
  rewrite str_split_none by (apply (avoids_free _ _ _ K3); left; reflexivity). reflexivity.
Qed.
Lemma leaf_is_iff n p v : distinct n -> (leaf_is (get_keys p n) v = true <-> holds n p v).
Proof.
  intro D. rewrite (holds_get p n v D). unfold leaf_is. destruct (get_keys p n) as [[w|d]|]; [|split; discriminate|split; discriminate].
  rewrite String.eqb_eq. split; [intros ->; reflexivity|intro H; injection H; auto].
Qed.
Lemma label_avoids : avoids ["."]%char "m_szLabel".
Proof. intros c I [<-|[]]. cbn in I. repeat (destruct I as [I|I]; [discriminate|]). exact I. Qed.
Lemma has_label_iff s label k : distinct s -> avoids ["."]%char k -> (has_label s label k = true <-> labelled s label k).
Proof.
  intros D A. unfold has_label, get_path. change ("Schedule." ++ k ++ ".m_szLabel")%string with ("Schedule." ++ k ++ "." ++ "m_szLabel")%string.
  rewrite (split2 k _ A label_avoids). apply leaf_is_iff. exact D.
Qed.
(** a labelled step is a section *)
Lemma step_of s label k : distinct s -> labelled s label k -> exists kvs steps step, s = Dict kvs /\ sget kvs "Schedule" = Some (Dict steps) /\ sget steps k = Some (Dict step).
Proof.
  intros D H. apply (holds_get _ _ _ D) in H. cbn in H. destruct s as [w|kvs]; [discriminate|]. destruct (sget kvs "Schedule") as [[w|steps]|] eqn:G1; [discriminate| |discriminate].
  destruct (sget steps k) as [[w|step]|] eqn:G2; [discriminate| |discriminate]. eauto 6.
Qed.
Lemma names_kept s names k key v s' : distinct s -> steps_are s names -> In k names -> set_keys ("Schedule" :: k :: key)%string v s = Ok s' -> steps_are s' names.
Proof.
  intros D (kvs & steps & -> & I & ->) IK H. inversion D as [|? ND F]; subst. apply (sget_in _ _ _ ND) in I as G. cbn [set_keys] in H. rewrite G in H.
  destruct (set_keys key v _) as [m|]; [|discriminate]. cbn [bind] in H. injection H as <-.
  exists (sset kvs "Schedule" (Dict (sset steps k m))), (sset steps k m). split; [reflexivity|]. split.
  - apply sget_in; [|rewrite sget_sset; reflexivity]. rewrite sset_keys. unfold smem, d_mem. unfold sget in G. rewrite G. exact ND.
  - rewrite sset_keys. apply smem_in in IK. rewrite IK. reflexivity.
Qed.
Definition setting_of (k key value : string) (p : list string) (v : string) : Prop := p = ["Schedule"; k; key]%string /\ v = value.
Lemma set_step s label names k key value : distinct s -> steps_are s names -> avoids ["."]%char k -> avoids ["."]%char key -> In k names -> labelled s label k ->
  exists s', set_path ("Schedule." ++ k ++ "." ++ key) (Leaf value) s = Ok s' /\ distinct s' /\ steps_are s' names /\ updates s (setting_of k key value) s'.
Proof.
  intros D SA AK AY IK L. unfold set_path. rewrite (split2 k key AK AY). destruct (step_of _ _ _ D L) as (kvs & steps & step & -> & G1 & G2).
  assert (exists s', set_keys ["Schedule"; k; key]%string (Leaf value) (Dict kvs) = Ok s') as [s' E].
  { cbn. rewrite G1, G2. cbn. eauto. }
  exists s'. split; [exact E|]. split; [eapply set_distinct; [exact D|constructor|exact E]|]. split; [eapply names_kept; eauto|]. apply set_updates; assumption.
Qed.
(** other steps keep their labels *)
Lemma labels_kept s new s' label k : updates s new s' -> (forall q w r, new q w -> ["Schedule"; k; "m_szLabel"]%string <> q ++ r) -> (labelled s' label k <-> labelled s label k).
Proof.
  intros U N. unfold labelled. rewrite (U _ _). split.
  - intros [H|[H _]]; [|exact H]. destruct (N _ _ [] H). rewrite app_nil_r. reflexivity.
  - intro H. right. split; [exact H|]. intros (q & r & w & X & Y). exact (N q w r X Y).
Qed.
Lemma label_loop_all label key value names : plain_names names -> avoids ["."]%char key -> forall ks s, distinct s -> steps_are s names -> NoDup ks -> incl ks names ->
  exists s', label_loop label key value false ks s = Ok s' /\ distinct s' /\ steps_are s' names /\
    updates s (fun p v => exists k, In k ks /\ labelled s label k /\ setting_of k key value p v) s'.
Proof.
  intros PN AY. induction ks as [|k ks IH]; intros s D SA ND IN.
  - exists s. split; [reflexivity|]. split; [exact D|]. split; [exact SA|]. eapply updates_ext; [apply updates_none|]. intros p v. split; [intros []|intros (k & [] & _)].
  - assert (IK : In k names) by (apply IN; left; reflexivity). assert (AK : avoids ["."]%char k) by (unfold plain_names in PN; rewrite Forall_forall in PN; auto).
    inversion ND as [|? ? NI NDs]; subst. assert (IN2 : incl ks names) by (intros x I; apply IN; right; exact I). cbn [label_loop].
    destruct (has_label s label k) eqn:HL.
    + apply (has_label_iff s label k D AK) in HL. destruct (set_step s label names k key value D SA AK AY IK HL) as (s1 & -> & D1 & SA1 & U1). cbn [bind].
      destruct (IH s1 D1 SA1 NDs IN2) as (s' & E & D' & SA' & U'). exists s'. split; [exact E|]. split; [exact D'|]. split; [exact SA'|].
      assert (LK : forall j, In j ks -> (labelled s1 label j <-> labelled s label j)).
      { intros j I. apply (labels_kept _ _ _ label j U1). intros q w r [-> _] X. cbn in X. injection X as X _. congruence. }
      eapply updates_ext.
      * eapply (updates_then _ _ _ _ _ U1 U'). intros p v q w r [-> _] (j & I & L & -> & _) X. cbn in X. injection X as X. congruence.
      * intros p v. split.
        -- intros [H|(j & I & L & H)]; [exists k; split; [left; reflexivity|]; auto|]. exists j. split; [right; exact I|]. split; [apply LK; auto|exact H].
        -- intros (j & [<-|I] & L & H); [left; exact H|right]. exists j. split; [exact I|]. split; [apply LK; auto|exact H].
    + assert (NL : ~ labelled s label k). { intro X. apply (has_label_iff s label k D AK) in X. congruence. }
      destruct (IH s D SA NDs IN2) as (s' & E & D' & SA' & U'). exists s'. split; [exact E|]. split; [exact D'|]. split; [exact SA'|].
      eapply updates_ext; [exact U'|]. intros p v. split; intros (j & I & L & H); exists j; [split; [right; exact I|auto]|]. destruct I as [<-|I]; [destruct (NL L)|auto].
Qed.
Lemma label_loop_first label key value names : plain_names names -> avoids ["."]%char key -> forall ks s, distinct s -> steps_are s names -> incl ks names ->
  exists s', label_loop label key value true ks s = Ok s' /\ distinct s' /\ steps_are s' names /\
    updates s (fun p v => exists k, first_labelled s ks label k /\ setting_of k key value p v) s'.
Proof.
  intros PN AY. induction ks as [|k ks IH]; intros s D SA IN.
  - exists s. split; [reflexivity|]. split; [exact D|]. split; [exact SA|]. eapply updates_ext; [apply updates_none|]. intros p v. split; [intros []|].
    intros (k & (a & b & X & _) & _). destruct a; discriminate X.
  - assert (IK : In k names) by (apply IN; left; reflexivity). assert (AK : avoids ["."]%char k) by (unfold plain_names in PN; rewrite Forall_forall in PN; auto).
    assert (IN2 : incl ks names) by (intros x I; apply IN; right; exact I). cbn [label_loop].
    destruct (has_label s label k) eqn:HL.
    + apply (has_label_iff s label k D AK) in HL. destruct (set_step s label names k key value D SA AK AY IK HL) as (s1 & -> & D1 & SA1 & U1). cbn [bind].
      exists s1. split; [reflexivity|]. split; [exact D1|]. split; [exact SA1|]. eapply updates_ext; [exact U1|]. intros p v. split.
      * intro H. exists k. split; [|exact H]. exists [], ks. split; [reflexivity|]. split; [exact HL|]. intros j [].
      * intros (j & (a & b & X & L & N) & H). destruct a as [|x a]; cbn in X; injection X as <- X; [exact H|]. destruct (N k (or_introl eq_refl) HL).
    + assert (NL : ~ labelled s label k). { intro X. apply (has_label_iff s label k D AK) in X. congruence. }
      destruct (IH s D SA IN2) as (s' & E & D' & SA' & U'). exists s'. split; [exact E|]. split; [exact D'|]. split; [exact SA'|].
      eapply updates_ext; [exact U'|]. intros p v. split; intros (j & (a & b & X & L & N) & H); exists j; (split; [|exact H]).
      * exists (k :: a), b. split; [cbn; congruence|]. split; [exact L|]. intros x [<-|I]; [exact NL|apply N; exact I].
      * destruct a as [|x a]; cbn in X; injection X as <- X; [destruct (NL L)|]. exists a, b. split; [exact X|]. split; [exact L|]. intros y I. apply N. right. exact I.
Qed.
Lemma keys_of s names : distinct s -> steps_are s names -> schedule_keys s = Ok names /\ NoDup names.
Proof.
  intros D (kvs & steps & -> & I & ->). inversion D as [|? ND F]; subst. apply (sget_in _ _ _ ND) in I as G. unfold schedule_keys. rewrite G. split; [reflexivity|].
  rewrite Forall_forall in F. specialize (F _ I). cbn in F. inversion F; subst. assumption.
Qed.
Theorem set_all_labelled s names label key value : distinct s -> steps_are s names -> plain_names names -> avoids ["."]%char key ->
  exists s', set_labelled_steps s label key value false = Ok s' /\ distinct s' /\ steps_are s' names /\
    updates s (fun p v => exists k, labelled s label k /\ p = ["Schedule"; k; key]%string /\ v = value) s'.
Proof.
  intros D SA PN AY. destruct (keys_of s names D SA) as [K ND]. unfold set_labelled_steps. rewrite K. cbn [bind].
  destruct (label_loop_all label key value names PN AY names s D SA ND (incl_refl _)) as (s' & E & D' & SA' & U). exists s'. split; [exact E|]. split; [exact D'|]. split; [exact SA'|].
  eapply updates_ext; [exact U|]. intros p v. split; [intros (k & _ & L & H); exists k; auto|]. intros (k & L & H). exists k. split; [|auto].
  destruct SA as (kvs & steps & -> & I & ->). destruct (step_of _ _ _ D L) as (kvs' & steps' & step & EQ & G1 & G2). injection EQ as <-. inversion D as [|? NDk _]; subst.
  apply (sget_in _ _ _ NDk) in I. rewrite I in G1. injection G1 as <-. apply smem_in. unfold smem, d_mem. unfold sget in G2. rewrite G2. reflexivity.
Qed.
Theorem set_first_labelled s names label key value : distinct s -> steps_are s names -> plain_names names -> avoids ["."]%char key ->
  exists s', set_labelled_steps s label key value true = Ok s' /\ distinct s' /\ steps_are s' names /\
    updates s (fun p v => exists k, first_labelled s names label k /\ p = ["Schedule"; k; key]%string /\ v = value) s'.
Proof.
  intros D SA PN AY. destruct (keys_of s names D SA) as [K ND]. unfold set_labelled_steps. rewrite K. cbn [bind].
  exact (label_loop_first label key value names PN AY names s D SA (incl_refl _)).
Qed.

(** ** Limits by label *)
Lemma distinct_get : forall p n m, distinct n -> get_keys p n = Some m -> distinct m.
Proof.
  induction p as [|k p IH]; intros n m D H; cbn in H; [injection H as <-; exact D|]. destruct n as [w|kvs]; [discriminate|]. inversion D as [|? ND F]; subst.
  destruct (sget kvs k) as [x|] eqn:G; [|discriminate]. apply (sget_in _ _ _ ND) in G. rewrite Forall_forall in F. exact (IH x m (F _ G) H).
Qed.
Lemma limit_section_iff s k l sub : distinct s -> (limit_section s k l sub <-> String.prefix "Limit" l = true /\ get_keys ["Schedule"; k; l]%string s = Some (Dict sub)).
Proof.
  intro D. unfold limit_section. split; intros [P H]; (split; [exact P|]).
  - destruct H as (kvs & steps & step & -> & I1 & I2 & I3). inversion D as [|? ND F]; subst. rewrite Forall_forall in F. pose proof (F _ I1) as D1. cbn in D1.
    inversion D1 as [|? ND1 F1]; subst. rewrite Forall_forall in F1. pose proof (F1 _ I2) as D2. inversion D2 as [|? ND2 F2]; subst.
    apply (sget_in _ _ _ ND) in I1. apply (sget_in _ _ _ ND1) in I2. apply (sget_in _ _ _ ND2) in I3. cbn. rewrite I1, I2, I3. reflexivity.
  - cbn in H. destruct s as [w|kvs]; [discriminate|]. destruct (sget kvs "Schedule") as [[w|steps]|] eqn:G1; try discriminate. destruct (sget steps k) as [[w|step]|] eqn:G2; try discriminate.
    destruct (sget step l) as [x|] eqn:G3; [|discriminate]. injection H as ->. inversion D as [|? ND F]; subst. rewrite Forall_forall in F. apply (sget_in _ _ _ ND) in G1.
    pose proof (F _ G1) as D1. inversion D1 as [|? ND1 F1]; subst. rewrite Forall_forall in F1. apply (sget_in _ _ _ ND1) in G2. pose proof (F1 _ G2) as D2. inversion D2 as [|? ND2 F2]; subst.
    apply (sget_in _ _ _ ND2) in G3. exists kvs, steps, step. auto.
Qed.
Definition signs : string := "Equation0_szCompareSign".
Definition rights : string := "Equation0_szRight".
Definition limit_setting (k l comp value : string) (p : list string) (v : string) : Prop :=
  (p = ["Schedule"; k; l; signs]%string /\ v = comp) \/ (p = ["Schedule"; k; l; rights]%string /\ v = value).
Lemma literal_avoids s : forallb (fun c => negb (Ascii.eqb c ".")) (list_ascii_of_string s) = true -> avoids ["."]%char s.
Proof. intros H c I [<-|[]]. rewrite forallb_forall in H. apply H in I. discriminate I. Qed.
Lemma apart_extend p r q : apart p q -> apart (p ++ r) q.
Proof.
  intros [A B]. split; intros t Y.
  - apply (A (r ++ t)). rewrite Y, app_assoc. reflexivity.
  - apply app_eq_app in Y. destruct Y as (l & [[Y _]|[Y _]]); [exact (B l Y)|exact (A l Y)].
Qed.
Lemma set_in_limit s names k l x v sub : distinct s -> steps_are s names -> In k names -> get_keys ["Schedule"; k; l]%string s = Some (Dict sub) ->
  avoids ["."]%char k -> avoids ["."]%char l -> avoids ["."]%char x ->
  exists s', set_path ("Schedule." ++ k ++ "." ++ l ++ "." ++ x) (Leaf v) s = Ok s' /\ distinct s' /\ steps_are s' names /\
    updates s (fun p w => p = ["Schedule"; k; l; x]%string /\ w = v) s' /\ (exists sub', get_keys ["Schedule"; k; l]%string s' = Some (Dict sub')) /\
    (forall q, apart ["Schedule"; k; l]%string q -> get_keys q s' = get_keys q s).
Proof.
  intros D SA IK G AK AL AX. unfold set_path. rewrite (split3 k l x AK AL AX).
  assert (exists s', set_keys ["Schedule"; k; l; x]%string (Leaf v) s = Ok s') as [s' E].
  { cbn in G |- *. destruct s as [w|kvs]; [discriminate|]. destruct (sget kvs "Schedule") as [[w|steps]|]; try discriminate. destruct (sget steps k) as [[w|step]|]; try discriminate.
    destruct (sget step l) as [y|]; [|discriminate]. injection G as ->. cbn. eauto. }
  exists s'. split; [exact E|]. split; [eapply set_distinct; [exact D|constructor|exact E]|]. split; [eapply names_kept; eauto|]. split; [apply set_updates; assumption|]. split.
  - assert (X : get_keys (["Schedule"; k; l; x]%string ++ []) s' = Some (Leaf v)) by (rewrite (get_set_below _ [] _ _ _ E); reflexivity).
    change (["Schedule"; k; l; x]%string ++ []) with (["Schedule"; k; l]%string ++ [x]) in X. rewrite get_app in X.
    destruct (get_keys ["Schedule"; k; l]%string s') as [[w|d]|]; [discriminate| |discriminate]. eauto.
  - intros q AP. eapply get_set_apart; [exact E|]. apply (apart_extend _ [x] _ AP).
Qed.
Definition limit_ready (s : node) (k l : string) : Prop :=
  avoids ["."]%char l /\ exists sub, get_keys ["Schedule"; k; l]%string s = Some (Dict sub) /\
    (exists v, sget sub "m_bStepLimit" = Some (Leaf v)) /\ (sget sub "m_bStepLimit" = Some (Leaf "1"%string) -> exists v, sget sub "Equation0_szLeft" = Some (Leaf v)).
Lemma limit_holds s k l sub x v : distinct s -> get_keys ["Schedule"; k; l]%string s = Some (Dict sub) -> (sget sub x = Some (Leaf v) <-> holds s ["Schedule"; k; l; x]%string v).
Proof.
  intros D G. rewrite (holds_get _ _ _ D). change ["Schedule"; k; l; x]%string with (["Schedule"; k; l]%string ++ [x]). rewrite get_app, G. cbn.
  destruct (sget sub x); split; intro H; congruence.
Qed.
Lemma get_prefix k l s sub : get_keys ["Schedule"; k; l]%string s = Some (Dict sub) -> exists d, get_keys ["Schedule"; k]%string s = Some (Dict d) /\ sget d l = Some (Dict sub).
Proof.
  change ["Schedule"; k; l]%string with (["Schedule"; k]%string ++ [l]). rewrite get_app. destruct (get_keys ["Schedule"; k]%string s) as [[w|d]|]; [discriminate| |discriminate].
  cbn. intro H. exists d. split; [reflexivity|]. destruct (sget d l); congruence.
Qed.
Lemma limit_loop_ok k var comp value names : avoids ["."]%char k -> In k names -> forall ls s, distinct s -> steps_are s names -> NoDup ls -> (forall l, In l ls -> limit_ready s k l) ->
  exists s', limit_loop k var comp value ls s = Ok s' /\ distinct s' /\ steps_are s' names /\
    updates s (fun p v => exists l, In l ls /\ holds s ["Schedule"; k; l; "m_bStepLimit"]%string "1" /\ holds s ["Schedule"; k; l; "Equation0_szLeft"]%string var /\ limit_setting k l comp value p v) s' /\
    (forall q, (forall l, In l ls -> apart ["Schedule"; k; l]%string q) -> get_keys q s' = get_keys q s).
Proof.
  intros AK IK. induction ls as [|l ls IH]; intros s D SA ND RD.
  - exists s. split; [reflexivity|]. split; [exact D|]. split; [exact SA|]. split; [|auto]. eapply updates_ext; [apply updates_none|]. intros p v. split; [intros []|intros (x & [] & _)].
  - inversion ND as [|? ? NI NDs]; subst. destruct (RD l (or_introl eq_refl)) as (AL & sub & G & (flag & FL) & LF). destruct (get_prefix _ _ _ _ G) as (d & GD & GL).
    cbn [limit_loop]. unfold get_path at 1. rewrite (split1 k AK), GD, GL, FL. unfold leaf_is at 1. 
    assert (SKIP : ~ (holds s ["Schedule"; k; l; "m_bStepLimit"]%string "1" /\ holds s ["Schedule"; k; l; "Equation0_szLeft"]%string var) ->
      exists s', limit_loop k var comp value ls s = Ok s' /\ distinct s' /\ steps_are s' names /\
      updates s (fun p v => exists l0, In l0 (l :: ls) /\ holds s ["Schedule"; k; l0; "m_bStepLimit"]%string "1" /\ holds s ["Schedule"; k; l0; "Equation0_szLeft"]%string var /\ limit_setting k l0 comp value p v) s' /\
      (forall q, (forall l0, In l0 (l :: ls) -> apart ["Schedule"; k; l0]%string q) -> get_keys q s' = get_keys q s)).
    { intro NH. destruct (IH s D SA NDs (fun x I => RD x (or_intror I))) as (s' & E & D' & SA' & U & FR). exists s'. repeat (split; [assumption|]). split.
      - eapply updates_ext; [exact U|]. intros p v. split; intros (x & I & H1 & H2 & H3); exists x; [cbn; auto|]. destruct I as [<-|I]; [destruct NH; auto|auto].
      - intros q H. apply FR. intros x I. apply H. right. exact I. }
    destruct (String.eqb_spec flag "1") as [->|NF].
    + destruct (LF FL) as (left_ & LE). rewrite LE. unfold leaf_is at 1. destruct (String.eqb_spec left_ var) as [->|NV].
      * change ("Schedule." ++ k ++ "." ++ l ++ ".Equation0_szCompareSign")%string with ("Schedule." ++ k ++ "." ++ l ++ "." ++ signs)%string.
        change ("Schedule." ++ k ++ "." ++ l ++ ".Equation0_szRight")%string with ("Schedule." ++ k ++ "." ++ l ++ "." ++ rights)%string.
        destruct (set_in_limit s names k l signs comp sub D SA IK G AK AL) as (s1 & -> & D1 & SA1 & U1 & (sub1 & G1) & FR1); [apply literal_avoids; reflexivity|]. cbn [bind].
        destruct (set_in_limit s1 names k l rights value sub1 D1 SA1 IK G1 AK AL) as (s2 & -> & D2 & SA2 & U2 & _ & FR2); [apply literal_avoids; reflexivity|]. cbn [bind].
        assert (OTHER : forall l0, l0 <> l -> apart ["Schedule"; k; l]%string ["Schedule"; k; l0]%string).
        { intros l0 NE. split; intros r X; cbn in X; injection X as X _; congruence. }
        assert (G2 : forall l0, l0 <> l -> forall r, get_keys (["Schedule"; k; l0]%string ++ r) s2 = get_keys (["Schedule"; k; l0]%string ++ r) s).
        { intros l0 NE r. rewrite !get_app. rewrite FR2, FR1 by (apply OTHER; exact NE). reflexivity. }
        assert (H2 : forall l0 x w, l0 <> l -> (holds s2 ["Schedule"; k; l0; x]%string w <-> holds s ["Schedule"; k; l0; x]%string w)).
        { intros l0 x w NE. rewrite (holds_get _ _ _ D2), (holds_get _ _ _ D). pose proof (G2 l0 NE [x]) as X. cbn [app] in X. rewrite X. reflexivity. }
        assert (RD2 : forall l0, In l0 ls -> limit_ready s2 k l0).
        { intros l0 I. destruct (RD l0 (or_intror I)) as (A0 & sub0 & G0 & R0). split; [exact A0|]. exists sub0. split; [|exact R0].
          pose proof (G2 l0 ltac:(congruence) []) as X. rewrite app_nil_r in X. rewrite X. exact G0. }
        destruct (IH s2 D2 SA2 NDs RD2) as (s' & E & D' & SA' & U & FR). exists s'. repeat (split; [assumption|]). split.
        -- assert (U12 : updates s (limit_setting k l comp value) s2).
           { eapply updates_ext; [eapply (updates_then _ _ _ _ _ U1 U2)|].
             - intros p v q w r [-> _] [-> _] X. discriminate X.
             - intros p v. unfold limit_setting. tauto. }
           eapply updates_ext; [eapply (updates_then _ _ _ _ _ U12 U)|].
           ++ intros p v q w r L1 (l0 & I & _ & _ & L2) X. assert (l0 = l); [|congruence].
              destruct L1 as [[-> _]|[-> _]], L2 as [[-> _]|[-> _]]; cbn in X; injection X; intros; congruence.
           ++ intros p v. split.
              ** intros [H|(l0 & I & X1 & X2 & X3)].
                 --- exists l. split; [left; reflexivity|]. split; [apply (limit_holds s k l sub _ _ D G); exact FL|]. split; [apply (limit_holds s k l sub _ _ D G); exact LE|exact H].
                 --- assert (NE : l0 <> l) by congruence. exists l0. split; [right; exact I|]. split; [apply H2; assumption|]. split; [apply H2; assumption|exact X3].
              ** intros (l0 & [<-|I] & X1 & X2 & X3); [left; exact X3|right]. assert (NE : l0 <> l) by congruence.
                 exists l0. split; [exact I|]. split; [apply H2; assumption|]. split; [apply H2; assumption|exact X3].
        -- intros q H. rewrite FR by (intros x I; apply H; right; exact I). rewrite FR2, FR1 by (apply H; left; reflexivity). reflexivity.
      * apply SKIP. intros [_ X]. apply (limit_holds s k l sub _ _ D G) in X. congruence.
    + apply SKIP. intros [X _]. apply (limit_holds s k l sub _ _ D G) in X. congruence.
Qed.
(** the headings that start with Limit are the limits *)
Lemma prefix_limit l h : String.prefix "Limit" (l ++ "." ++ h) = true -> String.prefix "Limit" l = true.
Proof.
  destruct l as [|a [|b [|c [|d [|e l]]]]]; cbn; repeat match goal with |- context [if ?x then _ else _] => destruct x end; try discriminate; auto;
  match goal with |- match ?s with _ => _ end = true => destruct s; reflexivity | _ => idtac end.
  all: try (destruct l; reflexivity).
Qed.
Lemma limit_headings step : NoDup (map fst step) ->
  (forall l sub, In (l, Dict sub) step -> String.prefix "Limit" l = true -> forall x n, In (x, n) sub -> exists v, n = Leaf v) ->
  NoDup (filter (String.prefix "Limit") (get_headings (Dict step))) /\
  (forall l, In l (filter (String.prefix "Limit") (get_headings (Dict step))) <-> String.prefix "Limit" l = true /\ exists sub, In (l, Dict sub) step).
Proof.
  intros ND FL. cbn [get_headings].
  assert (FLAT : forall sub, (forall x n, In (x, n) sub -> exists v, n = Leaf v) -> get_headings (Dict sub) = []).
  { clear. induction sub as [|[x n] sub IH]; intro H; [reflexivity|]. destruct (H x n) as (v & ->); [left; reflexivity|]. cbn. apply IH. intros y m I. eapply H. right. exact I. }
  induction step as [|[k b] step IH]; [cbn; split; [constructor|intro l; split; [intros []|intros [_ (sub & [])]]]|].
  inversion ND as [|? ? NI NDs]; subst. destruct (IH NDs) as [N1 I1]. { intros l sub I. apply FL. right. exact I. }
  rewrite filter_app. destruct b as [v|sub].
  - cbn [filter app]. split; [exact N1|]. intro l. rewrite I1. split; intros [P (s & I)]; (split; [exact P|]); exists s; [right; exact I|]. destruct I as [X|I]; [discriminate X|exact I].
  - assert (E : filter (String.prefix "Limit") (k :: map (fun h => (k ++ "." ++ h)%string) (get_headings (Dict sub))) = if String.prefix "Limit" k then [k] else []).
    { destruct (String.prefix "Limit" k) eqn:P; cbn [filter]; rewrite P.
      - rewrite FLAT; [reflexivity|]. apply (FL k); [left; reflexivity|exact P].
      - generalize (get_headings (Dict sub)) as hs. clear -P. induction hs as [|h hs IHh]; [reflexivity|]. cbn [map filter].
        destruct (String.prefix "Limit" (k ++ "." ++ h)) eqn:X; [apply prefix_limit in X; congruence|exact IHh]. }
    rewrite E. clear E. split.
    + destruct (String.prefix "Limit" k) eqn:P; [|exact N1]. cbn [app]. constructor; [|exact N1]. intro X. apply I1 in X. destruct X as [_ (s & X)]. apply NI.
      apply in_map_iff. exists (k, Dict s). auto.
    + intro l. rewrite in_app_iff, I1. split.
      * intros [X|[P (s & I)]].
        -- destruct (String.prefix "Limit" k) eqn:P; [|destruct X]. destruct X as [<-|[]]. split; [exact P|]. exists sub. left. reflexivity.
        -- split; [exact P|]. exists s. right. exact I.
      * intros [P (s & [X|I])]; [|right; eauto]. injection X as -> ->. left. rewrite P. left. reflexivity.
Qed.
Lemma complete_ready s k : distinct s -> limits_complete s k -> forall l sub, limit_section s k l sub -> limit_ready s k l.
Proof.
  intros D LC l sub LS. destruct (LC l sub LS) as (AL & FL & (v & V) & LF). apply (limit_section_iff s k l sub D) in LS. destruct LS as [P G].
  pose proof (distinct_get _ _ _ D G) as DS. inversion DS as [|? NDs _]; subst. split; [exact AL|]. exists sub. split; [exact G|]. split.
  - exists v. apply (sget_in _ _ _ NDs). exact V.
  - intro X. apply (sget_in _ _ _ NDs) in X. destruct (LF X) as (w & W). exists w. apply (sget_in _ _ _ NDs). exact W.
Qed.
(** a schedule that agrees on a step *)
Definition same_step (s s' : node) (k : string) : Prop := forall r, get_keys ("Schedule" :: k :: r)%string s' = get_keys ("Schedule" :: k :: r)%string s.
Lemma same_labelled s s' k label : distinct s -> distinct s' -> same_step s s' k -> (labelled s' label k <-> labelled s label k).
Proof. intros D D' H. unfold labelled. rewrite (holds_get _ _ _ D), (holds_get _ _ _ D'), (H _). reflexivity. Qed.
Lemma same_complete s s' k : distinct s -> distinct s' -> same_step s s' k -> limits_complete s k -> limits_complete s' k.
Proof.
  intros D D' H LC l sub LS. apply LC. apply (limit_section_iff s k l sub D). apply (limit_section_iff s' k l sub D') in LS. rewrite (H _) in LS. exact LS.
Qed.
Lemma same_stops s s' k l var : distinct s -> distinct s' -> same_step s s' k -> (stops_on s' k l var <-> stops_on s k l var).
Proof. intros D D' H. unfold stops_on. rewrite !(holds_get _ _ _ D), !(holds_get _ _ _ D'), !(H _). reflexivity. Qed.
Lemma limits_loop_ok label var comp value names : plain_names names -> forall ks s, distinct s -> steps_are s names -> NoDup ks -> incl ks names ->
  (forall k, In k ks -> labelled s label k -> limits_complete s k) ->
  exists s', limits_loop label var comp value ks s = Ok s' /\ distinct s' /\ steps_are s' names /\
    updates s (fun p v => exists k l, In k ks /\ labelled s label k /\ stops_on s k l var /\ limit_setting k l comp value p v) s' /\
    (forall q, (forall k l, In k ks -> labelled s label k -> String.prefix "Limit" l = true -> apart ["Schedule"; k; l]%string q) -> get_keys q s' = get_keys q s).
Proof.
  intro PN. induction ks as [|k ks IH]; intros s D SA ND IN LC.
  - exists s. split; [reflexivity|]. split; [exact D|]. split; [exact SA|]. split; [|auto]. eapply updates_ext; [apply updates_none|]. intros p v. split; [intros []|intros (k & l & [] & _)].
  - assert (IK : In k names) by (apply IN; left; reflexivity). assert (AK : avoids ["."]%char k) by (unfold plain_names in PN; rewrite Forall_forall in PN; auto).
    inversion ND as [|? ? NI NDs]; subst. assert (IN2 : incl ks names) by (intros x I; apply IN; right; exact I). cbn [limits_loop].
    destruct (has_label s label k) eqn:HL.
    + apply (has_label_iff s label k D AK) in HL. destruct (step_of _ _ _ D HL) as (kvs & steps & step & ES & G1 & G2).
      assert (GK : get_keys ["Schedule"; k]%string s = Some (Dict step)) by (subst s; cbn; rewrite G1, G2; reflexivity).
      unfold get_path at 1. rewrite (split1 k AK), GK. pose proof (distinct_get _ _ _ D GK) as DS. assert (NDp : NoDup (map fst step)) by (inversion DS; assumption).
      assert (LS : forall l sub, In (l, Dict sub) step -> String.prefix "Limit" l = true -> limit_section s k l sub).
      { intros l sub I P. apply (limit_section_iff s k l sub D). split; [exact P|]. change ["Schedule"; k; l]%string with (["Schedule"; k]%string ++ [l]). rewrite get_app, GK. cbn.
        apply (sget_in _ _ _ NDp) in I. rewrite I. reflexivity. }
      pose proof (LC k (or_introl eq_refl) HL) as LCK.
      destruct (limit_headings step NDp) as [NDh INh]. { intros l sub I P. destruct (LCK l sub (LS l sub I P)) as (_ & X & _). exact X. }
      set (ls := filter (String.prefix "Limit") (get_headings (Dict step))) in *.
      destruct (limit_loop_ok k var comp value names AK IK ls s D SA NDh) as (s1 & -> & D1 & SA1 & U1 & FR1).
      { intros l I. apply INh in I. destruct I as [P (sub & I)]. eapply complete_ready; eauto. }
      cbn [bind].
      assert (SM : forall j, j <> k -> same_step s s1 j).
      { intros j NE r. apply FR1. intros l _. split; intros t X; cbn in X; injection X; intros; congruence. }
      destruct (IH s1 D1 SA1 NDs IN2) as (s' & E & D' & SA' & U' & FR').
      { intros j I L. assert (NE : j <> k) by congruence. apply (same_complete s s1 j D D1 (SM j NE)). apply LC; [right; exact I|]. apply (same_labelled s s1 j label D D1 (SM j NE)). exact L. }
      exists s'. repeat (split; [assumption|]). split.
      * eapply updates_ext; [eapply (updates_then _ _ _ _ _ U1 U')|].
        -- intros p v q w r (l & _ & _ & _ & X1) (j & l' & I & _ & _ & X2) X. assert (j = k); [|congruence].
           destruct X1 as [[-> _]|[-> _]], X2 as [[-> _]|[-> _]]; cbn in X; injection X; intros; congruence.
        -- intros p v. split.
           ++ intros [(l & I & H1 & H2 & H3)|(j & l & I & L & ST & H3)].
              ** exists k, l. split; [left; reflexivity|]. split; [exact HL|]. split; [|exact H3]. split; [apply INh in I; apply I|]. split; assumption.
              ** assert (NE : j <> k) by congruence. exists j, l. split; [right; exact I|]. split; [apply (same_labelled s s1 j label D D1 (SM j NE)); exact L|].
                 split; [apply (same_stops s s1 j l var D D1 (SM j NE)); exact ST|exact H3].
           ++ intros (j & l & [<-|I] & L & ST & H3).
              ** left. exists l. destruct ST as (P & H1 & H2). split; [|auto]. apply INh. split; [exact P|].
                 apply (holds_get _ _ _ D) in H1. change ["Schedule"; k; l; "m_bStepLimit"]%string with (["Schedule"; k]%string ++ [l; "m_bStepLimit"%string]) in H1. rewrite get_app, GK in H1. cbn in H1.
                 destruct (sget step l) as [[w|sub]|] eqn:GL; [discriminate| |discriminate]. exists sub. apply (sget_in _ _ _ NDp). exact GL.
              ** right. assert (NE : j <> k) by congruence. exists j, l. split; [exact I|]. split; [apply (same_labelled s s1 j label D D1 (SM j NE)); exact L|].
                 split; [apply (same_stops s s1 j l var D D1 (SM j NE)); exact ST|exact H3].
      * intros q H. rewrite FR'.
        -- apply FR1. intros l I. apply INh in I. apply H; [left; reflexivity|exact HL|apply I].
        -- intros j l I L P. apply H; [right; exact I| |exact P]. assert (NE : j <> k) by congruence. apply (same_labelled s s1 j label D D1 (SM j NE)). exact L.
    + assert (NL : ~ labelled s label k). { intro X. apply (has_label_iff s label k D AK) in X. congruence. }
      destruct (IH s D SA NDs IN2 (fun j I => LC j (or_intror I))) as (s' & E & D' & SA' & U' & FR'). exists s'. repeat (split; [assumption|]). split.
      * eapply updates_ext; [exact U'|]. intros p v. split; intros (j & l & I & L & H); exists j, l; [split; [right; exact I|auto]|]. destruct I as [<-|I]; [destruct (NL L)|auto].
      * intros q H. apply FR'. intros j l I. apply H. right. exact I.
Qed.
Lemma labelled_in s names label k : distinct s -> steps_are s names -> labelled s label k -> In k names.
Proof.
  intros D (kvs & steps & -> & I & ->) L. destruct (step_of _ _ _ D L) as (kvs' & steps' & step & EQ & G1 & G2). injection EQ as <-. inversion D as [|? NDk _]; subst.
  apply (sget_in _ _ _ NDk) in I. rewrite I in G1. injection G1 as <-. apply smem_in. unfold smem, d_mem. unfold sget in G2. rewrite G2. reflexivity.
Qed.
Theorem set_limits s names label var comp value : distinct s -> steps_are s names -> plain_names names -> (forall k, labelled s label k -> limits_complete s k) ->
  exists s', set_labelled_limits s label var comp value = Ok s' /\ distinct s' /\ steps_are s' names /\
    updates s (fun p v => exists k l, labelled s label k /\ stops_on s k l var /\
      (p = ["Schedule"; k; l; "Equation0_szCompareSign"]%string /\ v = comp \/ p = ["Schedule"; k; l; "Equation0_szRight"]%string /\ v = value)) s' /\
    (forall q, (forall k l, labelled s label k -> String.prefix "Limit" l = true -> apart ["Schedule"; k; l]%string q) -> get_keys q s' = get_keys q s).
Proof.
  intros D SA PN LC. destruct (keys_of s names D SA) as [K ND]. unfold set_labelled_limits. rewrite K. cbn [bind].
  destruct (limits_loop_ok label var comp value names PN names s D SA ND (incl_refl _) (fun k _ => LC k)) as (s' & E & D' & SA' & U & FR). exists s'. repeat (split; [assumption|]). split.
  - eapply updates_ext; [exact U|]. intros p v. split; [intros (k & l & _ & L & H); exists k, l; split; [exact L|exact H]|]. intros (k & l & L & H). exists k, l. split; [exact (labelled_in _ _ _ _ D SA L)|]. split; [exact L|exact H].
  - intros q H. apply FR. intros k l _ L P. apply H; assumption.
Qed.

(** ** Three decimals without trailing zeros *)
Lemma rstrip0_app a b : rstrip0 (a ++ b) = match rstrip0 b with EmptyString => rstrip0 a | t => (a ++ t)%string end.
Proof.
  induction a as [|c a IH]; cbn [append rstrip0]; [destruct (rstrip0 b); reflexivity|]. rewrite IH. destruct (rstrip0 b) as [|x t] eqn:E; [reflexivity|].
  destruct a; reflexivity.
Qed.
Lemma rstrip0_point a b t : rstrip0 (a ++ b ++ String "." t) = (a ++ b ++ String "." (rstrip0 t))%string.
Proof.
  rewrite <- !app_assoc_s, rstrip0_app. assert (E : rstrip0 (String "." t) = String "." (rstrip0 t)) by (cbn [rstrip0]; destruct (rstrip0 t); reflexivity).
  rewrite E. reflexivity.
Qed.
Lemma rstrip0_digits ds : Forall is_digit ds -> exists ds' n, ds = ds' ++ zeros n /\ rstrip0 (digits_text ds) = digits_text ds'.
Proof.
  intro F. induction F as [|d ds D F (ds' & n & E & R)]; [exists [], 0%nat; auto|]. cbn [digits_text rstrip0]. rewrite R. destruct ds' as [|x ds'].
  - cbn [digits_text]. cbn in E. destruct (Ascii.eqb_spec (digit_char d) "0") as [Z|NZ].
    + exists [], (S n). split; [|reflexivity]. cbn. f_equal; [|exact E]. unfold is_digit in D. do 10 (destruct d as [|d]; [reflexivity || discriminate Z|]). lia.
    + exists [d], n. split; [rewrite E; reflexivity|reflexivity].
  - exists (d :: x :: ds'), n. split; [rewrite E; reflexivity|reflexivity].
Qed.
Definition points (neg : bool) (ip fp : list nat) : Q := (if neg then -1 else 1) * inject_Z (place_value (ip ++ fp)) * (10 # 1) ^ (0 - Z.of_nat (length fp)).
Lemma point_decimal (neg : bool) ip fp : Forall is_digit ip -> Forall is_digit fp -> ip <> [] ->
  decimal ((if neg then "-" else "") ++ digits_text ip ++ "." ++ digits_text fp) (points neg ip fp).
Proof.
  intros F1 F2 NE. exists (if neg then "-" else "")%string, neg, ip, (digits_text ip), fp, ("." ++ digits_text fp)%string, 0%Z, ""%string.
  split; [rewrite app_nil_r_s; reflexivity|]. split; [destruct neg; [right|left]; auto|]. split; [apply written_iff; auto|]. split; [destruct ip; [congruence|discriminate]|].
  split; [right; exists (digits_text fp); split; [apply written_iff; auto|reflexivity]|]. split; [left; auto|reflexivity].
Qed.
Lemma denotes_fun t x y : denotes t x -> denotes t y -> x == y.
Proof. intros (l & P & E) (l' & P' & E'). rewrite P in P'. injection P' as <-. rewrite <- E, <- E'. reflexivity. Qed.
Lemma points_zeros neg ip fp n : points neg ip (fp ++ zeros n) == points neg ip fp.
Proof.
  unfold points. rewrite app_assoc, !place_is_val, digits_val_zeros_r, app_length, zeros_length.
  replace (0 - Z.of_nat (length fp + n))%Z with ((0 - Z.of_nat (length fp)) + (- Z.of_nat n))%Z by lia. rewrite Qpower_plus by discriminate.
  rewrite inject_Z_mult. assert (E : inject_Z (10 ^ Z.of_nat n) * (10 # 1) ^ (- Z.of_nat n) == 1).
  { rewrite Zpower_Qpower by lia. change (inject_Z 10) with (10 # 1). rewrite <- Qpower_plus by discriminate. rewrite Z.add_opp_diag_r. reflexivity. }
  transitivity ((if neg then -1 else 1) * inject_Z (digits_val (ip ++ fp)) * (10 # 1) ^ (0 - Z.of_nat (length fp)) * (inject_Z (10 ^ Z.of_nat n) * (10 # 1) ^ (- Z.of_nat n))); [ring|].
  rewrite E. ring.
Qed.
Lemma short3_near x : to_three_decimals (short3 x) x.
Proof.
  destruct (fmt3_near x) as (y & DY & NEAR). exists y. split; [|exact NEAR]. apply decimal_iff.
  unfold short3, fmt3, thousandths_text in *. set (z := round_even (x * 1000)) in *. cbv zeta in *.
  destruct (digits_of_spec (Z.abs z / 1000)) as (I1 & I2 & _); [apply Z.div_pos; lia|].
  destruct (digits_of_spec (Z.abs z mod 1000)) as (F1 & F2 & _); [apply Z.mod_pos_bound; lia|].
  assert (FP : Forall is_digit (pad3 (digits_of (Z.abs z mod 1000)))) by (apply Forall_app; split; [apply zeros_digit|exact F2]).
  set (ip := digits_of (Z.abs z / 1000)) in *. set (fp := pad3 (digits_of (Z.abs z mod 1000))) in *.
  destruct (rstrip0_digits fp FP) as (fp' & n & E & R).
  assert (S : rstrip0 ((if (z <? 0)%Z then "-" else "") ++ digits_text ip ++ "." ++ digits_text fp) = ((if (z <? 0)%Z then "-" else "") ++ digits_text ip ++ "." ++ digits_text fp')%string).
  { rewrite <- R. apply (rstrip0_point (if (z <? 0)%Z then "-" else "") (digits_text ip) (digits_text fp)). }
  rewrite S. pose proof (point_decimal (z <? 0)%Z ip fp I2 FP I1) as D1. apply decimal_iff in D1. pose proof (denotes_fun _ _ _ DY D1) as EQ.
  assert (FP' : Forall is_digit fp') by (rewrite E in FP; apply Forall_app in FP; apply FP).
  pose proof (point_decimal (z <? 0)%Z ip fp' I2 FP' I1) as D2. apply decimal_iff in D2. destruct D2 as (l & P & V). exists l. split; [exact P|].
  rewrite V, EQ, E. symmetry. apply points_zeros.
Qed.

(** ** Fast charge *)
Lemma label_loop_frame label key value first : avoids ["."]%char key -> forall ks s s', plain_names ks -> label_loop label key value first ks s = Ok s' ->
  forall q, (forall k, apart ["Schedule"; k; key]%string q) -> get_keys q s' = get_keys q s.
Proof.
  intros AY. induction ks as [|k ks IH]; intros s s' PN H q AP; cbn [label_loop] in H; [injection H as <-; reflexivity|]. inversion PN as [|? ? AK PN']; subst.
  destruct (has_label s label k); [|exact (IH s s' PN' H q AP)]. unfold set_path in H.
  rewrite (split2 k key AK AY) in H.
  destruct (set_keys ["Schedule"; k; key]%string (Leaf value) s) as [s1|] eqn:E; [|discriminate]. cbn [bind] in H.
  pose proof (get_set_apart _ q _ _ _ E (AP k)) as F. destruct first; [injection H as <-; exact F|]. rewrite (IH s1 s' PN' H q AP). exact F.
Qed.
Lemma first_same s s' names label : (forall k, labelled s' label k <-> labelled s label k) -> forall k, first_labelled s' names label k <-> first_labelled s names label k.
Proof.
  intros H k. split; intros (a & b & E & L & N); exists a, b; (split; [exact E|]); (split; [apply H; exact L|]); intros j I X; apply (N j I); apply H; exact X.
Qed.
Definition ctrl : string := "m_szCtrlValue".
Theorem fast_charge s names cc1 cap cc2 : distinct s -> steps_are s names -> plain_names names -> (forall k, labelled s "CC1" k -> limits_complete s k) ->
  exists s' t1 t2 t3, from_fast_charge cc1 cap cc2 s = Ok s' /\ steps_are s' names /\ to_three_decimals t1 cc1 /\ to_three_decimals t2 cap /\ to_three_decimals t3 cc2 /\
    updates s (fun p v =>
      (exists k, first_labelled s names "CC1" k /\ p = ["Schedule"; k; "m_szCtrlValue"]%string /\ v = t1) \/
      (exists k l, labelled s "CC1" k /\ stops_on s k l "PV_CHAN_Charge_Capacity" /\
         (p = ["Schedule"; k; l; "Equation0_szCompareSign"]%string /\ v = ">"%string \/ p = ["Schedule"; k; l; "Equation0_szRight"]%string /\ v = t2)) \/
      (exists k, first_labelled s names "CC2" k /\ p = ["Schedule"; k; "m_szCtrlValue"]%string /\ v = t3)) s'.
Proof.
  intros D SA PN LC. unfold from_fast_charge. assert (AC : avoids ["."]%char ctrl) by (apply literal_avoids; reflexivity).
  destruct (set_first_labelled s names "CC1" ctrl (short3 cc1) D SA PN AC) as (s1 & E1 & D1 & SA1 & U1). fold ctrl. rewrite E1. cbn [bind].
  assert (FR : forall k l, String.prefix "Limit" l = true -> forall r, get_keys ("Schedule" :: k :: l :: r)%string s1 = get_keys ("Schedule" :: k :: l :: r)%string s).
  { intros k l P r. unfold set_labelled_steps in E1. destruct (keys_of s names D SA) as [K _]. rewrite K in E1. cbn [bind] in E1.
    apply (label_loop_frame _ _ _ _ AC _ _ _ PN E1). intro j. split; intros t X; cbn in X; injection X; intros; subst; discriminate P. }
  assert (LB1 : forall label k, labelled s1 label k <-> labelled s label k).
  { intros label k. apply (labels_kept _ _ _ label k U1). intros q w r (j & _ & -> & _) X. cbn in X. injection X. discriminate. }
  assert (LC1 : forall k, labelled s1 "CC1" k -> limits_complete s1 k).
  { intros k L l sub LS. apply LB1 in L. apply (LC k L). apply (limit_section_iff s1 k l sub D1) in LS. apply (limit_section_iff s k l sub D). destruct LS as [P G].
    split; [exact P|]. rewrite (FR k l P []) in G. exact G. }
  destruct (set_limits s1 names "CC1" "PV_CHAN_Charge_Capacity" ">" (short3 cap) D1 SA1 PN LC1) as (s2 & -> & D2 & SA2 & U2 & _). cbn [bind].
  assert (ST : forall k l var, stops_on s1 k l var <-> stops_on s k l var).
  { intros k l var. unfold stops_on. rewrite !(holds_get _ _ _ D), !(holds_get _ _ _ D1). split; intros (P & A & B); rewrite !(FR k l P _) in *; auto. }
  assert (LB2 : forall label k, labelled s2 label k <-> labelled s label k).
  { intros label k. rewrite <- (LB1 label k). apply (labels_kept _ _ _ label k U2). intros q w r (j & l & _ & _ & [[-> _]|[-> _]]) X; discriminate X. }
  destruct (set_first_labelled s2 names "CC2" ctrl (short3 cc2) D2 SA2 PN AC) as (s3 & E3 & D3 & SA3 & U3).
  exists s3, (short3 cc1), (short3 cap), (short3 cc2). split; [exact E3|]. split; [exact SA3|]. repeat (split; [apply short3_near|]).
  eapply updates_ext; [eapply updates_then; [eapply (updates_then _ _ _ _ _ U1 U2)|exact U3|]|].
  - intros p v q w r (k & _ & -> & _) (j & l & _ & _ & [[-> _]|[-> _]]) X; discriminate X.
  - intros p v q w r [(k & (_ & _ & _ & L1 & _) & -> & _)|(k & l & _ & (P & _) & X1)] (j & (_ & _ & _ & L2 & _) & -> & _) X.
    + cbn in X. injection X as X. subst j. apply LB2 in L2. unfold labelled in L1, L2. apply (holds_get _ _ _ D) in L1, L2. rewrite L1 in L2. discriminate L2.
    + destruct X1 as [[-> _]|[-> _]]; cbn in X; injection X; intros; subst; discriminate P.
  - intros p v. split.
    + intros [[(k & FL & H)|(k & l & L & SO & H)]|(k & FL & H)].
      * left. exists k. auto.
      * right. left. exists k, l. split; [apply LB1; exact L|]. split; [apply ST; exact SO|exact H].
      * right. right. exists k. split; [|exact H]. apply (first_same s s2 names "CC2" (LB2 "CC2"%string)). exact FL.
    + intros [(k & FL & H)|[(k & l & L & SO & H)|(k & FL & H)]].
      * left. left. exists k. auto.
      * left. right. exists k, l. split; [apply LB1; exact L|]. split; [apply ST; exact SO|exact H].
      * right. exists k. split; [|exact H]. apply (first_same s s2 names "CC2" (LB2 "CC2"%string)). exact FL.
Qed.
