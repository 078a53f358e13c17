(** Proofs for C115: the formation protocol. *)
From Verif Require Import Proofs_Diagnostic Proofs_Strings Proofs_Text Proofs_Arbin Proofs_M2A Proofs_Datapath Py Num Model_Text Model_Arbin Model_M2B Model_Procedure Model_Mps Spec_Mps Proofs_Mps.

(** ** places *)
Fixpoint apartb (p q : list string) : bool :=
  match p, q with
  | k :: p, l :: q => if String.eqb k l then apartb p q else true
  | _, _ => false
  end.
Definition apart (p q : list string) : Prop := exists pre k l rp rq, p = pre ++ k :: rp /\ q = pre ++ l :: rq /\ k <> l.
Lemma apartb_iff p q : apartb p q = true <-> apart p q.
Proof.
  split.
  - revert q. induction p as [|k p IH]; intros [|l q] H; try discriminate. cbn in H. destruct (String.eqb_spec k l) as [->|N].
    + destruct (IH q H) as (pre & a & b & rp & rq & -> & -> & N). exists (l :: pre), a, b, rp, rq. auto.
    + exists [], k, l, p, q. auto.
  - intros (pre & k & l & rp & rq & -> & -> & N). induction pre as [|x pre IH]; cbn.
    + apply String.eqb_neq in N. rewrite N. reflexivity.
    + rewrite String.eqb_refl. exact IH.
Qed.
Lemma vget_vset_same p w : forall v v', vset p w v = Ok v' -> vget p v' = w.
Proof.
  induction p as [|k p IH]; intros v v' H; cbn in *; [congruence|]. destruct v as [|?|?|d|?]; try discriminate.
  destruct (vset p w _) as [x|] eqn:E; cbn in H; [|discriminate]. injection H as <-. rewrite sget_sset, String.eqb_refl. exact (IH _ _ E).
Qed.
Lemma vget_none q : vget q (VDict []) = VNone \/ q = [].
Proof. destruct q; [right|left]; reflexivity. Qed.
Lemma vget_vset_apart p q w : apartb p q = true -> forall v v', vset p w v = Ok v' -> vget q v' = vget q v.
Proof.
  revert q. induction p as [|k p IH]; intros [|l q] A v v' H; try discriminate. cbn in *. destruct v as [|?|?|d|?]; try discriminate.
  destruct (vset p w _) as [x|] eqn:E; cbn in H; [|discriminate]. injection H as <-. rewrite sget_sset. rewrite String.eqb_sym. destruct (String.eqb_spec k l) as [->|N].
  - rewrite (IH q A _ _ E). destruct (sget d l) as [y|]; [reflexivity|]. destruct q as [|m q]; [destruct p; discriminate A|]. reflexivity.
  - reflexivity.
Qed.
Lemma apartb_sym p q : apartb p q = apartb q p.
Proof. revert q. induction p as [|k p IH]; intros [|l q]; try reflexivity. cbn. rewrite String.eqb_sym. destruct (String.eqb l k); [apply IH|reflexivity]. Qed.
Lemma vset_sibling pre k l t w : forall v, vget (pre ++ [k]) v = VText t -> exists v', vset (pre ++ [l]) w v = Ok v'.
Proof.
  induction pre as [|x pre IH]; intros v H; cbn in *.
  - destruct v as [|?|?|d|?]; try discriminate. eexists. reflexivity.
  - destruct v as [|?|?|d|?]; try discriminate. destruct (sget d x) as [y|]; [|discriminate]. destruct (IH y H) as [v' ->]. eexists. reflexivity.
Qed.

(** ** programs *)
Definition holds (obj : val) (pt : list string * string) : Prop := vget (fst pt) obj = VText (snd pt).
Fixpoint asserts_of (prog : list fact) : list (list string * string) :=
  match prog with [] => [] | Asserts p t :: r => (p, t) :: asserts_of r | Sets _ _ :: r => asserts_of r end.
Fixpoint sets_of (prog : list fact) : list (list string * val) :=
  match prog with [] => [] | Asserts _ _ :: r => sets_of r | Sets p v :: r => (p, v) :: sets_of r end.
Lemma text_is_iff t v : text_is t v = true <-> v = VText t.
Proof. destruct v as [|s|?|?|?]; cbn; try (split; discriminate). rewrite String.eqb_eq. split; congruence. Qed.
(** every set place is apart from every asserted place and from the places set later *)
Fixpoint disjoint (places : list (list string)) (prog : list fact) : bool :=
  match prog with
  | [] => true
  | Asserts _ _ :: r => disjoint places r
  | Sets p _ :: r => forallb (apartb p) places && forallb (apartb p) (map fst (sets_of r)) && disjoint places r
  end.
(** every set place is beside the place asserted just before *)
Fixpoint beside (last : option (list string)) (prog : list fact) : bool :=
  match prog with
  | [] => true
  | Asserts p _ :: r => beside (Some p) r
  | Sets p _ :: r =>
      match last with
      | Some q => (if list_eq_dec String.string_dec (removelast p) (removelast q) then true else false) && negb (match p with [] => true | _ => false end) && negb (match q with [] => true | _ => false end)
      | None => false end && beside None r
  end.
Lemma perform_elsewhere prog : forall obj obj' e, perform prog obj = (obj', e) ->
  forall q, (forall p, In p (map fst (sets_of prog)) -> apartb p q = true) -> vget q obj' = vget q obj.
Proof.
  induction prog as [|[p t|p v] r IH]; intros obj obj' e H q A; cbn in H.
  - injection H as <- <-. reflexivity.
  - destruct (text_is t (vget p obj)); [exact (IH _ _ _ H q A)|injection H as <- <-; reflexivity].
  - destruct (vset p v obj) as [o1|] eqn:E; [|injection H as <- <-; reflexivity]. cbn in A.
    rewrite (IH _ _ _ H q) by (intros p' Hp; apply A; right; exact Hp). apply (vget_vset_apart p q v); [apply A; left; reflexivity|exact E].
Qed.
Lemma perform_result prog : forall L last obj obj' e, perform prog obj = (obj', e) -> disjoint L prog = true -> (forall pt, In pt (asserts_of prog) -> In (fst pt) L) ->
  beside last prog = true -> (forall q, last = Some q -> exists t, vget q obj = VText t) ->
  (e = None <-> Forall (holds obj) (asserts_of prog)) /\ (e = None \/ e = Some AssertionError).
Proof.
  induction prog as [|[p t|p v] r IH]; intros L last obj obj' e H D I B Q; cbn in H.
  - injection H as <- <-. split; [split; [constructor|reflexivity]|left; reflexivity].
  - cbn in *. destruct (text_is t (vget p obj)) eqn:T.
    + apply text_is_iff in T. destruct (IH L (Some p) obj obj' e H D) as [I1 I2]; [intros pt Hp; apply I; right; exact Hp|exact B|intros q X; injection X as <-; exists t; exact T|].
      split; [|exact I2]. rewrite I1. split; [intro F; constructor; [exact T|exact F]|intro F; inversion F; assumption].
    + injection H as <- <-. split; [|right; reflexivity]. split; [discriminate|]. intro F. inversion F as [|? ? X _]; subst. unfold holds in X. cbn in X. apply text_is_iff in X. congruence.
  - cbn in D, B. apply andb_prop in D. destruct D as [D D3]. apply andb_prop in D. destruct D as [D1 D2]. apply andb_prop in B. destruct B as [B1 B2]. destruct last as [q|]; [|discriminate].
    apply andb_prop in B1. destruct B1 as [B1 Bq]. apply andb_prop in B1. destruct B1 as [B1 Bp]. destruct (list_eq_dec String.string_dec (removelast p) (removelast q)) as [E|]; [|discriminate].
    destruct (Q q eq_refl) as [t T]. assert (Hp : p <> []) by (destruct p; [discriminate|congruence]). assert (Hq : q <> []) by (destruct q; [discriminate|congruence]).
    rewrite (app_removelast_last ""%string Hq) in T. destruct (vset_sibling (removelast q) (last q ""%string) (last p ""%string) t v obj T) as [o1 S]. rewrite <- E in S.
    rewrite <- (app_removelast_last ""%string Hp) in S. rewrite S in H.
    destruct (IH L None o1 obj' e H D3 I B2) as [I1 I2]; [intros ? X; discriminate|]. split; [|exact I2]. rewrite I1.
    assert (X : forall pt, In pt (asserts_of r) -> (holds o1 pt <-> holds obj pt)).
    { intros pt Hpt. unfold holds. rewrite (vget_vset_apart p (fst pt) v) with (v := obj); [reflexivity| |exact S]. rewrite forallb_forall in D1. apply D1. apply I. exact Hpt. }
    rewrite !Forall_forall. split; intros F pt Hpt; apply (X pt Hpt), F, Hpt.
Qed.
Lemma perform_sets prog : forall L obj obj', perform prog obj = (obj', None) -> disjoint L prog = true -> forall p v, In (p, v) (sets_of prog) -> vget p obj' = v.
Proof.
  induction prog as [|[p t|p w] r IH]; intros L obj obj' H D q v Hq; cbn in H; [destruct Hq| |].
  - destruct (text_is t (vget p obj)); [|discriminate]. exact (IH L _ _ H D q v Hq).
  - destruct (vset p w obj) as [o1|] eqn:E; [|discriminate]. cbn in D. apply andb_prop in D. destruct D as [D D3]. apply andb_prop in D. destruct D as [D1 D2]. destruct Hq as [X|Hq].
    + injection X as <- <-. rewrite (perform_elsewhere r _ _ _ H).
      * exact (vget_vset_same p w _ _ E).
      * intros p' Hp'. rewrite apartb_sym. rewrite forallb_forall in D2. exact (D2 p' Hp').
    + exact (IH L _ _ H D3 q v Hq).
Qed.

(** ** the protocol *)
Definition places (r : form_param) : list (list string) := map fst (asserts_of (formation_actions r)).
Lemma actions_disjoint r : disjoint (places r) (formation_actions r) = true.
Proof. vm_compute. reflexivity. Qed.
Lemma actions_beside r : beside None (formation_actions r) = true.
Proof. vm_compute. reflexivity. Qed.
Lemma written_sets r : map fst (sets_of (formation_actions r)) = written r.
Proof. reflexivity. Qed.
Lemma asserts_are r : asserts_of (formation_actions r) =
  (["Metadata"; "Cycle Definition"], "Charge/Discharge alternance")%string :: List.concat (map (fun s => map (fun g => (place_of (fs_step s) (fst g), snd g)) (fs_is s)) (formation_steps r)).
Proof. reflexivity. Qed.
Lemma milli_near x : three_decimals x (milli x).
Proof.
  exists (inject_Z (round_even (x * 1000)) / 1000), (round_even (x * 1000)). split; [reflexivity|]. split; [field|]. apply round_even_near.
Qed.
Lemma truncated_repeats x : repeats x (truncated (x - 1)).
Proof.
  unfold repeats, truncated. set (y := (x - 1)%Q). exists (Z.quot (Qnum y) (Z.pos (Qden y))). split; [reflexivity|].
  destruct y as [n d]. cbn [Qnum Qden]. pose proof (Z.quot_rem' n (Z.pos d)) as QR. 
  destruct (Z.le_gt_cases 0 n) as [P|P].
  - pose proof (Z.rem_bound_pos n (Z.pos d) P ltac:(lia)) as RB. pose proof (Z.quot_pos n (Z.pos d) P ltac:(lia)) as QP. set (q := Z.quot n (Z.pos d)) in *. set (m := Z.rem n (Z.pos d)) in *.
    rewrite !Qabs_pos; unfold Qle, Qlt, Qminus, Qplus, Qopp, Qmult, inject_Z; cbn; try nia.
  - pose proof (Z.rem_nonpos n (Z.pos d) ltac:(lia) ltac:(lia)) as RB0. pose proof (Z.rem_bound_abs n (Z.pos d) ltac:(lia)) as RB.
    assert (QP : (Z.quot n (Z.pos d) <= 0)%Z). { rewrite <- (Z.opp_involutive n), Z.quot_opp_l by lia. pose proof (Z.quot_pos (-n) (Z.pos d) ltac:(lia) ltac:(lia)). lia. }
    set (q := Z.quot n (Z.pos d)) in *. set (m := Z.rem n (Z.pos d)) in *.
    rewrite !Qabs_neg; unfold Qle, Qlt, Qminus, Qplus, Qopp, Qmult, inject_Z; cbn; try nia.
Qed.
Theorem formation_outcome r obj obj' e : formation r obj = (obj', e) ->
  (e = None <-> vget ["Metadata"; "Cycle Definition"]%string obj = VText "Charge/Discharge alternance" /\ forall s, In s (formation_steps r) -> identified obj s) /\
  (e = None \/ e = Some AssertionError) /\ same_elsewhere (written r) obj obj'.
Proof.
  intro H. unfold formation in H. destruct (perform_result _ (places r) None obj obj' e H (actions_disjoint r)) as [I1 I2]; [|exact (actions_beside r)|discriminate|].
  { intros pt Hp. apply in_map. exact Hp. }
  split; [|split; [exact I2|]].
  - rewrite I1, asserts_are. generalize (formation_steps r). intro steps. split.
    + intro F. inversion F as [|? ? F0 F1]; subst. split; [exact F0|]. intros s Hs field t Hf. rewrite Forall_forall in F1. apply (F1 (place_of (fs_step s) field, t)).
      apply in_concat. eexists. split; [apply in_map; exact Hs|]. apply in_map_iff. exists (field, t). auto.
    + intros [F0 F1]. constructor; [exact F0|]. apply Forall_forall. intros [p t] Hp. apply in_concat in Hp. destruct Hp as (l & Hl & Hp). apply in_map_iff in Hl. destruct Hl as (s & <- & Hs).
      apply in_map_iff in Hp. destruct Hp as ([field t'] & X & Hf). injection X as <- <-. exact (F1 s Hs field t' Hf).
  - intros q A. apply (perform_elsewhere _ _ _ _ H). rewrite written_sets. intros p Hp. apply apartb_iff. exact (A p Hp).
Qed.
Theorem formation_values r obj obj' : formation r obj = (obj', None) -> forall s, In s (formation_steps r) -> gets obj' s.
Proof.
  intros H. pose proof (perform_sets _ _ _ _ H (actions_disjoint r)) as S. cbn [formation_actions sets_of] in S.
  intros s Hs field P Hf. cbn [formation_steps] in Hs.
  repeat (destruct Hs as [<-|Hs]; [cbn [fs_step fs_gets constant_current constant_voltage rest_for loop_to_8] in *;
    repeat (destruct Hf as [X|Hf]; [injection X as <- <-; erewrite S; [|cbn [In]; repeat (first [left; reflexivity|right])]; first [apply milli_near|apply truncated_repeats]|]); destruct Hf|]).
  destruct Hs.
Qed.

(** ** the file *)
Fixpoint update {A} (l : list A) (i : nat) (x : A) : list A :=
  match l, i with [], _ => [] | _ :: l, O => x :: l | y :: l, S i => y :: update l i x end.
Lemma update_length {A} (l : list A) i x : length (update l i x) = length l.
Proof. revert i. induction l as [|y l IH]; intros [|i]; cbn; try reflexivity. f_equal. apply IH. Qed.
Lemma update_in {A} (l : list A) i x y : In y (update l i x) -> y = x \/ In y l.
Proof. revert i. induction l as [|z l IH]; intros [|i] H; cbn in *; [tauto|tauto| |]; destruct H as [H|H]; auto. destruct (IH i H); auto. Qed.
Lemma sset_combine names (s : list val) i v : NoDup names -> length s = length names -> (i < length names)%nat ->
  sset (combine names s) (nth i names ""%string) v = combine names (update s i v).
Proof.
  revert s i. induction names as [|n names IH]; intros [|x s] i ND L Hi; cbn in *; try lia. inversion ND as [|? ? N ND']; subst. destruct i as [|i]; [rewrite String.eqb_refl; reflexivity|].
  destruct (String.eqb_spec (nth i names ""%string) n) as [E|_]; [exfalso; apply N; rewrite <- E; apply nth_In; lia|]. f_equal. apply IH; [exact ND'|lia|lia].
Qed.
Lemma sset_steps names seqs k j s y : nth_error seqs j = Some y -> sset (steps_from k names seqs) (str_int (Z.of_nat (k + j))) (step_of names s) = steps_from k names (update seqs j s).
Proof.
  revert seqs k. induction j as [|j IH]; intros [|x seqs] k H; try discriminate; cbn [steps_from update sset d_set nth_error] in *.
  - rewrite Nat.add_0_r. unfold sset. cbn [d_set]. rewrite String.eqb_refl. reflexivity.
  - unfold sset. cbn [d_set]. destruct (String.eqb_spec (str_int (Z.of_nat (k + S j))) (str_int (Z.of_nat k))) as [E|_]; [apply str_int_inj in E; lia|]. f_equal.
    replace (k + S j)%nat with (S k + j)%nat by lia. apply IH. exact H.
Qed.
Section Cells.
  Variables (before after : list (string * val)) (kind : string) (names : list string).
  Hypothesis HN : NoDup names.
  Definition rectangular (seqs : list (list val)) : Prop := forall s, In s seqs -> length s = length names.
  Lemma vset_cell seqs j s i v : rectangular seqs -> nth_error seqs j = Some s -> (i < length names)%nat ->
    vset (place_of (str_int (Z.of_nat (S j))) (nth i names ""%string)) v (settings before after "1" kind names seqs) = Ok (settings before after "1" kind names (update seqs j (update s i v))).
  Proof.
    intros R H Hi. pose proof (R s (nth_error_In _ _ H)) as L. pose proof (step_item names seqs j s H) as S1.
    unfold settings, place_of. cbn [vset]. unfold sget at 1. cbn [d_get String.eqb Ascii.eqb Bool.eqb]. unfold sget at 1. cbn [d_get String.eqb Ascii.eqb Bool.eqb].
    unfold sget at 1. cbn [d_get String.eqb Ascii.eqb Bool.eqb]. rewrite S1. change (step_of names s) with (VDict (combine names s)). cbn iota. cbn [bind]. rewrite (sset_combine names s i v HN L Hi). cbn [bind].
    change (VDict (combine names (update s i v))) with (step_of names (update s i v)). pose proof (sset_steps names seqs 1 j (update s i v) s H) as S2. change (1 + j)%nat with (S j) in S2. rewrite S2.
    cbn [bind]. unfold sset at 3. cbn [d_set String.eqb Ascii.eqb Bool.eqb]. cbn [bind]. unfold sset at 2. cbn [d_set String.eqb Ascii.eqb Bool.eqb]. cbn [bind]. unfold sset. cbn [d_set String.eqb Ascii.eqb Bool.eqb]. reflexivity.
  Qed.
  Lemma vget_cell seqs j s i : rectangular seqs -> nth_error seqs j = Some s -> (i < length names)%nat ->
    vget (place_of (str_int (Z.of_nat (S j))) (nth i names ""%string)) (settings before after "1" kind names seqs) = nth i s VNone.
  Proof.
    intros R H Hi. pose proof (R s (nth_error_In _ _ H)) as L. pose proof (step_item names seqs j s H) as S1.
    unfold settings, place_of. cbn [vget]. unfold sget at 1. cbn [d_get String.eqb Ascii.eqb Bool.eqb]. unfold sget at 1. cbn [d_get String.eqb Ascii.eqb Bool.eqb].
    unfold sget at 1. cbn [d_get String.eqb Ascii.eqb Bool.eqb]. rewrite S1. cbn [step_of].
    assert (C : sget (combine names s) (nth i names ""%string) = Some (nth i s VNone)).
    { apply sget_in.
      - assert (E : map fst (combine names s) = names). { clear -L. revert s L. induction names as [|n l IH]; intros [|x s] L; try discriminate; [reflexivity|]. cbn. f_equal. apply IH. injection L. auto. }
        rewrite E. exact HN.
      - rewrite <- combine_nth by (symmetry; exact L). apply nth_In. rewrite combine_length, L. lia. }
    rewrite C. reflexivity.
  Qed.
  Lemma perform_cells prog : forall seqs obj' e, rectangular seqs ->
    (forall p v, In (p, v) (sets_of prog) -> exists j field, p = place_of (str_int (Z.of_nat (S j))) field /\ (j < length seqs)%nat /\ In field names) ->
    perform prog (settings before after "1" kind names seqs) = (obj', e) -> exists seqs', obj' = settings before after "1" kind names seqs' /\ length seqs' = length seqs /\ rectangular seqs'.
  Proof.
    induction prog as [|[p t|p v] r IH]; intros seqs obj' e R P H; cbn [perform] in H.
    - injection H as <- <-. exists seqs. auto.
    - destruct (text_is t _); [|injection H as <- <-; exists seqs; auto]. exact (IH seqs obj' e R P H).
    - destruct (P p v (or_introl eq_refl)) as (j & field & -> & Hj & Hf). apply (In_nth _ _ ""%string) in Hf. destruct Hf as (i & Hi & <-).
      destruct (nth_error seqs j) as [s|] eqn:E; [|apply nth_error_None in E; lia]. rewrite (vset_cell seqs j s i v R E Hi) in H.
      destruct (IH (update seqs j (update s i v)) obj' e) as (seqs' & X & L & R'); [| |exact H|].
      + intros y Hy. apply update_in in Hy. destruct Hy as [->|Hy]; [rewrite update_length; exact (R s (nth_error_In _ _ E))|exact (R y Hy)].
      + intros p' v' Hp. destruct (P p' v' (or_intror Hp)) as (j' & f' & X & Y & Z). exists j', f'. rewrite update_length. auto.
      + rewrite update_length in L. exists seqs'. auto.
  Qed.
End Cells.
Lemma places_apart a b c d : place_of a b <> place_of c d -> apartb (place_of a b) (place_of c d) = true.
Proof.
  intro N. cbn. destruct (String.eqb_spec a c) as [->|_]; [|reflexivity]. destruct (String.eqb_spec b d) as [->|_]; [congruence|reflexivity].
Qed.
Lemma written_place r p : In p (written r) -> exists j field, p = place_of (str_int (Z.of_nat (S j))) field /\ (j < 14)%nat /\ In field ["ctrl1_val"; "lim1_value"; "ctrl_repeat"]%string.
Proof.
  assert (A : forallb (fun p => existsb (fun j => existsb (fun field => if list_eq_dec String.string_dec p (place_of (str_int (Z.of_nat (S j))) field) then true else false) ["ctrl1_val"; "lim1_value"; "ctrl_repeat"]%string) (seq 0 14)) (written r) = true) by (vm_compute; reflexivity).
  intro H. rewrite forallb_forall in A. specialize (A p H). apply existsb_exists in A. destruct A as (j & Hj & A). apply existsb_exists in A. destruct A as (field & Hf & A).
  destruct (list_eq_dec _ _ _) as [E|]; [|discriminate]. exists j, field. apply in_seq in Hj. split; [exact E|]. split; [lia|exact Hf].
Qed.
Theorem formation_file show w f eb ea r obj' e : well_formed w f eb ea -> f_num f = "1"%string -> (14 <= length (f_seqs f))%nat ->
  (forall field, In field ["ctrl1_val"; "lim1_value"; "ctrl_repeat"]%string -> In field (f_names f)) ->
  formation r (settings eb ea "1" (f_kind f) (f_names f) (texts (f_seqs f))) = (obj', e) ->
  exists cells, obj' = settings eb ea "1" (f_kind f) (f_names f) cells /\ length cells = length (f_seqs f) /\ (forall s, In s cells -> length s = length (f_names f)) /\
    settings_text show w obj' = Ok (join crlf (lines_of w {| f_before := f_before f; f_num := "1"; f_kind := f_kind f; f_names := f_names f; f_seqs := map (map (py_str show)) cells; f_after := f_after f |})) /\
    forall j i s s', nth_error (f_seqs f) j = Some s -> nth_error cells j = Some s' -> (i < length (f_names f))%nat ->
      ~ In (place_of (str_int (Z.of_nat (S j))) (nth i (f_names f) ""%string)) (written r) -> nth i s' VNone = VText (nth i s ""%string).
Proof.
  intros W N1 L14 HF H. destruct (wf_names _ _ _ _ W) as [_ ND]. destruct (wf_seqs _ _ _ _ W) as [NE HS].
  assert (R0 : rectangular (f_names f) (texts (f_seqs f))). { intros s Hs. unfold texts in Hs. apply in_map_iff in Hs. destruct Hs as (t & <- & Ht). rewrite map_length. exact (HS t Ht). }
  destruct (perform_cells eb ea (f_kind f) (f_names f) ND (formation_actions r) (texts (f_seqs f)) obj' e R0) as (cells & E & L & R); [|exact H|].
  { intros p v Hp. assert (Hw : In p (written r)) by (rewrite <- written_sets; apply (in_map fst) in Hp; exact Hp). destruct (written_place r p Hw) as (j & field & -> & Hj & Hf).
    exists j, field. split; [reflexivity|]. unfold texts. rewrite map_length. split; [lia|exact (HF field Hf)]. }
  unfold texts in L. rewrite map_length in L. exists cells. split; [exact E|]. split; [exact L|]. split; [exact R|]. split.
  - rewrite E. pose proof (wf_one_technique _ _ _ _ W) as OT. pose proof (wf_keys _ _ _ _ W) as WK. rewrite N1 in WK.
    refine (file_written show w eb ea "1" (f_kind f) (f_names f) cells (f_before f) (f_after f) _ _ (wf_before _ _ _ _ W) (wf_after _ _ _ _ W) _ WK ND (conj _ R)).
    + intros l Hl. apply OT. apply in_app_iff in Hl. apply in_or_app. destruct Hl as [Hl|Hl]; [left; exact Hl|right; right; apply in_or_app; right; exact Hl].
    + intros ->. cbn in L. lia.
  - intros j i s s' Hs Hs' Hi NW.
    assert (Ht : nth_error (texts (f_seqs f)) j = Some (map VText s)) by (unfold texts; apply map_nth_error; exact Hs).
    rewrite <- (vget_cell eb ea (f_kind f) (f_names f) ND cells j s' i R Hs' Hi). rewrite <- E. rewrite (perform_elsewhere _ _ _ _ H).
    + rewrite (vget_cell eb ea (f_kind f) (f_names f) ND (texts (f_seqs f)) j (map VText s) i R0 Ht Hi).
      pose proof (HS s (nth_error_In _ _ Hs)) as LS. apply (nth_default_map VText s i ""%string VNone). lia.
    + rewrite written_sets. intros p Hp. destruct (written_place r p Hp) as (j' & field & -> & _ & _). apply places_apart. intros X. apply NW. rewrite <- X. exact Hp.
Qed.
Theorem accepted_if s : (forall r, forallb (fun pt => text_is (snd pt) (vget (fst pt) s)) (asserts_of (formation_actions r)) = true) -> forall r, exists obj', formation r s = (obj', None).
Proof.
  intros H r. destruct (formation r s) as [obj' e] eqn:F. exists obj'. f_equal. unfold formation in F.
  apply (perform_result _ (places r) None s obj' e F (actions_disjoint r)); [intros pt Hp; apply in_map; exact Hp|exact (actions_beside r)|discriminate|].
  specialize (H r). rewrite forallb_forall in H. apply Forall_forall. intros pt Hp. apply text_is_iff. exact (H pt Hp).
Qed.
