(** Lemmas for C116-C118: formatting, writing and reading procedures. *)
From Verif Require Import Py Proofs_Diagnostic Proofs_Strings Model_Arbin Spec_Arbin Proofs_Arbin Model_Procedure Model_MaccorFile Spec_MaccorFile Proofs_MaccorFile Proofs_MaccorFile_Text Proofs_MaccorFile_Read.
Local Open Scope string_scope.

Lemma spaces_blank n : spaces n = blank n. Proof. induction n; cbn; congruence. Qed.
Lemma blank_length n : String.length (blank n) = n. Proof. induction n; cbn; congruence. Qed.
Lemma center_centred w s : (Nat.odd (w - String.length s) && Nat.odd w = false)%bool -> centred w s (center w s).
Proof.
  intro O. unfold center. rewrite O. change (if false then 1 else 0)%nat with 0%nat. rewrite Nat.add_0_r. set (p := (w - String.length s)%nat).
  exists (p / 2)%nat, (p - p / 2)%nat. change spaces with blank. split; [reflexivity|]. 
  pose proof (Nat.div_mod p 2 ltac:(lia)). pose proof (Nat.mod_upper_bound p 2 ltac:(lia)).
  split; [lia|]. rewrite !app_length_s, !blank_length. unfold p in *. lia.
Qed.
Lemma pad8_text s : exists t, pad8 (VText s) = Ok (VText t) /\ centred 8 s t.
Proof.
  cbn [pad8]. eexists. split; [reflexivity|]. destruct (Nat.ltb_spec (String.length s) 8); [apply center_centred, andb_false_r|].
  exists 0%nat, 0%nat. cbn [spaces append]. rewrite app_nil_s. split; [reflexivity|]. split; [auto|]. lia.
Qed.
Lemma pad_oper_text s : exists t, pad_oper (VText s) = Ok (VText t) /\
  (s = "" -> t = spaces 3) /\ (String.length s = 1%nat -> centred 3 s t) /\ ((2 <= String.length s)%nat -> left_aligned 3 s t).
Proof.
  cbn [pad_oper]. eexists. split; [reflexivity|]. split; [intros ->; reflexivity|]. destruct (Nat.ltb_spec (String.length s) 2) as [L|L]; split; intro H; try lia.
  - apply center_centred. destruct s as [|c [|d s]]; [discriminate H|reflexivity|cbn in L; lia].
  - unfold ljust. eexists. change spaces with blank. split; [reflexivity|]. rewrite app_length_s, blank_length. lia.
Qed.

(** ** Formatting, field by field *)
Definition rel (how : string -> val -> val -> Prop) (a b : string * val) : Prop := fst a = fst b /\ how (fst a) (snd a) (snd b).
Lemma rel_impl (h g : string -> val -> val -> Prop) d e : Forall2 (rel h) d e -> (forall k v f, In (k, v) d -> h k v f -> g k v f) -> Forall2 (rel g) d e.
Proof.
  induction 1 as [|[k v] [k' f] d e [E H] F IH]; intro I; constructor.
  - cbn in *. subst k'. split; [reflexivity|]. apply I; [left; reflexivity|exact H].
  - apply IH. intros. apply I; [right; assumption|assumption].
Qed.
Lemma rel_refl d : Forall2 (rel (fun _ v f => f = v)) d d.
Proof. induction d as [|[k v] d IH]; constructor; [split; reflexivity|exact IH]. Qed.
Lemma upd_ok (how : string -> val -> val -> Prop) k (g : val -> result val) (okp : val -> Prop) (target : val -> val -> Prop) d e :
  NoDup (map fst d) -> Forall2 (rel how) d e -> (forall v f, how k v f -> f = v) -> has d k okp ->
  (forall v, In (k, v) d -> okp v -> exists f, g v = Ok f /\ target v f) ->
  exists e', update k g (VDict e) = Ok (VDict e') /\ Forall2 (rel (fun k' v f => if String.eqb k' k then target v f else how k' v f)) d e'.
Proof.
  intros ND F ID (v & V & OK) G. apply (sget_in _ _ _ ND) in V. destruct (G v V OK) as (f & GF & T). clear G OK.
  assert (A : sget e k = Some v /\ Forall2 (rel (fun k' v f => if String.eqb k' k then target v f else how k' v f)) d (sset e k f)).
  { induction F as [|[k1 v1] [k2 v2] d e [E H] F IH]; [destruct V|]. cbn in E, H. subst k2. cbn [map fst] in ND. inversion ND as [|? ? NI ND']; subst.
    unfold sget, sset in *. cbn [d_get d_set]. destruct (String.eqb_spec k k1) as [<-|NE].
    - destruct V as [V|V]; [|destruct NI; apply in_map_iff; exists (k, v); split; [reflexivity|exact V]]. injection V as ->.
      split; [f_equal; apply ID, H|]. constructor.
      + split; [reflexivity|]. cbn. rewrite String.eqb_refl. exact T.
      + eapply rel_impl; [exact F|]. intros k' v' f' J H'. destruct (String.eqb_spec k' k) as [->|]; [|exact H']. destruct NI. apply in_map_iff. exists (k, v'). split; [reflexivity|exact J].
    - destruct V as [V|V]; [injection V as -> _; congruence|]. destruct (IH ND' V) as [A B]. split; [exact A|]. constructor; [|exact B].
      split; [reflexivity|]. cbn. destruct (String.eqb_spec k1 k); [congruence|exact H]. }
  destruct A as [A B]. exists (sset e k f). split; [|exact B]. unfold update. cbn [get1]. rewrite A. cbn [bind]. rewrite GF. reflexivity.
Qed.
Lemma upd_one k (g : val -> result val) (okp : val -> Prop) (target : val -> val -> Prop) d : NoDup (map fst d) -> has d k okp ->
  (forall v, In (k, v) d -> okp v -> exists f, g v = Ok f /\ target v f) ->
  exists f, update k g (VDict d) = Ok f /\ fields_padded (below k target) (VDict d) f.
Proof.
  intros ND H G. destruct (upd_ok (fun _ v f => f = v) k g okp target d d ND (rel_refl d)) as (e & E & F); auto.
  exists (VDict e). split; [exact E|]. exists d, e. split; [reflexivity|]. split; [reflexivity|]. exact F.
Qed.
Lemma good_dict T d : shaped T (VDict d) -> NoDup (map fst d) /\ forall k v, In (k, v) d -> shaped_field T v.
Proof. intro S. inversion S as [| | |? _ ND IN]; subst. split; [exact ND|]. intros k v J. apply (IN _ _ J). Qed.
Lemma field_one T v : shaped_field T v -> not_list v -> shaped T v.
Proof. intros S N. inversion S; subst; [assumption|]. destruct (N l). reflexivity. Qed.
Lemma mapM_ok {A B} (f : A -> result B) (R : A -> B -> Prop) l : (forall x, In x l -> exists y, f x = Ok y /\ R x y) -> exists m, mapM f l = Ok m /\ Forall2 R l m.
Proof.
  induction l as [|x l IH]; intro H; [exists []; split; [reflexivity|constructor]|].
  destruct (H x (or_introl eq_refl)) as (y & E & RY). destruct IH as (m & M & F); [intros; apply H; right; assumption|].
  exists (y :: m). cbn. rewrite E, M. split; [reflexivity|constructor; assumption].
Qed.
Lemma with_dict req v : with_fields req v -> not_list v /\ v <> VNone.
Proof. intros (d & -> & _). split; [intros l|]; discriminate. Qed.

Lemma end_ok v : plain v -> end_complete v -> exists f, ends_whitespace v = Ok f /\ fields_padded end_field v f.
Proof.
  intros S (d & -> & R). destruct (good_dict _ _ S) as [ND G].
  destruct (upd_ok (fun _ v f => f = v) "SpecialType" (fun v => Ok (none_blank v)) (none_or a_text) (fun v f => (v = VNone /\ f = VText " ") \/ (v <> VNone /\ f = v)) d d ND (rel_refl d)) as (e1 & E1 & F1);
    [auto|apply R; cbn; auto| |].
  { intros v _ [->|(s & ->)]; eexists; (split; [reflexivity|]); [left|right]; split; first [reflexivity|discriminate]. }
  destruct (upd_ok _ "EndType" pad8 a_text text_centred d e1 ND F1) as (e2 & E2 & F2); [auto|apply R; cbn; auto| |].
  { intros v _ (s & ->). destruct (pad8_text s) as (t & E & C). exists (VText t). split; [exact E|]. exists s, t. auto. }
  destruct (upd_ok _ "Oper" pad_oper (none_or a_text) (fun v f => (v = VNone /\ f = VNone) \/
     exists s t, v = VText s /\ f = VText t /\ (s = "" -> t = spaces 3) /\ (String.length s = 1%nat -> centred 3 s t) /\ ((2 <= String.length s)%nat -> left_aligned 3 s t)) d e2 ND F2) as (e3 & E3 & F3); [auto|apply R; cbn; auto| |].
  { intros v J [->|(s & ->)]; [exists VNone; split; [reflexivity|left; auto]|]. destruct (pad_oper_text s) as (t & E & C). exists (VText t). split; [exact E|].
    right. exists s, t. auto. }
  exists (VDict e3). unfold ends_whitespace. rewrite E1. cbn [bind]. rewrite E2. cbn [bind]. split; [exact E3|].
  exists d, e3. split; [reflexivity|]. split; [reflexivity|]. eapply rel_impl; [exact F3|]. intros k v f _ H. cbv beta in H. unfold end_field.
  destruct (String.eqb_spec k "EndType") as [->|]; [exact H|]. destruct (String.eqb_spec k "SpecialType") as [->|]; [exact H|].
  destruct (String.eqb_spec k "Oper") as [->|]; exact H.
Qed.
Lemma report_ok v : plain v -> report_complete v -> exists f, reports_whitespace v = Ok f /\ fields_padded report_field v f.
Proof.
  intros S (d & -> & R). destruct (good_dict _ _ S) as [ND G]. unfold reports_whitespace.
  destruct (upd_one "ReportType" pad8 a_text text_centred d ND) as (f & E & F); [apply R; cbn; auto| |exists f; split; [exact E|exact F]].
  intros v _ (s & ->). destruct (pad8_text s) as (t & E & C). exists (VText t). split; [exact E|]. exists s, t. auto.
Qed.
Lemma entries_ok name g (okp : val -> Prop) how v : (forall x, plain x -> okp x -> exists f, g x = Ok f /\ fields_padded how x f) -> (forall x, okp x -> exists d, x = VDict d) ->
  shaped_field good_text v -> none_or (with_fields [(name, one_or_many okp)]) v ->
  exists f, entries name g v = Ok f /\ ((v = VNone /\ f = VNone) \/ fields_padded (entry_field name how) v f).
Proof.
  intros G D S [->|(d & -> & R)]; [exists VNone; split; [reflexivity|left; auto]|].
  apply field_one in S; [|intros l; discriminate]. destruct (good_dict _ _ S) as [ND IN]. unfold entries.
  match goal with |- context [update name ?h _] => set (g' := h) end.
  destruct (upd_one name g' (one_or_many okp) (fun v f => (exists l m, v = VList l /\ f = VList m /\ Forall2 (fields_padded how) l m) \/
       ((forall l, v <> VList l) /\ fields_padded how v f)) d ND) as (f & E & F); [apply R; left; reflexivity| |exists f; split; [exact E|right; exact F]].
  intros x J [[NL OK]|(l & -> & OK)].
  - destruct (G x) as (f & E & F); [apply field_one; [apply (IN _ _ J)|exact NL]|exact OK|]. destruct (D x OK) as (dx & ->). exists f. split; [exact E|right; auto].
  - apply IN in J. inversion J as [? J1|? L2 JL]; subst; [inversion J1|]. destruct (mapM_ok g (fields_padded how) l) as (m & M & F); [intros x X; apply G; [apply JL, X|apply OK, X]|].
    exists (VList m). cbn. rewrite M. split; [reflexivity|]. left. exists l, m. auto.
Qed.
Lemma step_ok v : plain v -> step_complete v -> exists f, format_step v = Ok f /\ fields_padded step_field v f.
Proof.
  intros S (d & -> & R). destruct (good_dict _ _ S) as [ND G].
  destruct (upd_ok (fun _ v f => f = v) "StepType" pad8 a_text text_centred d d ND (rel_refl d)) as (e1 & E1 & F1); [auto|apply R; cbn; auto| |].
  { intros v _ (s & ->). destruct (pad8_text s) as (t & E & C). exists (VText t). split; [exact E|]. exists s, t. auto. }
  destruct (upd_ok _ "StepMode" (fun v => pad8 (none_blank v)) (none_or a_text) (fun v f => (v = VNone /\ f = VText (spaces 8)) \/ text_centred v f) d e1 ND F1) as (e2 & E2 & F2); [auto|apply R; cbn; auto| |].
  { intros v _ [->|(s & ->)]; [exists (VText (spaces 8)); split; [reflexivity|left; auto]|]. destruct (pad8_text s) as (t & E & C). exists (VText t). split; [exact E|]. right. exists s, t. auto. }
  destruct (upd_ok _ "Ends" (entries "EndEntry" ends_whitespace) (none_or (with_fields [("EndEntry", one_or_many end_complete)])) (fun v f => (v = VNone /\ f = VNone) \/ fields_padded (entry_field "EndEntry" end_field) v f) d e2 ND F2) as (e3 & E3 & F3); [auto|apply R; cbn; auto| |].
  { intros v J OK. apply (entries_ok _ _ end_complete); [apply end_ok|intros x (dx & -> & _); eauto|apply (G _ _ J)|exact OK]. }
  destruct (upd_ok _ "Reports" (entries "ReportEntry" reports_whitespace) (none_or (with_fields [("ReportEntry", one_or_many report_complete)])) (fun v f => (v = VNone /\ f = VNone) \/ fields_padded (entry_field "ReportEntry" report_field) v f) d e3 ND F3) as (e4 & E4 & F4); [auto|apply R; cbn; auto| |].
  { intros v J OK. apply (entries_ok _ _ report_complete); [apply report_ok|intros x (dx & -> & _); eauto|apply (G _ _ J)|exact OK]. }
  exists (VDict e4). unfold format_step. rewrite E1. cbn [bind]. rewrite E2. cbn [bind]. rewrite E3. cbn [bind]. split; [exact E4|].
  exists d, e4. split; [reflexivity|]. split; [reflexivity|]. eapply rel_impl; [exact F4|]. intros k v f _ H. cbv beta in H. unfold step_field.
  destruct (String.eqb_spec k "StepType") as [->|]; [exact H|]. destruct (String.eqb_spec k "StepMode") as [->|]; [exact H|].
  destruct (String.eqb_spec k "Ends") as [->|]; [exact H|]. destruct (String.eqb_spec k "Reports") as [->|]; exact H.
Qed.
Lemma format_ok p : plain p -> complete p -> exists f, format_maccor p = Ok f /\ procedure_padded p f.
Proof.
  intros S (root & -> & (d & -> & R)). pose proof (good_dict _ _ S) as [NDP GP].
  assert (SR : plain (VDict d)) by (apply field_one; [apply (GP _ _ (or_introl eq_refl))|intros l; discriminate]).
  unfold format_maccor, procedure_padded.
  refine (upd_one "MaccorTestProcedure" _ (fun v => v = VDict d) _ _ NDP _ _); [exists (VDict d); split; reflexivity|].
  intros v _ ->. destruct (good_dict _ _ SR) as [ND G].
  refine (upd_one "ProcSteps" _ _ _ _ ND (R _ _ (or_introl eq_refl)) _).
  intros v J (ds & -> & RS). assert (SS : plain (VDict ds)) by (apply field_one; [apply (G _ _ J)|intros l; discriminate]). destruct (good_dict _ _ SS) as [NDS GS].
  refine (upd_one "TestStep" _ _ _ _ NDS (RS _ _ (or_introl eq_refl)) _).
  intros v JS (l & -> & OK). apply GS in JS. inversion JS as [? J1|? L2 JL]; subst; [inversion J1|].
  destruct (mapM_ok format_step (fields_padded step_field) l) as (m & M & F); [intros x X; apply step_ok; [apply JL, X|apply OK, X]|].
  exists (VList m). cbn. rewrite M. split; [reflexivity|]. exists l, m. auto.
Qed.
