(** Lemmas for C116-C119: the shipped templates. *)
From Verif Require Import Py Num Model_Text Proofs_Diagnostic Proofs_Strings Model_Arbin Spec_Arbin Proofs_Arbin Model_Procedure Model_Waveform Model_Generate Model_MaccorFile Spec_MaccorFile Proofs_MaccorFile Proofs_MaccorFile_Text Proofs_MaccorFile_Read Proofs_MaccorFile_Main Proofs_MaccorFile_File Proofs_MaccorFile_Lines Proofs_MaccorFile_Plain Proofs_MaccorFile_Gen Proofs_Datapath Spec_MaccorGen.
From Verif Require Import Template_V2 Template_V3 Template_V4 Template_V5 Template_Driving Template_EXP File_V2 File_V3 File_V4 File_V5 File_Driving File_EXP.
Local Open Scope string_scope.

Definition inb (l : list ascii) (c : ascii) : bool := existsb (Ascii.eqb c) l.
Lemma inb_ok l c : inb l c = true -> In c l.
Proof. intro H. apply existsb_exists in H. destruct H as (x & X & E). apply Ascii.eqb_eq in E. subst. exact X. Qed.
Definition field_nameb (s : string) : bool := match s with EmptyString => false | String c r => inb letters c && forallb (inb name_letters) (list_ascii_of_string r) end.
Lemma field_nameb_ok s : field_nameb s = true -> field_name s.
Proof.
  destruct s as [|c r]; [discriminate|]. cbn. intro H. apply andb_prop in H. destruct H as [A B]. exists c, r. split; [reflexivity|]. split; [apply inb_ok, A|]. rewrite forallb_forall in B. intros x X. apply inb_ok, B, X.
Qed.
Definition text_charb (c : ascii) : bool := let n := nat_of_ascii c in (n =? 9)%nat || (n =? 10)%nat || ((32 <=? n)%nat && (n <=? 126)%nat).
Definition good_textb (s : string) : bool := forallb text_charb (list_ascii_of_string s) && String.eqb (strip s) s.
Lemma good_textb_ok s : good_textb s = true -> good_text s.
Proof.
  intro H. apply andb_prop in H. destruct H as [A B]. apply String.eqb_eq in B. rewrite forallb_forall in A.
  assert (T : all_text s). { intros c C. specialize (A c C). unfold text_charb in A. unfold text_char. rewrite !orb_true_iff, andb_true_iff, !Nat.leb_le, !Nat.eqb_eq in A. lia. }
  destruct (String.eqb_spec s "") as [-> | NE]; [apply solid_good; intros ? []|]. rewrite <- B in NE. rewrite <- B. apply strip_good; assumption.
Qed.
Fixpoint nodupb (l : list string) : bool := match l with [] => true | x :: r => negb (str_in x r) && nodupb r end.
Lemma nodupb_ok l : nodupb l = true -> NoDup l.
Proof.
  induction l as [|x l IH]; cbn; intro H; constructor; apply andb_prop in H; destruct H as [A B]; [|auto]. intro X. apply negb_true_iff in A. unfold str_in in A. apply not_true_iff_false in A. apply A.
  apply existsb_exists. exists x. rewrite String.eqb_refl. auto.
Qed.
Fixpoint plainb (v : val) : bool :=
  match v with
  | VNone | VNum _ => true
  | VText s => good_textb s
  | VDict d => negb (match d with [] => true | _ => false end) && nodupb (map fst d) &&
      forallb (fun kv : string * val => let (k, w) := kv in field_nameb k && match w with
         | VList l => (2 <=? length l)%nat && forallb plainb l
         | _ => plainb w end) d
  | VList _ => false
  end.
Lemma plainb_ok v : plainb v = true -> plain v.
Proof.
  induction v using val_nested; intro B; cbn [plainb] in B; try discriminate; [constructor|constructor; apply good_textb_ok, B|constructor|].
  apply andb_prop in B. destruct B as [B1 B2]. apply andb_prop in B1. destruct B1 as [B0 B1]. constructor; [destruct d; [discriminate B0|discriminate]|apply nodupb_ok, B1|].
  rewrite forallb_forall in B2. intros k w I. specialize (B2 (k, w) I). cbn beta iota in B2. apply andb_prop in B2. destruct B2 as [B2 B3]. split; [apply field_nameb_ok, B2|].
  rewrite Forall_forall in H. pose proof (H _ I) as HW. cbn [snd] in HW. destruct w as [| | | |l]; try (constructor; apply HW, B3).
  apply andb_prop in B3. destruct B3 as [B3 B4]. apply shaped_many; [apply Nat.leb_le, B3|]. intros x X. rewrite forallb_forall in B4. specialize (H0 _ _ I). rewrite Forall_forall in H0. apply (H0 x X), B4, X.
Qed.
Definition hasb (d : list (string * val)) (k : string) (ok : val -> bool) : bool := match sget d k with Some v => ok v | None => false end.
Definition fieldsb (req : list (string * (val -> bool))) (v : val) : bool := match v with VDict d => forallb (fun r => hasb d (fst r) (snd r)) req | _ => false end.
Definition a_textb (v : val) : bool := match v with VText _ => true | _ => false end.
Definition none_orb (ok : val -> bool) (v : val) : bool := match v with VNone => true | _ => ok v end.
Definition manyb (ok : val -> bool) (v : val) : bool := match v with VList l => forallb ok l | _ => ok v end.
Definition decides (b : val -> bool) (P : val -> Prop) : Prop := forall v, b v = true -> P v.
Lemma a_textb_ok : decides a_textb a_text. Proof. intros [] H; try discriminate. eexists. reflexivity. Qed.
Lemma none_orb_ok b P : decides b P -> decides (none_orb b) (none_or P). Proof. intros D [] H; [left; reflexivity| | | |]; right; apply D, H. Qed.
Lemma manyb_ok b P : decides b P -> decides (manyb b) (one_or_many P).
Proof.
  intros D v H. destruct v as [| | | |l]; try (left; split; [intros l E; discriminate E|apply D, H]).
  right. exists l. split; [reflexivity|]. cbn in H. rewrite forallb_forall in H. intros x X. apply D, H, X.
Qed.
Lemma fieldsb_ok req reqP : Forall2 (fun a b => fst a = fst b /\ decides (snd a) (snd b)) req reqP -> decides (fieldsb req) (with_fields reqP).
Proof.
  intros F v H. destruct v as [| | |d|]; try discriminate. exists d. split; [reflexivity|]. cbn in H. rewrite forallb_forall in H. intros k ok I.
  induction F as [|[k1 b1] [k2 p2] req reqP [E D] F IH]; [destruct I|]. cbn [fst snd] in *. destruct I as [I|I].
  - injection I as -> ->. specialize (H (k1, b1) (or_introl eq_refl)). cbn [fst snd] in H. subst k1. unfold hasb in H. unfold has. destruct (sget d k); [|discriminate]. exists v. split; [reflexivity|apply D, H].
  - apply IH; [intros x X; apply H; right; exact X|exact I].
Qed.
Definition endb := fieldsb [("SpecialType", none_orb a_textb); ("EndType", a_textb); ("Oper", none_orb a_textb)].
Definition reportb := fieldsb [("ReportType", a_textb)].
Definition stepb := fieldsb [("StepType", a_textb); ("StepMode", none_orb a_textb); ("Ends", none_orb (fieldsb [("EndEntry", manyb endb)])); ("Reports", none_orb (fieldsb [("ReportEntry", manyb reportb)]))].
Ltac checks := repeat (apply Forall2_cons || apply Forall2_nil); (split; [reflexivity|]); cbn [snd]; auto using a_textb_ok, none_orb_ok, manyb_ok.
Lemma endb_ok : decides endb end_complete. Proof. apply fieldsb_ok. checks. Qed.
Lemma reportb_ok : decides reportb report_complete. Proof. apply fieldsb_ok. checks. Qed.
Lemma stepb_ok : decides stepb step_complete.
Proof.
  apply fieldsb_ok. repeat apply Forall2_cons; try apply Forall2_nil; (split; [reflexivity|]); cbn [snd]; auto using a_textb_ok, none_orb_ok.
  - apply none_orb_ok, fieldsb_ok. constructor; [|constructor]. split; [reflexivity|]. apply manyb_ok, endb_ok.
  - apply none_orb_ok, fieldsb_ok. constructor; [|constructor]. split; [reflexivity|]. apply manyb_ok, reportb_ok.
Qed.
Lemma steps_ok (p : steps) : forallb (fun s => plainb s && stepb s) p = true -> good_steps p.
Proof. intros H s S. rewrite forallb_forall in H. specialize (H s S). apply andb_prop in H. destruct H. split; [apply plainb_ok|apply stepb_ok]; assumption. Qed.

(** ** Generated files *)
Lemma join_chars sep l p c : In p l -> In c (list_ascii_of_string p) -> In c (list_ascii_of_string (join sep l)).
Proof.
  induction l as [|x l IH]; [intros []|]. intros P C. destruct l as [|y l].
  - destruct P as [-> |[]]. exact C.
  - rewrite join_cons. rewrite !list_app. apply in_or_app. destruct P as [-> | P]; [left; exact C|]. right. apply in_or_app. right. apply IH; assumption.
Qed.
Lemma piece_visible sep s p : sep <> "" -> visible s -> In p (str_split sep s) -> visible p.
Proof. intros N V P c C. apply V. rewrite <- (join_split sep s N). eapply join_chars; eassumption. Qed.
Lemma last_visible sep s : sep <> "" -> visible s -> visible (last (str_split sep s) "").
Proof.
  intros N V. apply (piece_visible sep s); auto. destruct (str_split sep s) as [|x l] eqn:E; [destruct (str_split_nonempty _ _ E)|]. clear E. revert x. induction l as [|y l IH]; intro x; [left; reflexivity|].
  change (last (x :: y :: l) "") with (last (y :: l) ""). right. apply IH.
Qed.
Lemma wave_name_visible s : visible s -> good_text (wave_name s).
Proof.
  intro V. apply solid_good. unfold wave_name, basename. apply last_visible; [discriminate|]. destruct (str_split "." s) as [|x l] eqn:E; [intros ? []|]. cbn [hd].
  apply (piece_visible "." s); [discriminate|exact V|rewrite E; left; reflexivity].
Qed.
Lemma int_visible z : visible (str_int z).
Proof.
  unfold str_int. destruct (Z.ltb_spec z 0) as [L|L].
  - intros c [<- | C]; [cbn; lia|]. destruct (Proofs_Text.digits_of_spec (- z) ltac:(lia)) as (_ & D & _). exact (digits_solid _ D c C).
  - destruct (Proofs_Text.digits_of_spec z L) as (_ & D & _). apply digits_solid, D.
Qed.
Lemma visible_by s : forallb (fun c => (33 <=? nat_of_ascii c)%nat && (nat_of_ascii c <=? 126)%nat) (list_ascii_of_string s) = true -> visible s.
Proof. intros H c C. rewrite forallb_forall in H. specialize (H c C). apply andb_prop in H. rewrite !Nat.leb_le in H. exact H. Qed.
Section Generated.
  Variables (templates : string -> option steps) (formation : row -> result string) (with_diagnostics : bool) (diagnostics : list (string * diag_param)).
  Variables (profiles : string -> result (list (Q * Q))) (charging_wave : row -> result (list segment)) (out : string).
  Hypothesis T : forall name t, templates name = Some t -> writable_steps t.
  Hypothesis V : visible out.
  Lemma path_visible name : visible name -> visible (wave_path out name).
  Proof.
    intro N. unfold wave_path, under. repeat (apply solid_app); auto; apply visible_by; reflexivity.
  Qed.
  Lemma done_keeps n f p p' : keeps n f -> (n <= length p)%nat -> good_steps p -> done (f p) = Ok p' -> good_steps p' /\ length p' = length p.
  Proof. intros K L G E. unfold done in E. destruct (f p) as [q [e|]] eqn:F; [discriminate|]. injection E as <-. exact (K _ _ _ L G F). Qed.
  Lemma diag_keeps r p p' : good_steps p -> with_diag with_diagnostics diagnostics generate_procedure_diagcyclev3 r p = Ok p' -> good_steps p' /\ length p' = length p.
  Proof.
    intros G E. unfold with_diag in E. destruct (diagnostic_params with_diagnostics diagnostics r) as [d|]; [|discriminate]. cbn [bind] in E. exact (done_keeps 0 _ p p' (diagcycle_v3_keeps 0 _ d) (Nat.le_0_l _) G E).
  Qed.
  Lemma diag_keeps2 r p p' : good_steps p -> with_diag with_diagnostics diagnostics add_procedure_diagcyclev2 r p = Ok p' -> good_steps p' /\ length p' = length p.
  Proof.
    intros G E. unfold with_diag in E. destruct (diagnostic_params with_diagnostics diagnostics r) as [d|]; [|discriminate]. cbn [bind] in E. exact (done_keeps 0 _ p p' (diagcycle_v2_keeps 0 _ d) (Nat.le_0_l _) G E).
  Qed.
  Definition sound (w : world) (w' : world) : Prop := forall path p, sget (files w') path = Some (CProcedure p) -> sget (files w) path = Some (CProcedure p) \/ writable_steps p.
  Lemma sound_refl w : sound w w. Proof. intros path p H. left. exact H. Qed.
  Lemma sound_trans a b c : sound a b -> sound b c -> sound a c.
  Proof. intros A B path p H. destruct (B _ _ H) as [H'|H']; [apply A, H'|right; exact H']. Qed.
  Lemma sound_write w path c : (forall p, c = CProcedure p -> writable_steps p) -> sound w (write w path c).
  Proof.
    intros H q p E. unfold write in E. cbn [files] in E. rewrite sget_sset in E. destruct (String.eqb q path); [injection E as E; right; apply H; exact E|left; exact E].
  Qed.
  Lemma sound_config w cfg : sound w {| files := files w; config := cfg |}.
  Proof. intros path p H. left. exact H. Qed.
  Lemma sound_finish w path x w' o : (forall p, x = Ok (CProcedure p) -> writable_steps p) -> finish w path x = (w', o) -> sound w w'.
  Proof.
    intros H E. unfold finish in E. destruct x as [c|e]; injection E as <- _; [|apply sound_refl]. apply sound_write. intros p ->. apply H. reflexivity.
  Qed.
  Lemma long_sound i r w t w' x : good_row r -> writable_steps t -> length t = 96%nat -> long_procedure with_diagnostics diagnostics profiles charging_wave out i r w t = (w', x) ->
    sound w w' /\ forall p, x = Ok p -> writable_steps p.
  Proof.
    intros (_ & _ & _ & VP & VC & VD) [T1 T2] L E. unfold long_procedure in E.
    assert (Fin : forall p q, good_steps p -> length p = length t -> with_diag with_diagnostics diagnostics generate_procedure_diagcyclev3 r p = Ok q -> writable_steps q).
    { intros p q G LP Q. destruct (diag_keeps r p q G Q) as [G2 L2]. split; [lia|exact G2]. }
    destruct (String.eqb (project_name r) "RapidC").
    - destruct (charging_wave r) as [segs|e]; [|injection E as <- <-; split; [apply sound_refl|intros; discriminate]].
      destruct (_ <? _)%nat; [|injection E as <- <-; split; [apply sound_refl|intros; discriminate]]. injection E as <- <-. split; [apply sound_write; intros; discriminate|].
      intros q Q. match type of Q with (let! _ := done (generate_procedure_chargingv1 i _ ?a ?b ?f ?l t) in _) = _ => destruct (done (generate_procedure_chargingv1 i (reg r) a b f l t)) as [p|] eqn:P; [|discriminate];
        destruct (done_keeps 65 _ t p (charging_keeps i (reg r) a b f l ltac:(apply wave_name_visible, path_visible; unfold charging_name; repeat apply solid_app; auto using int_visible; apply visible_by; reflexivity)) ltac:(lia) T2 P) as [G2 L2] end.
      exact (Fin p q G2 L2 Q).
    - destruct (String.eqb (project_name r) "Drive").
      + destruct (profiles (discharge_profile r)) as [prof|e]; [|injection E as <- <-; split; [apply sound_refl|intros; discriminate]].
        destruct (insert_driving_parametersv1 (config w) prof (drive_of r)) as [cfg y]. destruct y as [segs|e]; [|injection E as <- <-; split; [apply sound_config|intros; discriminate]].
        injection E as <- <-. split; [eapply sound_trans; [apply sound_config|apply sound_write; intros; discriminate]|].
        intros q Q. match type of Q with (let! _ := done (generate_procedure_drivingv1 i _ ?f t) in _) = _ => destruct (done (generate_procedure_drivingv1 i (reg r) f t)) as [p|] eqn:P; [|discriminate];
          destruct (done_keeps 65 _ t p (driving_keeps i (reg r) f ltac:(apply wave_name_visible, path_visible; unfold driving_name; repeat apply solid_app; auto using int_visible; apply visible_by; reflexivity)) ltac:(lia) T2 P) as [G2 L2] end.
        exact (Fin p q G2 L2 Q).
      + injection E as <- <-. split; [apply sound_refl|]. intros q Q. destruct (done (generate_procedure_regcyclev3 i (reg r) t)) as [p|] eqn:P; [|discriminate].
        destruct (done_keeps 0 _ t p (regcycle_v3_keeps 0 i (reg r)) (Nat.le_0_l _) T2 P) as [G2 L2]. exact (Fin p q G2 L2 Q).
  Qed.
  Lemma row_sound i r w w' o : good_row r -> do_row templates formation with_diagnostics diagnostics profiles charging_wave out i r w = (w', o) -> sound w w'.
  Proof.
    intros G E. unfold do_row in E. destruct (contains ".000" (template r)).
    - destruct (_ && String.eqb (template r) "EXP.000").
      { revert E. apply sound_finish. intros p H. unfold load in H. destruct (templates "EXP.000") as [t|] eqn:TE; [|discriminate]. cbn [bind] in H. destruct (T _ _ TE) as [T1 T2].
        destruct (from_exp (cutoff_voltage r) (charge_rate r) (discharge_rate r) t) as [q|] eqn:Q; [|discriminate]. injection H as <-. destruct G as (G1 & G2 & G3 & _).
        destruct (exp_good _ _ _ t q G1 G2 G3 T2 Q) as [Q1 Q2]. split; [lia|exact Q1]. }
      destruct (match match templates (template r) with Some t => Some (length t) | None => None end with Some k => (k =? 72)%nat | None => false end).
      { revert E. apply sound_finish. intros p H. unfold load in H. destruct (templates "diagnosticV2.000") as [t|] eqn:TE; [|discriminate]. cbn [bind] in H. destruct (T _ _ TE) as [T1 T2].
        destruct (done (from_regcyclev2 (reg r) t)) as [p1|] eqn:P1; [|discriminate]. cbn [bind] in H. destruct (done_keeps 0 _ t p1 (regcycle_v2_keeps 0 (reg r)) (Nat.le_0_l _) T2 P1) as [A1 B1].
        destruct (with_diag with_diagnostics diagnostics add_procedure_diagcyclev2 r p1) as [p2|] eqn:P2; [|discriminate]. injection H as <-. destruct (diag_keeps2 r p1 p2 A1 P2) as [A2 B2]. split; [lia|exact A2]. }
      destruct (templates (template r)) as [t|] eqn:TE; cbn iota in E; [|injection E as <- _; apply sound_refl].
      destruct (Nat.eqb_spec (length t) 96) as [L|_]; [|injection E as <- _; apply sound_refl].
      destruct (long_procedure with_diagnostics diagnostics profiles charging_wave out i r w t) as [w1 x] eqn:LP. destruct (long_sound i r w t w1 x G (T _ _ TE) L LP) as [S1 S2].
      eapply sound_trans; [exact S1|]. revert E. apply sound_finish. intros p H. destruct x as [q|]; [|discriminate]. injection H as <-. apply S2. reflexivity.
    - destruct (contains ".mps" (template r) && String.eqb (template r) "formationV1.mps").
      + revert E. apply sound_finish. intros p H. destruct (formation r); discriminate.
      + destruct (contains ".sdu" (template r)); injection E as <- _; apply sound_refl.
  Qed.
  Lemma rows_sound l : Forall good_row l -> forall i w w' x, do_rows templates formation with_diagnostics diagnostics profiles charging_wave out i l w = (w', x) -> sound w w'.
  Proof.
    induction 1 as [|r l G _ IH]; intros i w w' x E; cbn [do_rows] in E; [injection E as <- _; apply sound_refl|].
    destruct (do_row templates formation with_diagnostics diagnostics profiles charging_wave out i r w) as [w1 o] eqn:R. pose proof (row_sound i r w w1 o G R) as S.
    destruct o; try (injection E as <- _; exact S);
      (destruct (do_rows templates formation with_diagnostics diagnostics profiles charging_wave out (i + 1) l w1) as [w2 y] eqn:D; injection E as <- _; eapply sound_trans; [exact S|exact (IH _ _ _ _ D)]).
  Qed.
  Lemma generated_sound names_file l w w' x : Forall good_row l ->
    generate_protocol_files_from_csv templates formation with_diagnostics diagnostics profiles charging_wave out names_file l w = (w', x) -> sound w w'.
  Proof.
    intros G E. unfold generate_protocol_files_from_csv in E. destruct (do_rows templates formation with_diagnostics diagnostics profiles charging_wave out 0 l w) as [w1 y] eqn:D.
    pose proof (rows_sound l G 0%Z w w1 y D) as S. destruct y as [os|e]; injection E as <- _; [|exact S]. eapply sound_trans; [exact S|]. apply sound_write. intros; discriminate.
  Qed.
End Generated.
Lemma names_ok : field_name "ProcSteps" /\ field_name "TestStep".
Proof. split; apply field_nameb_ok; reflexivity. Qed.
Lemma header_steps header p : good_header header -> writable_steps p -> plain (procedure_of header p) /\ complete (procedure_of header p).
Proof.
  intros (ND & NI & IN) [L G]. apply procedure_good; [|exact L|exact G]. constructor.
  - destruct header; discriminate.
  - rewrite map_app. cbn [map fst]. clear - ND NI. induction header as [|[k v] h IH]; [repeat constructor; intros []|]. cbn in *. inversion ND; subst. constructor; [|apply IH; [assumption|tauto]].
    intro J. apply in_app_or in J. destruct J as [J|[J|[]]]; [contradiction|]. apply NI. left. symmetry. exact J.
  - intros k v J. apply in_app_or in J. destruct J as [J|[J|[]]]; [apply IN, J|]. injection J as <- <-. split; [apply names_ok|]. constructor. constructor; [discriminate|repeat constructor; intros []|].
    intros k v [J|[]]. injection J as <- <-. split; [apply names_ok|]. constructor. constructor.
Qed.
Lemma shipped_header_good : good_header shipped_header.
Proof.
  split; [repeat constructor; intros []|]. split; [intros [E|[]]; discriminate E|]. intros k v [E|[]]. injection E as <- <-. split; [apply field_nameb_ok; reflexivity|]. constructor. apply plainb_ok. vm_compute. reflexivity.
Qed.
Lemma writable_by (p : steps) : (2 <=? length p)%nat && forallb (fun s => plainb s && stepb s) p = true -> writable_steps p.
Proof. intro H. apply andb_prop in H. destruct H as [A B]. split; [apply Nat.leb_le, A|apply steps_ok, B]. Qed.
Lemma shipped_writable t : In t [template_v2; template_v3; template_v4; template_v5; template_driving; template_exp] -> writable_steps t.
Proof. intros [<- |[<- |[<- |[<- |[<- |[<- |[]]]]]]]; apply writable_by; vm_compute; reflexivity. Qed.

(** ** The shipped files *)
Lemma read_v2 : from_file (join crlf file_v2) = Ok (procedure_of shipped_header template_v2). Proof. vm_compute. reflexivity. Qed.
Lemma read_v3 : from_file (join crlf file_v3) = Ok (procedure_of shipped_header template_v3). Proof. vm_compute. reflexivity. Qed.
Lemma read_v4 : from_file (join crlf file_v4) = Ok (procedure_of shipped_header template_v4). Proof. vm_compute. reflexivity. Qed.
Lemma read_v5 : from_file (join crlf file_v5) = Ok (procedure_of shipped_header template_v5). Proof. vm_compute. reflexivity. Qed.
Lemma read_driving : from_file (join (String nl "") file_driving) = Ok (procedure_of shipped_header template_driving). Proof. vm_compute. reflexivity. Qed.
Lemma read_exp : from_file (join (String nl "") file_exp) = Ok (procedure_of shipped_header template_exp). Proof. vm_compute. reflexivity. Qed.
Definition same_text (r : result string) (t : string) : bool := match r with Ok u => String.eqb u t | Err _ => false end.
Lemma same_text_ok r t : same_text r t = true -> r = Ok t.
Proof. destruct r as [u|]; [|discriminate]. cbn. intro H. apply String.eqb_eq in H. congruence. Qed.
Section Shipped.
  Variable show : val -> string.
  Lemma write_v2 : to_file show (procedure_of shipped_header template_v2) = Ok (join (String nl "") file_v2). Proof. apply same_text_ok. vm_cast_no_check (eq_refl true). Qed.
  Lemma write_v3 : to_file show (procedure_of shipped_header template_v3) = Ok (join (String nl "") file_v3). Proof. apply same_text_ok. vm_cast_no_check (eq_refl true). Qed.
  Lemma write_v4 : to_file show (procedure_of shipped_header template_v4) = Ok (join (String nl "") file_v4). Proof. apply same_text_ok. vm_cast_no_check (eq_refl true). Qed.
  Lemma write_v5 : to_file show (procedure_of shipped_header template_v5) = Ok (join (String nl "") file_v5). Proof. apply same_text_ok. vm_cast_no_check (eq_refl true). Qed.
  Lemma write_driving : to_file show (procedure_of shipped_header template_driving) = Ok (join (String nl "") file_driving). Proof. apply same_text_ok. vm_cast_no_check (eq_refl true). Qed.
  Lemma write_exp : to_file show (procedure_of shipped_header template_exp) = Ok (join (String nl "") file_exp). Proof. apply same_text_ok. vm_cast_no_check (eq_refl true). Qed.
End Shipped.
Lemma plain_named v : plain v -> named v.
Proof.
  induction v using val_nested; intro S; inversion S as [| |? GT|? NE ND IN]; subst; constructor. intros k w J. destruct (IN _ _ J) as [K W]. split; [exact K|]. rewrite Forall_forall in H.
  inversion W as [? W1|l L WL]; subst; [exact (H _ J W1)|]. constructor. intros x X. specialize (H0 _ _ J). rewrite Forall_forall in H0. exact (H0 x X (WL x X)).
Qed.
Lemma single_step show header step : ~ In "ProcSteps" (map fst header) -> step <> [] ->
  to_file show (VDict [("MaccorTestProcedure", VDict (header ++ [("ProcSteps", VDict [("TestStep", VDict step)])])%list)]) = Err TypeError.
Proof.
  intros NI NS.
  assert (E : update "ProcSteps" (update "TestStep" format_steps) (VDict (header ++ [("ProcSteps", VDict [("TestStep", VDict step)])])%list) = Err TypeError).
  { unfold update at 1. cbn [get1]. rewrite (sget_mid header [] "ProcSteps" (VDict [("TestStep", VDict step)]) NI). cbn [bind]. destruct step; [congruence|reflexivity]. }
  unfold to_file, format_maccor. unfold update at 1. cbn [get1 sget d_get find bind]. cbv beta. unfold sget. cbn. rewrite E. reflexivity.
Qed.
