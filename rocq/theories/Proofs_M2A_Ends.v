(** Lemmas for C40, C69, C71: limits and control of a converted step. *)
From Verif Require Import Py Num Model_Text Model_Arbin Model_M2A Spec_Numeral Spec_Arbin Spec_M2A
  Proofs_Strings Proofs_Text Proofs_Numeral Proofs_Diagnostic Proofs_Datapath Proofs_Structure Proofs_Arbin Proofs_Arbin_Set Proofs_M2A Proofs_M2A_Sdu.
From Verif Require Import Proofs_Units.

(** ** Durations *)
Lemma field_digits t z bound : two_digits t z bound -> exists ds, t = digits_text ds /\ Forall is_digit ds /\ (1 <= length ds <= 2)%nat /\ z = digits_val ds /\ (z < bound)%Z.
Proof. intros (ds & W & L & -> & B). apply written_iff in W. destruct W as [F ->]. exists ds. rewrite place_is_val in *. auto. Qed.
Lemma clock_field_ok ds bound : Forall is_digit ds -> (1 <= length ds <= 2)%nat -> (digits_val ds < bound)%Z -> clock_field bound (digits_text ds) = Ok (digits_val ds).
Proof.
  intros F L B. unfold clock_field. rewrite <- (app_nil_r_s (digits_text ds)), (span_digits_text ds "" F I).
  destruct (Nat.leb_spec 1 (length ds)); [|lia]. destruct (Nat.leb_spec (length ds) 2); [|lia]. destruct (Z.ltb_spec (digits_val ds) bound); [|lia]. reflexivity.
Qed.
Lemma fill_digits ds r : Forall is_digit ds -> fill_hours (digits_text ds ++ r) = (digits_text ds ++ fill_hours r)%string.
Proof.
  intro F. induction F as [|d ds D F IH]; [reflexivity|]. cbn [digits_text append]. unfold is_digit in D. remember (digits_text ds ++ r)%string as t.
  do 10 (destruct d as [|d]; [change (fill_hours (String (digit_char _) t)) with (String (digit_char (S d)) (fill_hours t)) || cbn [fill_hours digit_char]; cbn; rewrite IH; reflexivity|]). lia.
Qed.
Lemma fill_colon d ds r : Forall is_digit (d :: ds) -> fill_hours (":" ++ digits_text (d :: ds) ++ r) = (":" ++ digits_text (d :: ds) ++ fill_hours r)%string.
Proof.
  intro F. rewrite <- (fill_digits (d :: ds) r F). inversion F as [|? ? D F']; subst. unfold is_digit in D. cbn [digits_text append]. remember (digits_text ds ++ r)%string as t.
  do 10 (destruct d as [|d]; [reflexivity|]). lia.
Qed.
Lemma digits_free ds c : Forall is_digit ds -> In c ["."; "-"; "_"; "["; "]"; "="; " "; ":"]%char -> contains (String c "") (digits_text ds) = false.
Proof. intros F I. apply (avoids_free [c]); [|left; reflexivity]. intros x X [<-|[]]. exact (digits_avoid ds c F I X). Qed.
Lemma clock_ok t z : clock t z -> clock_seconds (fill_hours t) = Ok z /\ contains "." t = false.
Proof.
  intros [(h & m & s & hz & mz & sz & -> & H & M & S & ->)|(s & ds & -> & W & L & ->)].
  - apply field_digits in H, M, S. destruct H as (dh & -> & Fh & Lh & -> & Bh), M as (dm & -> & Fm & Lm & -> & Bm), S as (dsx & -> & Fs & Ls & -> & Bs).
    destruct dm as [|m1 dm]; [cbn in Lm; lia|]. destruct dsx as [|s1 dsx]; [cbn in Ls; lia|].
    rewrite fill_digits by exact Fh. rewrite fill_colon by exact Fm. rewrite <- (app_nil_r_s (digits_text (s1 :: dsx))) at 1. rewrite fill_colon by exact Fs. cbn [fill_hours]. rewrite app_nil_r_s.
    split.
    + unfold clock_seconds. change (":" ++ digits_text (m1 :: dm) ++ ":" ++ digits_text (s1 :: dsx))%string with (String ":" (digits_text (m1 :: dm) ++ String ":" (digits_text (s1 :: dsx)))).
      rewrite str_split_char by (apply digits_free; [exact Fh|cbn; auto 10]). rewrite str_split_char by (apply digits_free; [exact Fm|cbn; auto 10]). rewrite str_split_none by (apply digits_free; [exact Fs|cbn; auto 10]).
      rewrite (clock_field_ok dh 24 Fh Lh Bh), (clock_field_ok _ 60 Fm Lm Bm), (clock_field_ok _ 60 Fs Ls Bs). reflexivity.
    + change (":" ++ digits_text (m1 :: dm) ++ ":" ++ digits_text (s1 :: dsx))%string with (String ":" (digits_text (m1 :: dm) ++ String ":" (digits_text (s1 :: dsx)))).
      assert (X : forall ds, Forall is_digit ds -> char_free "." (digits_text ds)) by (intros ds F; apply digits_free; [exact F|left; reflexivity]).
      apply char_free_app. split; [apply X; exact Fh|]. apply char_free_cons. split; [discriminate|]. apply char_free_app. split; [apply X; exact Fm|]. apply char_free_cons. split; [discriminate|]. apply X. exact Fs.
  - apply written_iff in W. destruct W as [F ->]. rewrite place_is_val. destruct ds as [|d [|? ?]]; [split; reflexivity| |cbn in L; lia].
    inversion F; subst. unfold is_digit in *. do 10 (destruct d as [|d]; [split; vm_compute; reflexivity|]). lia.
Qed.
Lemma text_len ds : String.length (digits_text ds) = length ds.
Proof. induction ds as [|d ds IH]; [reflexivity|]. cbn. rewrite IH. reflexivity. Qed.
Lemma text_app a b : digits_text (a ++ b) = (digits_text a ++ digits_text b)%string.
Proof. induction a as [|d a IH]; [reflexivity|]. cbn [app digits_text append]. rewrite IH. reflexivity. Qed.
Lemma micro (z : Z) n : (n <= 6)%nat -> inject_Z (z * 10 ^ Z.of_nat (6 - n)) / 1000000 == inject_Z z / inject_Z (10 ^ Z.of_nat n).
Proof.
  intro L. rewrite inject_Z_mult. generalize (inject_Z z). intro q.
  do 7 (destruct n as [|n]; [cbn [Nat.sub]; match goal with |- _ * inject_Z ?a / _ == _ / inject_Z ?b => let a' := eval vm_compute in a in let b' := eval vm_compute in b in change a with a'; change b with b' end; unfold inject_Z; field|]). lia.
Qed.
Lemma take_all n t : (String.length t <= n)%nat -> take_chars n t = t.
Proof. revert t. induction n as [|n IH]; intros [|c t] H; cbn in *; try reflexivity; try lia. rewrite IH by lia. reflexivity. Qed.
Lemma elapsed_ok v x : duration_text v x -> exists y, elapsed v = Ok y /\ y == x.
Proof.
  intros [(z & C & E)|(a & b & z & f & -> & C & (ds & W & L & EF) & E)].
  - apply clock_ok in C. destruct C as [C N]. unfold elapsed. rewrite N, C. exists (inject_Z z). split; [reflexivity|]. symmetry. exact E.
  - apply clock_ok in C. destruct C as [C N]. apply written_iff in W. destruct W as [F ->]. unfold elapsed. rewrite place_is_val in EF.
    assert (CT : contains "." (a ++ "." ++ digits_text ds) = true) by (apply contains_iff; eauto). rewrite CT.
    change (a ++ "." ++ digits_text ds)%string with (a ++ String "." (digits_text ds))%string. rewrite str_split_char by exact N. rewrite str_split_none by (apply digits_free; [exact F|left; reflexivity]).
    rewrite take_all by (rewrite text_len; exact L). rewrite text_len, <- text_app, C. cbn [bind].
    assert (G : Forall is_digit (ds ++ zeros (6 - length ds))) by (apply Forall_app; split; [exact F|apply zeros_digit]).
    unfold py_int. rewrite parse_int_digits; [|exact G|]. 2:{ intro X. apply (f_equal (@length nat)) in X. rewrite app_length, zeros_length in X. cbn [length] in X. lia. }
    cbn [bind]. destruct (Z.ltb_spec (digits_val (ds ++ zeros (6 - length ds))) 0) as [X|_]; [pose proof (digits_val_nonneg (ds ++ zeros (6 - length ds))); lia|].
    eexists. split; [reflexivity|]. rewrite E, EF, digits_val_zeros_r. apply Qplus_comp; [reflexivity|]. apply micro. exact L.
Qed.

(** ** Settings of a converted step *)
Lemma drop_blanks raw : without_blanks raw (drop_char " " raw).
Proof.
  unfold without_blanks. induction raw as [|c r IH]; [reflexivity|]. cbn. destruct (Ascii.eqb c " "); cbn; [exact IH|]. rewrite IH. reflexivity.
Qed.
Lemma blanks_fun raw a b : without_blanks raw a -> without_blanks raw b -> a = b.
Proof. unfold without_blanks. intros A B. apply list_ascii_inj. congruence. Qed.
Lemma fld_ok d k v : fld d k = Ok v <-> sget d k = Some v.
Proof. unfold fld. destruct (sget d k); split; intro H; try discriminate; injection H as ->; reflexivity. Qed.
Lemma minus_decimal v x : no_sign v -> decimal v x -> decimal ("-" ++ v) (- x).
Proof.
  intros U (sgn & neg & ip & is & fp & fs & ex & es & -> & SG & W & NE & FS & ES & E). assert (X : sgn = ""%string /\ neg = false).
  { destruct SG as [[[->| ->] ->]|[-> ->]]; [auto| |]; [destruct (U (is ++ fs ++ es)%string) as [_ Y]|destruct (U (is ++ fs ++ es)%string) as [Y _]]; destruct Y; reflexivity. }
  destruct X as [-> ->]. exists "-"%string, true, ip, is, fp, fs, ex, es. split; [reflexivity|]. split; [right; auto|]. split; [exact W|]. split; [exact NE|]. split; [exact FS|]. split; [exact ES|].
  rewrite E. ring.
Qed.
Lemma compares_opposite o i x : In o ["<="; "<"; "="]%string -> (compares o i x <-> compares (replace_char "<" ">" o) (- i) (- x)).
Proof.
  intros [<-|[<-|[<-|[]]]]; cbn [replace_char Ascii.eqb Bool.eqb]; unfold compares.
  - split; intros [[? H]|[[? H]|[[? H]|[[? H]|[? H]]]]]; try discriminate; [left|right; left]; (split; [reflexivity|lra]).
  - split; intros [[? H]|[[? H]|[[? H]|[[? H]|[? H]]]]]; try discriminate; [do 2 right; left|do 3 right; left]; (split; [reflexivity|lra]).
  - split; intros [[? H]|[[? H]|[[? H]|[[? H]|[? H]]]]]; try discriminate; do 4 right; (split; [reflexivity|lra]).
Qed.

Definition goto_of (names : list string) (j : nat) (step goto : string) : Prop :=
  (if String.eqb step (zfill 3 (str_int (Z.of_nat j + 2))) then Ok "Next Step"%string
   else (let! n := py_int step in match py_nth names (n - 1) with Some l => Ok l | None => Err IndexError end)) = Ok goto.
Definition limit_fields (l : list (string * string)) (stops logs goto left sign right : string) : Prop :=
  sget l "m_bStepLimit" = Some stops /\ sget l "m_bLogDataLimit" = Some logs /\ sget l "m_szGotoStep" = Some goto /\
  sget l "Equation0_szLeft" = Some left /\ sget l "Equation0_szCompareSign" = Some sign /\ sget l "Equation0_szRight" = Some right /\
  sget l "Equation1_szLeft" = Some ""%string /\ sget l "Equation2_szLeft" = Some ""%string.
(** [says] with the control type given *)
Definition says_for (show : Q -> string) (ctrl ty : string) (e : list (string * string)) (left sign right : string) : Prop :=
  exists kind v, sget e "EndType" = Some kind /\ sget e "Value" = Some v /\
  let oper o := exists raw, sget e "Oper" = Some raw /\ without_blanks raw o in
  (kind = "Voltage"%string /\ left = "PV_CHAN_Voltage"%string /\ oper sign /\ right = v) \/
  (kind = "Current"%string /\ (ctrl = "CCCV"%string /\ left = "PV_CHAN_CV_Stage_Current"%string \/ ctrl = "Voltage(V)"%string /\ left = "PV_CHAN_Current"%string) /\
     (ty = "Charge"%string /\ oper sign /\ right = v \/
      ty = "Dischrge"%string /\ exists o, oper o /\ right = ("-" ++ v)%string /\
        forall i x, (no_sign v -> decimal v x -> decimal right (- x)) /\ (In o ["<="; "<"; "="]%string -> (compares o i x <-> compares sign (- i) (- x))))) \/
  (kind = "StepTime"%string /\ left = "PV_CHAN_Step_Time"%string /\ sign = ">"%string /\ forall x, duration_text v x -> exists y, y == x /\ right = show y) \/
  (kind = "Loop Cnt"%string /\ (In ty ["Loop 1"; "Loop 2"]%string -> exists dname, In (ty, dname, left) loop_names) /\ oper sign /\ right = v).
Lemma convert_end_says show ctrl e i names ty flow l : convert_end show ctrl e i names ty flow = Ok l -> sget e "EndType" <> Some "Loop Addendum"%string ->
  exists step goto left sign right, sget e "Step" = Some step /\ goto_of names i step goto /\ limit_fields l "1" "1" goto left sign right /\ says_for show ctrl ty e left sign right.
Proof.
  unfold convert_end. intros H NA. destruct (fld e "Step") as [step|] eqn:S; [|discriminate]. cbn [bind] in H.
  match type of H with bind ?g _ = _ => destruct g as [goto|] eqn:G end; [|discriminate]. cbn [bind] in H. destruct (fld e "EndType") as [k|] eqn:K; [|discriminate]. cbn [bind] in H.
  apply fld_ok in S, K. exists step, goto.
  assert (FIN : forall left sign right rest, Ok (limit_with ([("m_bStepLimit", "1"); ("m_bLogDataLimit", "1"); ("m_szGotoStep", goto)]%string ++ rest)) = Ok l ->
     (rest = [("Equation0_szLeft", left); ("Equation0_szCompareSign", sign); ("Equation0_szRight", right)]%string \/ rest = [("Equation0_szLeft", left); ("Equation0_szRight", right); ("Equation0_szCompareSign", sign)]%string) ->
     says_for show ctrl ty e left sign right ->
     exists left sign right, sget e "Step" = Some step /\ goto_of names i step goto /\ limit_fields l "1" "1" goto left sign right /\ says_for show ctrl ty e left sign right).
  { intros left sign right rest E R SF. injection E as <-. exists left, sign, right. split; [exact S|]. split; [exact G|]. split; [destruct R as [-> | ->]; repeat split; reflexivity|exact SF]. }
  assert (CUR : forall left, k = "Current"%string -> (ctrl = "CCCV"%string /\ left = "PV_CHAN_CV_Stage_Current"%string \/ ctrl = "Voltage(V)"%string /\ left = "PV_CHAN_Current"%string) ->
     (let! rest := (let! o := fld e "Oper" in let! v := fld e "Value" in current_limit left ty o v) in
      Ok (limit_with ([("m_bStepLimit", "1"); ("m_bLogDataLimit", "1"); ("m_szGotoStep", goto)]%string ++ rest))) = Ok l ->
     exists left sign right, sget e "Step" = Some step /\ goto_of names i step goto /\ limit_fields l "1" "1" goto left sign right /\ says_for show ctrl ty e left sign right).
  { intros left EK LC E. destruct (fld e "Oper") as [o|] eqn:O; [|discriminate]. cbn [bind] in E. destruct (fld e "Value") as [v|] eqn:V; [|discriminate]. cbn [bind] in E. apply fld_ok in O, V.
    unfold current_limit in E. destruct (String.eqb_spec ty "Charge") as [->|].
    - cbn [bind] in E. eapply FIN; [exact E|right; reflexivity|]. exists k, v. split; [exact K|]. split; [exact V|]. right. left. split; [exact EK|]. split; [exact LC|]. left. split; [reflexivity|]. split; [|reflexivity]. exists o. split; [exact O|apply drop_blanks].
    - destruct (String.eqb_spec ty "Dischrge") as [->|]; [|discriminate]. cbn [bind] in E. eapply FIN; [exact E|right; reflexivity|]. exists k, v. split; [exact K|]. split; [exact V|]. right. left. split; [exact EK|]. split; [exact LC|]. right. split; [reflexivity|].
      exists (drop_char " " o). split; [exists o; split; [exact O|apply drop_blanks]|]. split; [reflexivity|]. intros q x. split; [intros U DX; apply minus_decimal; assumption|]. intro IO. apply compares_opposite. exact IO. }
  destruct (String.eqb_spec k "Voltage") as [->|NV].
  { destruct (fld e "Oper") as [o|] eqn:O; [|discriminate]. cbn [bind] in H. destruct (fld e "Value") as [v|] eqn:V; [|discriminate]. cbn [bind] in H. apply fld_ok in O, V.
    eapply FIN; [exact H|left; reflexivity|]. exists "Voltage"%string, v. split; [exact K|]. split; [exact V|]. left. repeat (split; [reflexivity|]). split; [|reflexivity]. exists o. split; [exact O|apply drop_blanks]. }
  destruct (String.eqb_spec k "Current") as [EC|NC]; [destruct (String.eqb_spec ctrl "CCCV") as [CC|NCC]|]; cbn [andb] in H.
  { eapply CUR; [exact EC|left; split; [exact CC|reflexivity]|exact H]. }
  { destruct (String.eqb_spec ctrl "Voltage(V)") as [CC|NVV]; [eapply CUR; [exact EC|right; split; [exact CC|reflexivity]|exact H]|]. subst k. discriminate H. }
  destruct (String.eqb_spec k "StepTime") as [->|NT].
  { destruct (fld e "Value") as [v|] eqn:V; [|discriminate]. cbn [bind] in H. destruct (elapsed v) as [y|] eqn:EL; [|discriminate]. cbn [bind] in H. apply fld_ok in V.
    eapply FIN; [exact H|left; reflexivity|]. exists "StepTime"%string, v. split; [exact K|]. split; [exact V|]. do 2 right. left. repeat (split; [reflexivity|]). intros x DX. destruct (elapsed_ok v x DX) as (y' & E1 & E2). rewrite E1 in EL. injection EL as ->. exists y. auto. }
  destruct (String.eqb_spec k "Loop Cnt") as [->|NL].
  { destruct (first_number ty) as [n|] eqn:FN; [|discriminate]. cbn [bind] in H. destruct (fld e "Oper") as [o|] eqn:O; [|discriminate]. cbn [bind] in H. destruct (fld e "Value") as [v|] eqn:V; [|discriminate]. cbn [bind] in H. apply fld_ok in O, V.
    eapply FIN; [exact H|left; reflexivity|]. exists "Loop Cnt"%string, v. split; [exact K|]. split; [exact V|]. do 3 right. split; [reflexivity|]. split; [|split; [|reflexivity]; exists o; split; [exact O|apply drop_blanks]].
    intros [<-|[<-|[]]]; injection FN as <-; [exists "Do 1"%string|exists "Do 2"%string]; cbn; auto. }
  destruct (String.eqb_spec k "Loop Addendum") as [->|NLA]; [contradiction|discriminate].
Qed.
Lemma convert_report_says show r l : convert_report show r = Ok l -> In (sget r "ReportType") [Some "Voltage"; Some "Current"; Some "StepTime"]%string ->
  exists left sign right, limit_fields l "0" "1" "Next Step" left sign right /\ reports_same show r left sign right.
Proof.
  unfold convert_report. intros H KN. destruct (fld r "ReportType") as [k|] eqn:K; [|discriminate]. cbn [bind] in H. apply fld_ok in K.
  destruct (String.eqb_spec k "Voltage") as [->|NV].
  { destruct (fld r "Value") as [v|] eqn:V; [|discriminate]. cbn [bind] in H. apply fld_ok in V. injection H as <-. exists "DV_Voltage"%string, ">"%string, v. split; [repeat split; reflexivity|]. exists "Voltage"%string, v. auto 10. }
  destruct (String.eqb_spec k "Current") as [->|NC].
  { destruct (fld r "Value") as [v|] eqn:V; [|discriminate]. cbn [bind] in H. apply fld_ok in V. injection H as <-. exists "DV_Current"%string, ">"%string, v. split; [repeat split; reflexivity|]. exists "Current"%string, v. auto 10. }
  destruct (String.eqb_spec k "StepTime") as [->|NT].
  { destruct (fld r "Value") as [v|] eqn:V; [|discriminate]. cbn [bind] in H. destruct (elapsed v) as [y|] eqn:EL; [|discriminate]. cbn [bind] in H. apply fld_ok in V. injection H as <-.
    exists "DV_Time"%string, ">"%string, (show y). split; [repeat split; reflexivity|]. exists "StepTime"%string, v. split; [exact K|]. split; [exact V|]. split; [reflexivity|]. right. right. split; [reflexivity|]. split; [reflexivity|].
    intros x DX. destruct (elapsed_ok v x DX) as (y' & E1 & E2). rewrite E1 in EL. injection EL as ->. exists y. auto. }
  exfalso. rewrite K in KN. destruct KN as [E|[E|[E|[]]]]; injection E as E; congruence.
Qed.
Lemma looping_loops st i flow b b' ends : set_control st i flow b = Ok (b', ends) -> looping st = true -> loops st.
Proof.
  intros H L. unfold looping in L. unfold loops. unfold set_control in H. destruct (a_mode st); [discriminate|]. split; [reflexivity|].
  destruct (String.eqb_spec (a_type st) "Rest") as [E|_]; [rewrite E in L; discriminate|].
  destruct (str_in (a_type st) _) eqn:SI; [|discriminate]. apply existsb_exists in SI. destruct SI as (x & I & E). apply String.eqb_eq in E. rewrite E in *.
  cbn in I. destruct I as [<-|[<-|[<-|[<-|[<-|[<-|[]]]]]]]; try discriminate L; cbn; auto.
Qed.
Lemma loops_looping st : loops st -> looping st = true.
Proof. intros [M [T|[T|[]]]]; unfold looping; rewrite M, <- T; reflexivity. Qed.
Lemma F2_at {A B} (R : A -> B -> Prop) l ys k x : Forall2 R l ys -> nth_error l k = Some x -> exists y, nth_error ys k = Some y /\ R x y.
Proof. intro F. revert k. induction F as [|a b l ys AB F IH]; intros [|k] N; try discriminate; cbn in *; [injection N as <-; eauto|apply IH; exact N]. Qed.

Lemma Forall2_inv_head {A B} (R : A -> B -> Prop) x y l ys : Forall2 R (x :: l) (y :: ys) -> R x y.
Proof. intro F. inversion F; assumption. Qed.

Lemma drop_free r : contains "C" r = false -> drop_char "C" (r ++ "C") = r.
Proof.
  intro H. change (char_free "C" r) in H. induction r as [|x r IH]; [reflexivity|]. apply char_free_cons in H. destruct H as [NE H]. cbn. destruct (Ascii.eqb_spec x "C"); [contradiction|]. f_equal. apply IH. exact H.
Qed.
Lemma has_c r : contains "C" (r ++ "C") = true.
Proof. apply contains_iff. exists r, ""%string. reflexivity. Qed.
Lemma set_controls st i flow b0 ends cr lab c v w : set_control st i flow (puts blank_body [("m_szLabel", lab); ("m_szCurrentRange", cr)]%string) = Ok (b0, ends) -> controls st c v w ->
  sget b0 "m_szStepCtrlType" = Some (Leaf c) /\ sget b0 "m_szCtrlValue" = Some (Leaf v) /\ sget b0 "m_szExtCtrlValue1" = Some (Leaf w).
Proof.
  intros H C. unfold set_control in H. destruct C.
  - rewrite H0, H1, H2, H3 in H. cbn [String.eqb Ascii.eqb Bool.eqb] in H. destruct H4 as [[T ->]|[T ->]]; rewrite T in H; cbn [String.eqb Ascii.eqb Bool.eqb bind] in H; injection H as <- _; repeat split; reflexivity.
  - rewrite H0, H1, H3, has_c in H. cbn [String.eqb Ascii.eqb Bool.eqb] in H. rewrite drop_free in H by assumption. destruct H4 as [[T ->]|[T ->]]; rewrite T in H; cbn [String.eqb Ascii.eqb Bool.eqb bind] in H; injection H as <- _; repeat split; reflexivity.
  - rewrite H0, H1, H2, H3 in H. cbn [String.eqb Ascii.eqb Bool.eqb] in H. apply fld_ok in H4. rewrite H4 in H. destruct H5 as [[T ->]|[T ->]]; rewrite T in H; cbn [String.eqb Ascii.eqb Bool.eqb bind] in H; injection H as <- _; repeat split; reflexivity.
  - rewrite H0, H1, H2 in H. cbn [String.eqb Ascii.eqb Bool.eqb] in H. destruct H3 as [[T _]|[T _]]; rewrite T in H; cbn [String.eqb Ascii.eqb Bool.eqb bind orb] in H; injection H as <- _; repeat split; reflexivity.
  - rewrite H0, H1, H2 in H. cbn [String.eqb Ascii.eqb Bool.eqb] in H. apply fld_ok in H3. rewrite H3 in H. cbn [bind] in H. rewrite H4 in H. destruct H5 as [[T ->]|[T ->]]; rewrite T in H; cbn [String.eqb Ascii.eqb Bool.eqb bind orb] in H; injection H as <- _; repeat split; reflexivity.
  - rewrite H0, H1, H2 in H. cbn [String.eqb Ascii.eqb Bool.eqb bind] in H. injection H as <- _; repeat split; reflexivity.
  - rewrite H0, H1 in H. destruct H2 as [E|[E|[]]]; injection E as <- <-; cbn [String.eqb Ascii.eqb Bool.eqb] in H;
    (match type of H with (if ?x then _ else _) = _ => change x with true in H end); cbv iota in H;
    (match type of H with (if ?x then _ else _) = _ => change x with true in H end); cbv iota in H; cbn [first_number bind] in H;
    match type of H with bind ?x _ = _ => change x with (@Ok Z 1%Z) in H || change x with (@Ok Z 2%Z) in H end; cbn [bind] in H;
    (destruct (d_get Z.eqb flow (Z.of_nat i)) as [g|]; [|discriminate]); destruct (a_ends st) as [|e|]; try discriminate; (destruct (fld e "Value"); [|discriminate]); cbn [bind] in H; injection H as <- _; repeat split; reflexivity.
  - rewrite H0, H1 in H. destruct H2 as [E|[E|[]]]; injection E as <- <-; injection H as <- _; repeat split; reflexivity.
  - rewrite H0, H1 in H. injection H as <- _; repeat split; reflexivity.
Qed.

Section Converted.
  Variables (show : Q -> string) (steps : list astep) (cr v t c : string) (temp : bool) (s s' : node) (names0 : list string) (sts : list astep).
  Hypothesis D : distinct s.
  Hypothesis SA : steps_are s names0.
  Hypothesis PN : plain_names names0.
  Hypothesis H : create_sdu show steps cr (v, t, c) temp s = Ok (s', sts).

  Lemma conv_distinct : distinct s'.
  Proof. exact (proj1 (create_sdu_spec _ _ _ _ _ _ _ _ _ _ _ D SA PN H)). Qed.
  (** one step of the result *)
  Lemma conv_step j st : nth_error steps j = Some st ->
    exists flow b0 b ends els rls start,
      create_metadata steps = Ok (labels 0 steps, flow) /\
      set_control st j flow (puts blank_body [("m_szLabel", label_of j st); ("m_szCurrentRange", cr)]%string) = Ok (b0, ends) /\
      (if looping st then loop_ends st j flow ends else ends = a_ends st) /\ nth_error sts j = Some (with_ends st ends) /\
      end_limits show b0 ends j (labels 0 steps) (a_type st) flow = Ok els /\ report_limits show st ends rls start /\
      (rls <> [] -> (length els <= start)%nat) /\ get_keys ["Schedule"; step_key j]%string s' = Some (Dict (b ++ keyed 0 els ++ keyed start rls)) /\ fields b /\
      (forall f, f <> "m_uLimitNum"%string -> sget b f = sget b0 f) /\
      sget b "m_szLabel" = Some (Leaf (label_of j st)) /\ sget b "m_szCurrentRange" = Some (Leaf cr) /\
      sget b "m_uLimitNum" = Some (Leaf (str_int (Z.of_nat (length els + length rls)))).
  Proof.
    intro N. destruct (create_sdu_spec _ _ _ _ _ _ _ _ _ _ _ D SA PN H) as (_ & _ & flow & CM & G & _). destruct (G j st N) as (b' & st' & C & NS & GK).
    destruct (compile_shape _ _ _ _ _ _ _ _ C) as (b0 & b & ends & els & rls & start & A1 & A2 & A3 & A4 & A5 & A6 & A7 & A8 & A9 & A10 & A11 & A12).
    exists flow, b0, b, ends, els, rls, start. subst st' b'. repeat (split; [assumption|]). assumption.
  Qed.
  Lemma conv_get j d p w : get_keys ["Schedule"; step_key j]%string s' = Some (Dict d) -> (step_has s' j p w <-> get_keys p (Dict d) = Some (Leaf w)).
  Proof.
    intro G. unfold step_has. rewrite (holds_get _ _ _ conv_distinct). change ("Schedule" :: step_key j :: p)%string with (["Schedule"; step_key j]%string ++ p) || change ("Schedule"%string :: step_key j :: p) with (["Schedule"; step_key j]%string ++ p).
    rewrite get_app, G. reflexivity.
  Qed.
  Lemma conv_in_range j p w : step_has s' j p w -> exists st, nth_error steps j = Some st.
  Proof.
    intro X. destruct (nth_error steps j) as [st|] eqn:E; [eauto|]. exfalso. apply nth_error_None in E. unfold step_has in X. rewrite (holds_get _ _ _ conv_distinct) in X.
    destruct (create_sdu_spec _ _ _ _ _ _ _ _ _ _ _ D SA PN H) as (_ & _ & flow & _ & _ & _ & _ & _ & G). rewrite G in X; [discriminate|apply step_key_named|].
    intros i L K. apply step_key_inj in K. lia.
  Qed.
  Lemma conv_field j st d b r f w : nth_error steps j = Some st -> get_keys ["Schedule"; step_key j]%string s' = Some (Dict d) -> d = b ++ r -> fields b -> sget b f = Some (Leaf w) -> step_has s' j [f] w.
  Proof. intros N G -> F E. apply (conv_get j _ _ _ G). cbn [get_keys]. rewrite sget_app, E. reflexivity. Qed.
  Lemma conv_label j st : nth_error steps j = Some st -> names_step s' j (label_of j st).
  Proof.
    intro N. destruct (conv_step j st N) as (flow & b0 & b & ends & els & rls & start & _ & _ & _ & _ & _ & _ & _ & G & F & _ & L & _). split.
    - eapply conv_field; try eassumption. reflexivity.
    - intros i X. destruct (conv_in_range _ _ _ X) as (sti & NI). destruct (conv_step i sti NI) as (flow' & b0' & b' & ends' & els' & rls' & start' & _ & _ & _ & _ & _ & _ & _ & G' & F' & _ & L' & _).
      apply (conv_get i _ _ _ G') in X. cbn [get_keys] in X. rewrite sget_app, L' in X. injection X as X. apply label_inj in X. symmetry. congruence.
  Qed.
  Lemma conv_range j st : nth_error steps j = Some st -> step_has s' j ["m_szCurrentRange"]%string cr.
  Proof.
    intro N. destruct (conv_step j st N) as (flow & b0 & b & ends & els & rls & start & _ & _ & _ & _ & _ & _ & _ & G & F & _ & _ & R & _). eapply conv_field; try eassumption. reflexivity.
  Qed.
  (** the fields of a limit *)
  Lemma as_node_get l f : get_keys [f] (as_node l) = match sget l f with Some w => Some (Leaf w) | None => None end.
  Proof.
    unfold as_node. cbn [get_keys]. unfold sget. induction l as [|[k w] l IH]; [reflexivity|]. cbn. destruct (String.eqb f k); [reflexivity|exact IH].
  Qed.
  Lemma conv_limit j b els rls start k l f w : get_keys ["Schedule"; step_key j]%string s' = Some (Dict (b ++ keyed 0 els ++ keyed start rls)) -> fields b ->
    (nth_error els k = Some l \/ (rls <> [] -> (length els <= start)%nat) /\ exists m, k = (start + m)%nat /\ nth_error rls m = Some l) ->
    sget l f = Some w -> step_has s' j [limit_name k; f] w.
  Proof.
    intros G F K E. apply (conv_get j _ _ _ G). change [limit_name k; f] with ([limit_name k] ++ [f]). rewrite get_app. cbn [get_keys]. rewrite sget_app.
    pose proof (fields_limit b k F) as N. rewrite smem_sget in N. change (limit_name k) with (limit_key k). destruct (sget b (limit_key k)); [discriminate|]. rewrite sget_app.
    assert (X : match sget (keyed 0 els) (limit_key k) with Some x => Some x | None => sget (keyed start rls) (limit_key k) end = Some (as_node l)).
    { destruct K as [K|(LS & m & -> & K)].
      - pose proof (keyed_get 0 els k l K) as Y. cbn [Nat.add] in Y. rewrite Y. reflexivity.
      - assert (RN : rls <> []) by (intro X; rewrite X in K; destruct m; discriminate). specialize (LS RN). rewrite keyed_above by lia. apply keyed_get. exact K. }
    rewrite X. pose proof (as_node_get l f) as Y. cbn [get_keys] in Y. rewrite E in Y. exact Y.
  Qed.
  Lemma conv_goto j st step n goto : nth_error steps j = Some st -> integer step n -> (1 <= n)%Z ->
    (if String.eqb step (zfill 3 (str_int (Z.of_nat j + 2))) then Ok "Next Step"%string
     else (let! n := py_int step in match py_nth (labels 0 steps) (n - 1) with Some l => Ok l | None => Err IndexError end)) = Ok goto ->
    leads_to s' j goto (Z.to_nat (n - 1)).
  Proof.
    intros N I P X. apply integer_iff in I. destruct (String.eqb_spec step (zfill 3 (str_int (Z.of_nat j + 2)))) as [E|_].
    - injection X as <-. left. split; [reflexivity|]. rewrite E, parse_zfill in I by lia. injection I as <-. lia.
    - unfold py_int in X. rewrite I in X. cbn [bind] in X. unfold py_nth in X. destruct (Z.leb_spec 0 (n - 1)); [|lia].
      destruct (nth_error (labels 0 steps) (Z.to_nat (n - 1))) as [l|] eqn:E; [|discriminate]. injection X as <-. right.
      destruct (nth_error steps (Z.to_nat (n - 1))) as [st'|] eqn:E'; [|apply nth_error_None in E'; assert (Y : nth_error (labels 0 steps) (Z.to_nat (n - 1)) <> None) by congruence; apply nth_error_Some in Y; rewrite labels_length in Y; lia].
      rewrite (labels_nth 0 _ _ _ E') in E. injection E as <-. apply conv_label. exact E'.
  Qed.
  Lemma conv_ctrl b b0 : fields b -> (forall f, f <> "m_uLimitNum"%string -> sget b f = sget b0 f) -> sget b "m_szStepCtrlType" = Some (Leaf (ctrl_type b0)).
  Proof.
    intros [K F] E. assert (X : smem b "m_szStepCtrlType" = true) by (apply smem_in; rewrite K; cbn; auto). rewrite smem_sget in X. unfold ctrl_type. rewrite <- (E "m_szStepCtrlType"%string) by discriminate.
    destruct (sget b "m_szStepCtrlType") as [n|] eqn:G; [|discriminate]. assert (IN : In ("m_szStepCtrlType"%string, n) b).
    { clear -G. unfold sget in G. induction b as [|[k w] b IH]; [discriminate|]. cbn [d_get] in G. destruct (String.eqb_spec "m_szStepCtrlType" k) as [<-|]; [injection G as ->; left; reflexivity|right; auto]. }
    rewrite Forall_forall in F. destruct (F _ IN) as (w & EW). cbn in EW. subst n. reflexivity.
  Qed.
  Theorem conv_ends j st k e : nth_error steps j = Some st -> end_at st k e -> sget e "EndType" <> Some "Loop Addendum"%string ->
    exists step goto left sign right, limit_is s' j k "1" "1" goto left sign right /\ says show s' j (a_type st) e left sign right /\
      sget e "Step" = Some step /\ forall n, integer step n -> (1 <= n)%Z -> leads_to s' j goto (Z.to_nat (n - 1)).
  Proof.
    intros N EA NA. destruct (conv_step j st N) as (flow & b0 & b & ends & els & rls & start & CM & SC & LE & _ & EL & _ & LS & G & F & EQ & _).
    assert (X : exists l, nth_error els k = Some l /\ convert_end show (ctrl_type b0) e j (labels 0 steps) (a_type st) flow = Ok l).
    { destruct EA as [(es & AE & NE)|[AE [[LO ->]|[NL ->]]]].
      - destruct (looping st) eqn:LP; [destruct LE as (e' & w & g & A & _); congruence|]. rewrite LE, AE in EL. cbn in EL. apply mapM_ok in EL. exact (F2_at _ _ _ _ _ EL NE).
      - rewrite (loops_looping st LO) in LE. destruct LE as (e' & w & g & A & _ & _ & ->). rewrite AE in A. injection A as <-. cbn [end_limits] in EL. apply mapM_ok in EL. apply (F2_at _ _ _ 1%nat e EL). reflexivity.
      - destruct (looping st) eqn:LP; [destruct (NL (looping_loops _ _ _ _ _ _ SC LP))|]. rewrite LE, AE in EL. cbn in EL.
        destruct (convert_end show (ctrl_type b0) e j (labels 0 steps) (a_type st) flow) as [l|] eqn:CE; [|discriminate]. injection EL as <-. exists l. auto. }
    destruct X as (l & NL & CE). destruct (convert_end_says _ _ _ _ _ _ _ _ CE NA) as (step & goto & left & sign & right & A & B & (L1 & L2 & L3 & L4 & L5 & L6 & L7 & L8) & S).
    exists step, goto, left, sign, right. split; [|split; [|split; [exact A|]]].
    - unfold limit_is. repeat split; eapply conv_limit; try eassumption; left; exact NL.
    - pose proof (conv_ctrl b b0 F EQ) as CT. assert (SH : forall q, q = ctrl_type b0 -> step_has s' j ["m_szStepCtrlType"]%string q).
      { intros q ->. eapply conv_field; try eassumption. reflexivity. }
      destruct S as (kind & w & S1 & S2 & S). exists kind, w. split; [exact S1|]. split; [exact S2|]. cbv zeta in S |- *. destruct S as [S|[(SK & SC1 & SR)|[S|S]]]; [left; exact S| |do 2 right; left; exact S|do 3 right; exact S].
      right. left. split; [exact SK|]. split; [|exact SR]. destruct SC1 as [[Y Z]|[Y Z]]; [left|right]; (split; [apply SH; symmetry; exact Y|exact Z]).
    - intros n IN P. eapply conv_goto; eassumption.
  Qed.
  Theorem conv_reports j st k r : nth_error steps j = Some st -> report_at st k r -> In (sget r "ReportType") [Some "Voltage"; Some "Current"; Some "StepTime"]%string ->
    exists left sign right, limit_is s' j k "0" "1" "Next Step" left sign right /\ reports_same show r left sign right.
  Proof.
    intros N (es & AE & RA) KN. destruct (conv_step j st N) as (flow & b0 & b & ends & els & rls & start & CM & SC & LE & _ & EL & RL & LS & G & F & EQ & _).
    destruct (looping st) eqn:LP; [destruct LE as (e' & w & g & A & _); congruence|]. rewrite AE in LE. subst ends.
    assert (X : exists l m, nth_error rls m = Some l /\ k = (start + m)%nat /\ convert_report show r = Ok l).
    { unfold report_limits in RL. destruct RA as [[AR ->]|(rs & m & AR & NR & ->)]; rewrite AR in RL.
      - cbn in RL. destruct RL as (SE & l & CR & ->). injection SE as <-. exists l, 0%nat. rewrite Nat.add_0_r. auto.
      - destruct RL as [-> RL]. apply mapM_ok in RL. destruct (F2_at _ _ _ _ _ RL NR) as (l & A & B). exists l, m. auto. }
    destruct X as (l & m & NL & -> & CR). destruct (convert_report_says _ _ _ CR KN) as (left & sign & right & (L1 & L2 & L3 & L4 & L5 & L6 & L7 & L8) & S).
    exists left, sign, right. split; [|exact S]. unfold limit_is. repeat split; eapply conv_limit; try eassumption; right; (split; [exact LS|exists m; auto]).
  Qed.
  Theorem conv_loop j d st lname dname cname : In (lname, dname, cname) loop_names -> nth_error steps j = Some st -> a_mode st = None -> a_type st = lname -> opens steps d j dname -> (2 <= d)%nat ->
    exists e w goto, a_ends st = Single e /\ sget e "Value" = Some w /\ names_step s' (S d) goto /\ limit_is s' j 0 "1" "1" goto cname "<" w.
  Proof.
    intros LN N M T O D2. destruct (conv_step j st N) as (flow & b0 & b & ends & els & rls & start & CM & SC & LE & _ & EL & _ & LS & G & F & EQ & _).
    assert (LO : loops st) by (split; [exact M|rewrite T; destruct LN as [E|[E|[]]]; injection E as <- _ _; cbn; auto]). rewrite (loops_looping st LO) in LE. destruct LE as (e & w & g & AE & VE & FG & ->).
    destruct (metadata_loop_target steps _ _ j d lname dname cname CM LN (ex_intro _ st (conj N T)) O D2) as (sd & ND & FD). rewrite FG in FD. injection FD as ->.
    cbn [end_limits] in EL. apply mapM_ok in EL. destruct els as [|l0 ls]; [inversion EL|]. assert (CE := Forall2_inv_head _ _ _ _ _ EL). apply fld_ok in VE.
    exists e, w, (label_of (S d) sd). split; [exact AE|]. split; [exact VE|]. split; [apply conv_label; exact ND|].
    assert (LF : limit_fields l0 "1" "1" (label_of (S d) sd) cname "<" w).
    { clear -CE LN FG T. rewrite T in CE. unfold convert_end in CE.
      set (add := [("EndType", "Loop Addendum"); ("Oper", "< "); ("Step", hd EmptyString (str_split "-" (label_of (S d) sd))); ("Value", w)]%string) in CE.
      change (fld add "Step") with (@Ok string (hd EmptyString (str_split "-" (label_of (S d) sd)))) in CE. change (fld add "EndType") with (@Ok string "Loop Addendum"%string) in CE. change (fld add "Value") with (@Ok string w) in CE. cbn [bind] in CE.
      match type of CE with bind ?g _ = _ => destruct g as [goto|] end; [|discriminate]. cbn [bind] in CE. rewrite FG in CE.
      cbn [String.eqb Ascii.eqb Bool.eqb andb bind] in CE.
      destruct LN as [E|[E|[]]]; injection E as E1 E2 E3; rewrite <- E1, <- E3 in *; cbn [first_number bind] in CE; injection CE as <-; repeat split; reflexivity. }
    destruct LF as (L1 & L2 & L3 & L4 & L5 & L6 & L7 & L8). unfold limit_is. repeat split; eapply conv_limit; try eassumption; left; reflexivity.
  Qed.
  Theorem conv_controls j st ct x y : nth_error steps j = Some st -> controls st ct x y ->
    step_has s' j ["m_szStepCtrlType"]%string ct /\ step_has s' j ["m_szCtrlValue"]%string x /\ step_has s' j ["m_szExtCtrlValue1"]%string y.
  Proof.
    intros N C. destruct (conv_step j st N) as (flow & b0 & b & ends & els & rls & start & CM & SC & LE & _ & EL & _ & LS & G & F & EQ & _).
    destruct (set_controls _ _ _ _ _ _ _ _ _ _ SC C) as (A & B & E). rewrite <- EQ in A, B, E by discriminate.
    split; [|split]; eapply conv_field; try eassumption; reflexivity.
  Qed.
  Lemma conv_sections j b els rls start l : get_keys ["Schedule"; step_key j]%string s' = Some (Dict (b ++ keyed 0 els ++ keyed start rls)) -> fields b ->
    ((exists sub, limit_section s' (step_key j) l sub) <-> exists k, l = limit_name k /\ ((k < length els)%nat \/ (start <= k < start + length rls)%nat)).
  Proof.
    intros G F. set (d := b ++ keyed 0 els ++ keyed start rls) in *. pose proof (distinct_get _ _ _ conv_distinct G) as DD. inversion DD as [|? ND _]; subst.
    assert (X : forall n, get_keys ["Schedule"; step_key j; l]%string s' = Some n <-> In (l, n) d).
    { intro n. change ["Schedule"; step_key j; l]%string with (["Schedule"; step_key j]%string ++ [l]). rewrite get_app, G. cbn [get_keys]. rewrite <- (sget_in _ _ _ ND). destruct (sget d l); split; intro E; congruence. }
    split.
    - intros (sub & LS). apply (limit_section_iff _ _ _ _ conv_distinct) in LS. destruct LS as [_ GL]. apply X in GL. unfold d in GL. apply in_app_iff in GL. destruct GL as [I|I].
      + destruct F as [_ F]. rewrite Forall_forall in F. destruct (F _ I) as (w & E). discriminate.
      + apply in_app_iff in I. destruct I as [I|I]; apply keyed_in in I; destruct I as (m & lim & NM & -> & _); assert (Y : nth_error els m <> None \/ nth_error rls m <> None) by (rewrite NM; auto using Some_not_none || (left; congruence) || (right; congruence)).
        * exists m. split; [reflexivity|]. left. apply nth_error_Some. congruence.
        * exists (start + m)%nat. split; [reflexivity|]. right. assert (m < length rls)%nat by (apply nth_error_Some; congruence). lia.
    - intros (k & -> & K).
      assert (Y : exists lim, In (limit_name k, as_node lim) d).
      { destruct K as [K|K].
        - destruct (nth_error els k) as [lim|] eqn:E; [|apply nth_error_None in E; lia]. exists lim. apply in_app_iff. right. apply in_app_iff. left. apply keyed_in. exists k, lim. auto.
        - destruct (nth_error rls (k - start)) as [lim|] eqn:E; [|apply nth_error_None in E; lia]. exists lim. apply in_app_iff. right. apply in_app_iff. right. apply keyed_in. exists (k - start)%nat, lim. split; [exact E|]. split; [|reflexivity].
          replace (start + (k - start))%nat with k by lia. reflexivity. }
      destruct Y as (lim & I). apply X in I. unfold as_node in I. eexists. apply (limit_section_iff _ _ _ _ conv_distinct). split; [|exact I]. apply prefix_iff. eexists. reflexivity.
  Qed.
  (** the number of limits is that stated *)
  Theorem conv_count j st : nth_error steps j = Some st -> exists txt ks, step_has s' j ["m_uLimitNum"]%string txt /\ integer txt (Z.of_nat (length ks)) /\ NoDup ks /\
    forall l, In l ks <-> exists sub, limit_section s' (step_key j) l sub.
  Proof.
    intros N. destruct (conv_step j st N) as (flow & b0 & b & ends & els & rls & start & CM & SC & LE & _ & EL & RL & LS & G & F & EQ & _ & _ & CN).
    exists (str_int (Z.of_nat (length els + length rls))), (map limit_name (seq 0 (length els) ++ seq start (length rls))). split; [eapply conv_field; try eassumption; reflexivity|].
    split; [rewrite map_length, app_length, !seq_length; apply integer_iff; apply parse_str_int|]. split.
    - apply limit_keys_nodup. apply NoDup_app_iff. split; [apply seq_NoDup|]. split; [apply seq_NoDup|]. intros x A B. apply in_seq in A, B. destruct rls; [cbn in B; lia|]. assert (length els <= start)%nat by (apply LS; discriminate). lia.
    - intro l. rewrite (conv_sections j b els rls start l G F). split.
      + intro I. apply in_map_iff in I. destruct I as (k & <- & I). exists k. split; [reflexivity|]. apply in_app_iff in I. destruct I as [I|I]; apply in_seq in I; lia.
      + intros (k & -> & K). apply in_map. apply in_app_iff. destruct K as [K|K]; [left|right]; apply in_seq; lia.
  Qed.
  Theorem conv_consecutive j st : nth_error steps j = Some st -> (exists es, a_ends st = Several es) \/ loops st \/ a_reports st = Absent ->
    exists txt n, step_has s' j ["m_uLimitNum"]%string txt /\ integer txt (Z.of_nat n) /\
    forall l, (exists sub, limit_section s' (step_key j) l sub) <-> exists k, (k < n)%nat /\ l = limit_name k.
  Proof.
    intros N CASES. destruct (conv_step j st N) as (flow & b0 & b & ends & els & rls & start & CM & SC & LE & _ & EL & RL & LS & G & F & EQ & _ & _ & CN).
    assert (X : rls = [] \/ start = length els).
    { unfold report_limits in RL. destruct (a_reports st) as [|r|rs] eqn:R; [left; exact RL| |].
      - right. destruct RL as [SE _]. assert (Y : exists es, ends = Several es).
        { destruct CASES as [(es & E)|[LO|E]]; [|rewrite (loops_looping st LO) in LE; destruct LE as (e & w & g & _ & _ & _ & ->); eauto|congruence].
          destruct (looping st); [destruct LE as (e' & w & g & A & _); congruence|]. rewrite LE. eauto. }
        destruct Y as (es & ->). cbn in SE, EL. injection SE as <-. apply mapM_ok in EL. exact (F2_length _ _ _ EL).
      - destruct ends as [|e|es]; [destruct RL|left; exact RL|]. destruct RL as [-> _]. cbn in EL. apply mapM_ok in EL. right. exact (F2_length _ _ _ EL). }
    exists (str_int (Z.of_nat (length els + length rls))), (length els + length rls)%nat. split; [eapply conv_field; try eassumption; reflexivity|]. split; [apply integer_iff; apply parse_str_int|].
    intro l. rewrite (conv_sections j b els rls start l G F). split; intros (k & A & B).
    - exists k. split; [|exact A]. destruct X as [-> | ->]; cbn [length] in *; lia.
    - exists k. split; [exact B|]. destruct X as [-> | ->]; cbn [length] in *; lia.
  Qed.
  (** the rest of the schedule *)
  Theorem conv_frame :
    (forall k p w, k <> "Schedule"%string -> (holds s' (k :: p) w <-> holds s (k :: p) w)) /\
    (forall k p w, ~ step_named k -> ~ In k scope_keys -> (temp = true -> k <> "m_AuxSafetyEnabled"%string) -> (holds s' ("Schedule" :: k :: p)%string w <-> holds s ("Schedule" :: k :: p)%string w)) /\
    (forall k p w, step_named k -> holds s' ("Schedule" :: k :: p)%string w -> exists j, (j < length steps)%nat /\ k = step_key j) /\
    (exists txt, holds s' ["Schedule"; "m_uStepNum"]%string txt /\ integer txt (Z.of_nat (length steps))) /\
    holds s' ["Schedule"; "m_VoltageSafetyScope"]%string v /\ holds s' ["Schedule"; "m_AuxTempSafetyScope"]%string t /\ holds s' ["Schedule"; "m_CurrentSafetyScope"]%string c.
  Proof.
    destruct (create_sdu_spec _ _ _ _ _ _ _ _ _ _ _ D SA PN H) as (D' & _ & flow & _ & _ & SC & O & K & ST). setoid_rewrite (fun p w => holds_get p s' w D'). setoid_rewrite (fun p w => holds_get p s w D).
    split; [intros k p w NE; rewrite (O k p NE); reflexivity|]. split; [|split; [|split; [|split; [|split]]]].
    - intros k p w N1 N2 N3. rewrite (K k p N1); [reflexivity|]. unfold scope_values, scope_keys in *. rewrite map_app. intro I. apply in_app_iff in I. destruct I as [I|I]; [exact (N2 I)|]. destruct temp; [|exact I].
      cbn in I. destruct I as [<-|[]]. apply (N3 eq_refl). reflexivity.
    - intros k p w N1 G. destruct (in_dec string_dec k (map step_key (seq 0 (length steps)))) as [I|NI].
      + apply in_map_iff in I. destruct I as (j & <- & I). apply in_seq in I. exists j. split; [lia|reflexivity].
      + rewrite (ST k p N1) in G; [discriminate|]. intros j L E. apply NI. rewrite E. apply in_map. apply in_seq. lia.
    - exists (str_int (Z.of_nat (length steps))). split; [apply SC; left; reflexivity|]. apply integer_iff. apply parse_str_int.
    - apply SC. right. left. reflexivity.
    - apply SC. do 2 right. left. reflexivity.
    - apply SC. do 3 right. left. reflexivity.
  Qed.
End Converted.
