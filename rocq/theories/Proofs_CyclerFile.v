(** Lemmas for C128-C131. *)
From Verif Require Import Py Num Model_Text Model_Arbin Model_Biologic Model_Cmd Model_Stamp Model_RawFile Model_CyclerFile.
From Verif Require Import Spec_Numeral Spec_Cmd Spec_Stamp Spec_RawFile Spec_CyclerFile Spec_Biologic.
From Verif Require Import Proofs_Text Proofs_Strings Proofs_Arbin Proofs_Datapath Proofs_Diagnostic Proofs_Stamp Proofs_RawFile.
From Verif Require Proofs_Numeral Proofs_Biologic.

(** ** Lines of bytes *)
Lemma sub_prefix a b : substring 0 (String.length a) (a ++ b) = a.
Proof. induction a as [|c a IH]; [destruct b; reflexivity|]. cbn. rewrite IH. reflexivity. Qed.
Lemma sub_suffix a b : substring (String.length a) (String.length b) (a ++ b) = b.
Proof. induction a as [|c a IH]; [|exact IH]. cbn [append String.length]. rewrite <- (app_nil_r_s b) at 2. apply sub_prefix. Qed.
Lemma ends_with_app a b : ends_with b (a ++ b) = true.
Proof.
  unfold ends_with. rewrite app_length_s. replace (String.length a + String.length b - String.length b)%nat with (String.length a) by lia.
  rewrite sub_suffix, String.eqb_refl. apply andb_true_iff. split; [apply Nat.leb_le; lia | reflexivity].
Qed.
Lemma ends_with_iff p s : ends_with p s = true -> exists a, s = (a ++ p)%string.
Proof.
  unfold ends_with. intro H. apply andb_true_iff in H as [L E]. apply Nat.leb_le in L. apply String.eqb_eq in E.
  assert (G : forall n x, (n <= String.length x)%nat -> (substring 0 n x ++ substring n (String.length x - n) x)%string = x).
  { clear. induction n as [|n IH]; intros x L.
    - rewrite Nat.sub_0_r. transitivity (substring 0 (String.length x) (x ++ "")); [rewrite app_nil_r_s; destruct x; reflexivity | apply sub_prefix].
    - destruct x as [|c x]; [cbn in L; lia|]. cbn. rewrite IH by (cbn in L; lia). reflexivity. }
  exists (substring 0 (String.length s - String.length p) s).
  rewrite <- E at 2. rewrite <- (G (String.length s - String.length p)%nat s) at 1 by lia.
  replace (String.length s - (String.length s - String.length p))%nat with (String.length p) by lia. reflexivity.
Qed.
Lemma chop_app a b : chop (String.length b) (a ++ b) = a.
Proof. unfold chop. rewrite app_length_s. replace (String.length a + String.length b - String.length b)%nat with (String.length a) by lia. apply sub_prefix. Qed.
Lemma drop_app a b : drop (String.length a) (a ++ b) = b.
Proof. unfold drop. rewrite app_length_s. replace (String.length a + String.length b - String.length a)%nat with (String.length b) by lia. apply sub_suffix. Qed.
Lemma bytes_text_app q a b : bytes_text q (a ++ b) = (bytes_text q a ++ bytes_text q b)%string.
Proof. induction a as [|c a IH]; [reflexivity|]. cbn. rewrite IH, app_assoc_s. reflexivity. Qed.
Lemma read_byte q c r : q = sq \/ q = dq -> read_literal q (byte_text q c ++ r) = option_map (String c) (read_literal q r).
Proof. intros [-> | ->]; destruct c as [[] [] [] [] [] [] [] []]; reflexivity. Qed.
Lemma read_bytes q s : q = sq \/ q = dq -> read_literal q (bytes_text q s ++ String q "") = Some s.
Proof.
  intro Q. induction s as [|c s IH].
  - cbn [bytes_text append read_literal]. rewrite Ascii.eqb_refl. reflexivity.
  - cbn [bytes_text]. rewrite app_assoc_s, read_byte by exact Q. rewrite IH. reflexivity.
Qed.
Lemma plain_bytes s : plain_text s -> bytes_text sq s = s /\ char_free sq s.
Proof.
  induction s as [|c s IH]; intro H; [split; reflexivity|]. destruct (H c (or_introl eq_refl)) as (B & N1 & N2).
  destruct IH as [I1 I2]; [intros d I; apply H; right; exact I|]. split; [|apply char_free_cons; auto].
  cbn [bytes_text]. rewrite I1. unfold byte_text. fold bs in N2. fold sq in N1.
  destruct (Ascii.eqb_spec c bs); [congruence|]. destruct (Ascii.eqb_spec c sq); [congruence|]. cbn [orb].
  destruct (Nat.eqb_spec (nat_of_ascii c) 9); [lia|]. destruct (Nat.eqb_spec (nat_of_ascii c) 10); [lia|]. destruct (Nat.eqb_spec (nat_of_ascii c) 13); [lia|].
  destruct (Nat.ltb_spec (nat_of_ascii c) 32); [lia|]. destruct (Nat.leb_spec 127 (nat_of_ascii c)); [lia|]. reflexivity.
Qed.
Lemma dos_text s : plain_text s -> bytes_str (dos s) = (String "b" (String sq "") ++ s ++ crlf_text ++ String sq "")%string.
Proof.
  intro H. destruct (plain_bytes s H) as [B F]. unfold bytes_str.
  assert (C : contains (String sq "") (dos s) = false) by (change (char_free sq (dos s)); apply char_free_app; split; [exact F | reflexivity]).
  rewrite C. cbn [andb]. unfold dos. rewrite bytes_text_app, B. change (bytes_text sq dos_end) with crlf_text. rewrite app_assoc_s. reflexivity.
Qed.
Lemma unix_text s : plain_text s -> bytes_str (unix s) = (String "b" (String sq "") ++ s ++ String bs "n" ++ String sq "")%string.
Proof.
  intro H. destruct (plain_bytes s H) as [B F]. unfold bytes_str.
  assert (C : contains (String sq "") (unix s) = false) by (change (char_free sq (unix s)); apply char_free_app; split; [exact F | reflexivity]).
  rewrite C. cbn [andb]. unfold unix. rewrite bytes_text_app, B. change (bytes_text sq eol) with (String bs "n"). rewrite app_assoc_s. reflexivity.
Qed.
Lemma prefix_app a b : prefix a (a ++ b) = true.
Proof. apply prefix_iff. exists b. reflexivity. Qed.
Lemma clean_dos s : plain_text s -> clean_line (dos s) = s.
Proof.
  intro H. unfold clean_line. rewrite (dos_text s H). rewrite prefix_app. change 2%nat with (String.length (String "b" (String sq ""))). rewrite drop_app.
  rewrite <- app_assoc_s. rewrite ends_with_app. change 1%nat with (String.length (String sq "")). rewrite chop_app. rewrite ends_with_app.
  change 4%nat with (String.length crlf_text). apply chop_app.
Qed.
Lemma clean_unix s : plain_text s -> clean_line (unix s) = (s ++ String bs "n")%string.
Proof.
  intro H. unfold clean_line. rewrite (unix_text s H). rewrite prefix_app. change 2%nat with (String.length (String "b" (String sq ""))). rewrite drop_app.
  rewrite <- app_assoc_s. rewrite ends_with_app. change 1%nat with (String.length (String sq "")). rewrite chop_app.
  destruct (ends_with crlf_text (s ++ String bs "n")) eqn:E; [|reflexivity]. exfalso. apply ends_with_iff in E as (a & E).
  change crlf_text with (String bs "r" ++ String bs "n")%string in E. rewrite <- app_assoc_s in E.
  assert (X : s = (a ++ String bs "r")%string).
  { rewrite <- (chop_app s (String bs "n")), E. apply chop_app. }
  destruct (H bs) as (_ & _ & N); [|apply N; reflexivity]. rewrite X. clear. induction a; cbn; auto.
Qed.

(** ** Metadata of Biologic files *)
Lemma strip_inside l : exists x y, l = (x ++ strip l ++ y)%string.
Proof.
  assert (A : forall s, exists x, s = (x ++ lstrip s)%string).
  { induction s as [|c s [x IH]]; [exists ""%string; reflexivity|]. cbn. destruct (is_space c); [exists (String c x); cbn; rewrite <- IH; reflexivity | exists ""%string; reflexivity]. }
  assert (B : forall s, exists y, s = (rstrip s ++ y)%string).
  { induction s as [|c s [y IH]]; [exists ""%string; reflexivity|]. cbn. destruct (rstrip s) eqn:E.
    - destruct (is_space c); [exists (String c s); reflexivity | exists s; reflexivity].
    - exists y. rewrite IH at 1. reflexivity. }
  destruct (A l) as [x Hx], (B (lstrip l)) as [y Hy]. exists x, y. unfold strip. rewrite <- Hy. exact Hx.
Qed.
Lemma first_colon a b : char_free ":" a -> first_at a " : " b.
Proof.
  intros F p q H.
  assert (X : forall c u v x y, (u ++ String c v = x ++ String c y)%string -> char_free c u -> (String.length u <= String.length x)%nat).
  { clear. induction u as [|d u IH]; intros v x y E F; [apply Nat.le_0_l|]. apply char_free_cons in F as [D F]. destruct x as [|z x]; cbn [append] in E; injection E as E1 E2; [congruence|].
    cbn. apply le_n_S. exact (IH _ _ _ E2 F). }
  specialize (X ":"%char (a ++ " ")%string (" " ++ b)%string (p ++ " ")%string (" " ++ q)%string). rewrite !app_assoc_s in X. specialize (X H).
  assert (K : char_free ":" (a ++ " ")) by (apply char_free_app; split; [exact F | reflexivity]). specialize (X K). rewrite !app_length_s in X. cbn in X. lia.
Qed.
Section Metadata.
  Variable md5 : string -> string.
  Notation meta_line := (meta_line md5).
  Notation meta_loop := (meta_loop md5).
  Definition pieces (l : string) : list string := str_split " : " (strip l).
  Definition label (l : string) : string := hd ""%string (pieces l).
  Lemma no_label p l : contains p l = false -> contains p (label l) = false.
  Proof.
    intro H. destruct (contains p (label l)) eqn:E; [|reflexivity]. rewrite <- H. symmetry. apply contains_iff. apply contains_iff in E as (a & b & E).
    destruct (strip_inside l) as (x & y & S).
    assert (L : exists z, strip l = (label l ++ z)%string).
    { unfold label, pieces. destruct (contains " : " (strip l)) eqn:C.
      - destruct (first_exists _ _ C) as (u & v & -> & F). rewrite str_split_first; [|discriminate | exact F]. cbn [hd]. eauto.
      - rewrite str_split_none by exact C. exists ""%string. cbn [hd]. rewrite app_nil_r_s. reflexivity. }
    destruct L as (z & L). rewrite S, L, E. exists (x ++ a)%string, (b ++ z ++ y)%string. rewrite !app_assoc_s. reflexivity.
  Qed.
  Lemma label_colon l a v : char_free ":" a -> holds l (a ++ " : " ++ v) -> pieces l = a :: str_split " : " v.
  Proof. intros F H. unfold pieces. rewrite (strip_holds _ _ H). apply str_split_first; [discriminate | apply first_colon; exact F]. Qed.
  Definition chan (c : option Z) (l : string) : option Z :=
    if String.eqb (label l) "Run on channel" then match channel_of (pieces l) with Ok z => Some z | Err _ => c end else c.
  Definition bar (c : option string) (l : string) : option string := if contains "Comments" (label l) then Some (last (pieces l) ""%string) else c.
  Definition sound (l : string) : Prop := String.eqb (label l) "Run on channel" = true -> exists z, channel_of (pieces l) = Ok z.
  Lemma meta_line_parts st l : sound l ->
    meta_line st l = Ok {| b_channel := chan (b_channel st) l; b_barcode := bar (b_barcode st) l;
      b_protocol := if (b_started st || contains "Cycle Definition" (label l)) && String.eqb l "" then Some (md5 (b_text st ++ (if contains "Cycle Definition" (label l) then l ++ String nl "" else ""))) else b_protocol st;
      b_started := b_started st || contains "Cycle Definition" (label l);
      b_text := b_text st ++ (if contains "Cycle Definition" (label l) then l ++ String nl "" else "")
                 ++ (if (b_started st || contains "Cycle Definition" (label l)) && negb (String.eqb l "") then l ++ String nl "" else "") |}.
  Proof.
    intro S. unfold Model_CyclerFile.meta_line, chan, bar. change (str_split " : " (strip l)) with (pieces l). change (hd ""%string (pieces l)) with (label l).
    unfold sound in S. destruct (String.eqb (label l) "Run on channel").
    1: destruct (S eq_refl) as [z ->]. all: cbn [bind]; destruct (b_started st), (contains "Cycle Definition" (label l)), (String.eqb l ""); cbn [orb andb negb]; rewrite ?app_nil_r_s, ?app_assoc_s; reflexivity.
  Qed.
  Fixpoint steps (st : bstate) (L : list string) : result bstate :=
    match L with [] => Ok st | l :: L => let! st := meta_line st l in steps st L end.
  Lemma steps_app st A B : steps st (A ++ B) = let! st := steps st A in steps st B.
  Proof. revert st. induction A as [|l A IH]; intro st; cbn [steps app]; [reflexivity|]. destruct (meta_line st l); cbn [bind]; [apply IH | reflexivity]. Qed.
  Lemma before L : forall st, b_started st = false -> (forall l, In l L -> sound l /\ contains "Cycle Definition" l = false) ->
    steps st L = Ok {| b_channel := fold_left chan L (b_channel st); b_barcode := fold_left bar L (b_barcode st); b_protocol := b_protocol st; b_started := false; b_text := b_text st |}.
  Proof.
    induction L as [|l L IH]; intros st S H; cbn [steps fold_left].
    - destruct st; cbn in *; subst; reflexivity.
    - destruct (H l (or_introl eq_refl)) as [Hs Hc]. rewrite (meta_line_parts st l Hs). cbn [bind]. rewrite IH; cbn [b_channel b_barcode b_protocol b_started b_text].
      + rewrite (no_label _ _ Hc), S. cbn [orb andb append]. rewrite app_nil_r_s. reflexivity.
      + rewrite (no_label _ _ Hc), S. reflexivity.
      + intros x I. apply H. right. exact I.
  Qed.
  Lemma after L : forall st, b_started st = true -> (forall l, In l L -> sound l /\ contains "Cycle Definition" l = false /\ l <> ""%string) ->
    steps st L = Ok {| b_channel := fold_left chan L (b_channel st); b_barcode := fold_left bar L (b_barcode st); b_protocol := b_protocol st; b_started := true; b_text := b_text st ++ lines_text L |}.
  Proof.
    induction L as [|l L IH]; intros st S H; cbn [steps fold_left lines_text fold_right].
    - destruct st; cbn in *; subst. rewrite app_nil_r_s. reflexivity.
    - destruct (H l (or_introl eq_refl)) as (Hs & Hc & Hn). rewrite (meta_line_parts st l Hs). cbn [bind]. rewrite IH; cbn [b_channel b_barcode b_protocol b_started b_text].
      + rewrite (no_label _ _ Hc), S. apply String.eqb_neq in Hn. rewrite Hn. cbn [orb andb negb append]. rewrite !app_assoc_s. reflexivity.
      + rewrite (no_label _ _ Hc), S. reflexivity.
      + intros x I. apply H. right. exact I.
  Qed.
  (** The loop does not stop before the protocol is known. *)
  Lemma line_none st l st' : meta_line st l = Ok st' -> b_protocol st' = None -> b_protocol st = None.
  Proof.
    unfold Model_CyclerFile.meta_line. intro H.
    match type of H with bind ?c _ = _ => destruct c; [|discriminate H] end. cbn [bind] in H.
    destruct (_ || _); [destruct (String.eqb l "")|]; injection H as <-; cbn; intro E; congruence.
  Qed.
  Lemma steps_none L : forall st st', steps st L = Ok st' -> b_protocol st' = None -> b_protocol st = None.
  Proof.
    induction L as [|l L IH]; intros st st' H N; [injection H as ->; exact N|]. cbn [steps] in H. destruct (meta_line st l) as [s|] eqn:E; [|discriminate].
    exact (line_none _ _ _ E (IH _ _ H N)).
  Qed.
  Lemma loop_steps L : forall fuel st st' rest, Forall plain_text L -> steps st L = Ok st' -> b_protocol st' = None ->
    meta_loop (length L + fuel) st (map dos L ++ rest) = meta_loop fuel st' rest.
  Proof.
    induction L as [|l L IH]; intros fuel st st' rest P E N; [injection E as ->; reflexivity|].
    inversion P as [|? ? P1 P2]; subst. cbn [length Nat.add Model_CyclerFile.meta_loop map app tl]. rewrite (clean_dos _ P1).
    cbn [steps] in E. destruct (meta_line st l) as [st1|] eqn:M; [|discriminate]. cbn [bind] in *.
    pose proof (steps_none _ _ _ E N) as N1.
    assert (D : meta_done st1 = false) by (unfold meta_done; rewrite N1; destruct (b_channel st1), (b_barcode st1); reflexivity).
    rewrite D. apply IH; auto.
  Qed.
  Lemma chan_skip L c : (forall l, In l L -> contains "Run on channel" l = false) -> fold_left chan L c = c.
  Proof.
    revert c. induction L as [|l L IH]; intros c H; [reflexivity|]. cbn [fold_left]. rewrite IH by (intros x I; apply H; right; exact I).
    unfold chan. destruct (String.eqb_spec (label l) "Run on channel") as [E|]; [|reflexivity]. pose proof (no_label _ _ (H l (or_introl eq_refl))) as K. rewrite E in K. discriminate K.
  Qed.
  Lemma bar_skip L c : (forall l, In l L -> contains "Comments" l = false) -> fold_left bar L c = c.
  Proof.
    revert c. induction L as [|l L IH]; intros c H; [reflexivity|]. cbn [fold_left]. rewrite IH by (intros x I; apply H; right; exact I).
    unfold bar. rewrite (no_label _ _ (H l (or_introl eq_refl))). reflexivity.
  Qed.
  Lemma run_ok l slot number tail z : run_line l slot number tail -> integer (str_int (Z.of_nat (nat_of_ascii slot) - 64) ++ number) z ->
    label l = "Run on channel"%string /\ channel_of (pieces l) = Ok z.
  Proof.
    intros (H & Nn & Nc & Ns & T) Z. pose proof (label_colon l "Run on channel" _ eq_refl H) as P. unfold label. rewrite P. split; [reflexivity|].
    rewrite str_split_none by exact Nc. unfold channel_of. cbn [item nth_error bind].
    assert (F : char_free " " (String slot number)) by (apply char_free_cons; auto).
    assert (W : item (str_split " " (String slot number ++ tail)) 0 = Ok (String slot number)).
    { destruct T as [-> | [t ->]]; [rewrite app_nil_r_s, str_split_none by exact F; reflexivity|]. rewrite str_split_char by exact F. reflexivity. }
    change (item [?a; ?b] 1) with (Ok b). cbn [bind]. rewrite W. cbn [bind]. apply Proofs_Numeral.integer_iff in Z. rewrite Z. reflexivity.
  Qed.
  Lemma comment_ok l v c : comment_line l v -> bar c l = Some v.
  Proof.
    intros [H N]. pose proof (label_colon l "Comments" _ eq_refl H) as P. unfold bar, label. rewrite P. rewrite str_split_none by exact N. reflexivity.
  Qed.
  Lemma metadata_ok A b0 B rest run slot number tail z note v :
    Forall plain_text (A ++ b0 :: B) -> only_line "Run on channel" (A ++ b0 :: B) run -> run_line run slot number tail ->
    integer (str_int (Z.of_nat (nat_of_ascii slot) - 64) ++ number) z ->
    only_line "Comments" (A ++ b0 :: B) note -> comment_line note v ->
    protocol_line b0 -> (forall y, In y (A ++ B) -> contains "Cycle Definition" y = false) -> ~ In ""%string B ->
    (length (A ++ b0 :: B) <= Z.to_nat 10000)%nat ->
    exists st, biologic_metadata md5 (map dos (A ++ b0 :: B) ++ dos "" :: rest) = Ok st /\ b_channel st = Some z /\ b_barcode st = Some v /\ b_protocol st = Some (md5 (protocol_text b0 B)).
  Proof.
    intros P (r1 & r2 & ER & OR) RL Z (c1 & c2 & EC & OC) CL (t & H0) CD NE LE.
    destruct (run_ok _ _ _ _ _ RL Z) as [LR CR].
    assert (S : forall l, In l (A ++ b0 :: B) -> sound l).
    { intros l I Hl. apply String.eqb_eq in Hl. rewrite ER in I. apply in_app_iff in I. destruct I as [I|[<-|I]]; [| eauto |];
        (assert (N : contains "Run on channel" (label l) = false) by (apply no_label, OR, in_app_iff; auto); rewrite Hl in N; discriminate N). }
    assert (L0 : contains "Cycle Definition" (label b0) = true).
    { unfold label. rewrite (label_colon b0 "Cycle Definition" t eq_refl H0). reflexivity. }
    assert (N0 : b0 <> ""%string) by (intros ->; discriminate L0).
    set (L := A ++ b0 :: B) in *.
    assert (E : steps bstart L = Ok {| b_channel := fold_left chan L None; b_barcode := fold_left bar L None; b_protocol := None; b_started := true; b_text := protocol_text b0 B |}).
    { unfold L. rewrite steps_app, before; [|reflexivity | intros l I; split; [apply S; unfold L; apply in_app_iff; auto | apply CD, in_app_iff; auto]].
      cbn [bind steps bstart b_channel b_barcode b_protocol b_started b_text]. rewrite meta_line_parts by (apply S; unfold L; apply in_app_iff; right; left; reflexivity).
      cbn [bind b_channel b_barcode b_protocol b_started b_text]. rewrite L0. apply String.eqb_neq in N0. rewrite N0. cbn [orb andb negb append].
      rewrite after; [|reflexivity | intros l I; repeat split; [apply S; unfold L; apply in_app_iff; right; right; exact I | apply CD, in_app_iff; auto | intros ->; auto]].
      cbn [b_channel b_barcode b_protocol b_started b_text]. rewrite !fold_left_app. cbn [fold_left]. unfold protocol_text. cbn [lines_text fold_right]. fold (lines_text B).
      change eol with (String nl ""). rewrite !app_assoc_s. reflexivity. }
    assert (EC1 : fold_left chan L None = Some z).
    { rewrite ER, fold_left_app. cbn [fold_left]. rewrite !chan_skip by (intros l I; apply OR, in_app_iff; auto). unfold chan. rewrite LR, String.eqb_refl, CR. reflexivity. }
    assert (EC2 : fold_left bar L None = Some v).
    { rewrite EC, fold_left_app. cbn [fold_left]. rewrite !bar_skip by (intros l I; apply OC, in_app_iff; auto). apply (comment_ok note v). exact CL. }
    unfold biologic_metadata.
    replace (Z.to_nat 10001) with (length L + Datatypes.S (Z.to_nat 10000 - length L))%nat.
    2:{ rewrite Nat.add_succ_r, (Nat.add_comm (length L)), Nat.sub_add by exact LE. change 10001%Z with (Z.succ 10000). rewrite Z2Nat.inj_succ by lia. reflexivity. }
    rewrite (loop_steps _ _ _ _ _ P E eq_refl). cbn [Model_CyclerFile.meta_loop]. rewrite clean_dos by (intros ? []).
    rewrite meta_line_parts by (intro X; discriminate X). cbn [bind b_channel b_barcode b_protocol b_started b_text]. rewrite EC1, EC2.
    change (label "") with ""%string. cbn [orb andb negb contains prefix append]. unfold bar, chan. change (label "") with ""%string.
    cbn [String.eqb]. cbn. eexists. split; [reflexivity|]. cbn. repeat split. rewrite app_nil_r_s. reflexivity.
  Qed.
End Metadata.

(** ** Data of Biologic files *)
Lemma truncate_ok q : towards_zero q (truncate q).
Proof.
  destruct q as [n d]. unfold towards_zero, truncate, Qle, Qlt, inject_Z. cbn [Qnum Qden].
  pose proof (Z.quot_rem' n (Zpos d)) as E. set (k := Z.quot n (Zpos d)) in *. set (r := Z.rem n (Zpos d)) in *.
  split; intro H.
  - assert (0 <= r < Zpos d)%Z by (apply Z.rem_bound_pos; lia). split; lia.
  - assert (- Zpos d < r <= 0)%Z by (unfold r; clear -H; pose proof (Z.rem_bound_pos (- n) (Zpos d) ltac:(lia) ltac:(lia)); rewrite Z.rem_opp_l in * by lia; lia). split; lia.
Qed.
Lemma mapM_forall2 {A B} (f : A -> result B) l l' : mapM f l = Ok l' -> Forall2 (fun x y => f x = Ok y) l l'.
Proof.
  revert l'. induction l as [|x l IH]; intros l' H; cbn in H; [injection H as <-; constructor|].
  destruct (f x) eqn:E; [|discriminate]. cbn [bind] in H. destruct (mapM f l); [|discriminate]. injection H as <-. constructor; auto.
Qed.
Lemma two_lengths {A B} (R : A -> B -> Prop) l l' : Forall2 R l l' -> length l = length l'.
Proof. induction 1; cbn; auto. Qed.
Lemma sget_member {V} (d : list (string * V)) k v : sget d k = Some v -> In (k, v) d.
Proof. unfold sget. induction d as [|[a b] d IH]; cbn; [discriminate|]. destruct (String.eqb_spec k a) as [->|]; [intro H; injection H as ->; auto | auto]. Qed.
Section Data.
  Variable float_of : string -> option Q.
  Variable mapped : list bval -> option (list bval) -> result (list Z).
  Notation conv := (biologic_conv float_of).
  Lemma file_read mapping ext pre cols rows lines : biologic_file ext pre cols rows lines ->
    biologic_table float_of mapped mapping ext lines = (let! raw := read_table conv cols rows in biologic_data float_of mapped mapping cols raw).
  Proof.
    intros (sep & T & EL & NP & H & L & C). unfold biologic_table, get_file_type.
    assert (S : search_header biologic_header 200 1 200 lines = Ok (length pre + 1)%nat).
    { assert (HH : forall l, biologic_header l = true <-> table_header l) by (intro l; unfold biologic_header, table_header; rewrite andb_true_iff, negb_true_iff; reflexivity).
      apply (Proofs_Biologic.search_found biologic_header 200 lines eq_refl). split; [|lia]. split; [lia|]. split.
      - exists (join (String sep "") cols). split; [|apply HH; exact H]. rewrite EL, nth_error_app2 by lia. replace (length pre + 1 - 1 - length pre)%nat with 0%nat by lia. reflexivity.
      - intros j l J E. rewrite EL, nth_error_app1 in E by lia. apply nth_error_In in E. destruct (biologic_header l) eqn:X; [|reflexivity]. destruct (NP l E). apply HH. exact X. }
    assert (SP : forall r, In r (cols :: rows) -> str_split (String sep "") (join (String sep "") r) = r).
    { intros r I. destruct (C r I) as [N F]. apply split_join; [exact N|]. apply Forall_forall. exact F. }
    assert (N1 : nth (length pre + 1 - 1) lines ""%string = join (String sep "") cols).
    { rewrite EL, app_nth2 by lia. replace (length pre + 1 - 1 - length pre)%nat with 0%nat by lia. reflexivity. }
    assert (N2 : map (str_split (String sep "")) (skipn (length pre + 1) lines) = rows).
    { rewrite EL, skipn_app, skipn_all2 by lia. replace (length pre + 1 - length pre)%nat with 1%nat by lia. cbn [app skipn].
      rewrite map_map. rewrite <- (map_id rows) at 2. apply map_ext_in. intros r I. apply SP. right. exact I. }
    destruct T as [[-> ->] | [-> ->]]; cbn [String.eqb Ascii.eqb Bool.eqb bind]; rewrite S; cbn [bind]; rewrite N1, N2, (SP cols (or_introl eq_refl)); reflexivity.
  Qed.
  Lemma raw_ok raw k c : raw_column raw k = Ok c <-> sget raw k = Some c.
  Proof. unfold raw_column. destruct (sget raw k); split; intro H; congruence. Qed.
  (** what the data hold *)
  Definition taken (raw : list (string * list bval)) (ci ns v i qd qc ec ed t n : list bval) : Prop :=
    sget raw "cycle_index" = Some ci /\ sget raw "Ns" = Some ns /\ sget raw "Ecell/V" = Some v /\ sget raw "I/mA" = Some i /\
    sget raw "Q discharge/mA.h" = Some qd /\ sget raw "Q charge/mA.h" = Some qc /\ sget raw "Energy charge/W.h" = Some ec /\
    sget raw "Energy discharge/W.h" = Some ed /\ sget raw "time/s" = Some t /\ sget raw "cycle number" = Some n.
  Definition points (n : list bval) : list bval := map (fun i => BI (Z.of_nat i)) (seq 1 (length n)).
  Definition data_of (ci ns v i qd qc ec ed t n : list bval) : list (string * list bval) :=
    [("cycle_index", ci); ("step_index", ns); ("voltage", v); ("current", i); ("discharge_capacity", qd); ("charge_capacity", qc);
     ("charge_energy", ec); ("discharge_energy", ed); ("date_time", t); ("data_point", points n)]%string.
  Lemma data_shape mapping cols raw data : biologic_data float_of mapped mapping cols raw = Ok data <->
    exists raw2 ci ns v i qd qc ec ed t n, with_cycles float_of mapped mapping cols raw = Ok raw2 /\ taken raw2 ci ns v i qd qc ec ed t n /\
      data = data_of ci ns v i qd qc ec ed t n /\ (forall k c, In (k, c) data -> length c = length n).
  Proof.
    unfold biologic_data. destruct (with_cycles float_of mapped mapping cols raw) as [raw2|e]; cbn [bind].
    2:{ split; [discriminate|]. intros (? & ? & ? & ? & ? & ? & ? & ? & ? & ? & ? & E & _). discriminate E. }
    unfold biologic_columns. cbn [mapM fst snd]. split.
    - intro H. repeat match type of H with context [raw_column raw2 ?k] => let E := fresh "E" in destruct (raw_column raw2 k) eqn:E; cbn [bind] in H; [apply raw_ok in E | discriminate H] end.
      match type of H with (if ?b then _ else _) = _ => destruct b eqn:F; [|discriminate H] end. injection H as <-.
      eexists raw2, _, _, _, _, _, _, _, _, _, _. split; [reflexivity|]. split; [repeat split; eassumption|]. split; [reflexivity|].
      intros k c I. rewrite forallb_forall in F. apply F in I. apply Nat.eqb_eq in I. exact I.
    - intros (raw' & ci & ns & v & i & qd & qc & ec & ed & t & n & E & (T0 & T1 & T2 & T3 & T4 & T5 & T6 & T7 & T8 & T9) & -> & L). injection E as <-.
      apply raw_ok in T0, T1, T2, T3, T4, T5, T6, T7, T8, T9. rewrite T0, T1, T2, T3, T4, T5, T6, T7, T8, T9. cbn [bind]. 
      match goal with |- (if ?b then _ else _) = _ => replace b with true; [reflexivity|] end.
      symmetry. apply forallb_forall. intros [k c] I. apply Nat.eqb_eq. cbn [snd]. apply (L k c). exact I.
  Qed.
  Lemma cycles_other mapping cols raw raw2 k : with_cycles float_of mapped mapping cols raw = Ok raw2 -> k <> "cycle_index"%string -> sget raw2 k = sget raw k.
  Proof.
    unfold with_cycles. intros H N. destruct (existsb _ cols); [injection H as ->; reflexivity|].
    destruct mapping; destruct (raw_column raw _) as [l|]; cbn [bind] in H; try discriminate H.
    - destruct (mapped l (sget raw "Loop")); cbn [bind] in H; [|discriminate H]. injection H as <-. rewrite sget_sset. destruct (String.eqb_spec k "cycle_index"); [contradiction|reflexivity].
    - destruct (mapM _ l); cbn [bind] in H; [|discriminate H]. injection H as <-. rewrite sget_sset. destruct (String.eqb_spec k "cycle_index"); [contradiction|reflexivity].
  Qed.
  Lemma has_all n rows j : complete n rows -> (j < n)%nat -> filter (Proofs_Biologic.has_item j) rows = rows.
  Proof.
    intros C L. induction rows as [|r rows IH]; [reflexivity|]. cbn [filter]. unfold Proofs_Biologic.has_item at 1. rewrite (C r (or_introl eq_refl)).
    destruct (Nat.ltb_spec j n); [|lia]. rewrite IH by (intros x I; apply C; right; exact I). reflexivity.
  Qed.
  Lemma raw_keys cols rows raw c vals : NoDup cols -> read_table conv cols rows = Ok raw -> sget raw c = Some vals -> In c cols.
  Proof.
    intros N H G. destruct (in_dec string_dec c cols) as [I|I]; [exact I|]. exfalso. unfold read_table in H.
    assert (X : forall d, sget d c = None -> sget (fold_left (fun d c => sset d c ([] : list bval)) cols d) c = None).
    { clear -I. revert I. induction cols as [|x cols IH]; intros I d D; [exact D|]. cbn [fold_left]. apply IH; [intro K; apply I; right; exact K|].
      rewrite sget_sset. destruct (String.eqb_spec c x) as [->|]; [destruct I; left; reflexivity | exact D]. }
    specialize (X [] eq_refl). revert H X. generalize (fold_left (fun d c => sset d c ([] : list bval)) cols []) as d.
    induction rows as [|r rows IH]; intros d H X; cbn [append_rows] in H; [injection H as ->; congruence|].
    destruct (append_items conv d cols r) as [d'|] eqn:E; [|discriminate H]. cbn [bind] in H. apply (IH d' H).
    rewrite (proj1 (Proofs_Biologic.append_items_spec conv cols N _ _ _ E) c I). exact X.
  Qed.
  Lemma column_at cols rows raw c vals : NoDup cols -> complete (length cols) rows -> read_table conv cols rows = Ok raw -> sget raw c = Some vals ->
    exists j, nth_error cols j = Some c /\ column_is (fun s v => conv c s = Ok v) j rows vals.
  Proof.
    intros N C R G. pose proof (raw_keys _ _ _ _ _ N R G) as I. apply In_nth_error in I as [j J]. exists j. split; [exact J|].
    destruct (Proofs_Biologic.table_columns conv _ _ _ N R j c J) as (w & W1 & W2). rewrite G in W1. injection W1 as <-.
    rewrite (has_all (length cols) rows j C) in W2; [exact W2|]. apply nth_error_Some. congruence.
  Qed.
  Lemma column_weaken (R R' : string -> bval -> Prop) j rows vals : (forall s v, R s v -> R' s v) -> column_is R j rows vals -> column_is R' j rows vals.
  Proof. intros W H. unfold column_is in *. induction H as [|r v rows vals (s & E & Hs) _ IH]; constructor; [exists s; auto | exact IH]. Qed.
  Notation number_cell := (number_cell float_of).
  Notation whole_cell := (whole_cell float_of).
  Lemma conv_number src dst k s v : In (src, dst, k) biologic_numbers -> conv src s = Ok v -> number_cell k s v.
  Proof.
    intros I H. unfold biologic_conv in H. cbn in I.
    repeat (destruct I as [I|I]; [injection I as <- <- <-; cbn in H; destruct (float_of s) as [q|] eqn:E; [|discriminate H]; injection H as <-; exists q; auto|]). destruct I.
  Qed.
  Lemma conv_whole src s v : src = "Ns"%string \/ src = "cycle_index"%string -> conv src s = Ok v -> whole_cell s v.
  Proof.
    intros I H. unfold biologic_conv in H.
    destruct I as [-> | ->]; cbn in H; (destruct (float_of s) as [q|] eqn:E; [|discriminate H]; injection H as <-; exists q, (truncate q); split; [exact E|]; split; [apply truncate_ok | reflexivity]).
  Qed.
  Lemma conv_text src s v : src = "time/s"%string \/ src = "cycle number"%string -> conv src s = Ok v -> v = BT s.
  Proof. intros [-> | ->] H; cbn in H; injection H as <-; reflexivity. Qed.
  Lemma data_columns mapping ext pre cols rows lines data : biologic_file ext pre cols rows lines -> NoDup cols -> complete (length cols) rows ->
    biologic_table float_of mapped mapping ext lines = Ok data ->
    (forall src dst k, In (src, dst, k) biologic_numbers ->
       exists j vals, nth_error cols j = Some src /\ sget data dst = Some vals /\ column_is (number_cell k) j rows vals) /\
    (exists j vals, nth_error cols j = Some "Ns"%string /\ sget data "step_index" = Some vals /\ column_is whole_cell j rows vals) /\
    (exists j vals, nth_error cols j = Some "time/s"%string /\ sget data "date_time" = Some vals /\ column_is (fun s v => v = BT s) j rows vals) /\
    sget data "data_point" = Some (map (fun i => BI (Z.of_nat i)) (seq 1 (length rows))) /\
    (In "cycle_index"%string cols ->
       exists j vals, nth_error cols j = Some "cycle_index"%string /\ sget data "cycle_index" = Some vals /\ column_is whole_cell j rows vals) /\
    (~ In "cycle_index"%string cols -> mapping = false ->
       exists j vals, nth_error cols j = Some "cycle number"%string /\ sget data "cycle_index" = Some vals /\ column_is whole_cell j rows vals).
  Proof.
    intros F N C H. rewrite (file_read _ _ _ _ _ _ F) in H. destruct (read_table conv cols rows) as [raw|] eqn:R; [|discriminate H]. cbn [bind] in H.
    apply data_shape in H as (raw2 & ci & ns & v & i & qd & qc & ec & ed & t & n & W & (T0 & T1 & T2 & T3 & T4 & T5 & T6 & T7 & T8 & T9) & -> & L).
    repeat match goal with T : sget raw2 ?k = Some _ |- _ => rewrite (cycles_other _ _ _ _ k W) in T by discriminate end.
    pose proof (fun c vals G => column_at cols rows raw c vals N C R G) as K.
    repeat split.
    - intros src dst k I. pose proof I as I'. cbn in I.
      repeat (destruct I as [I|I]; [injection I as <- <- <-;
        match goal with T : sget raw ?x = Some ?vals, I' : In (?x, _, _) _ |- _ => destruct (K x vals T) as (j & J & Q); exists j, vals; split; [exact J|]; split; [reflexivity|]; eapply column_weaken; [|exact Q]; intros s w; apply (conv_number _ _ _ _ _ I') end|]).
      destruct I.
    - destruct (K _ _ T1) as (j & J & Q). exists j, ns. split; [exact J|]. split; [reflexivity|]. eapply column_weaken; [|exact Q]. intros s w. apply conv_whole. auto.
    - destruct (K _ _ T8) as (j & J & Q). exists j, t. split; [exact J|]. split; [reflexivity|]. eapply column_weaken; [|exact Q]. intros s w. apply conv_text. auto.
    - destruct (K _ _ T9) as (j & J & Q). apply two_lengths in Q. rewrite Q. reflexivity.
    - intro I. assert (E : existsb (String.eqb "cycle_index") cols = true) by (apply existsb_exists; exists "cycle_index"%string; auto).
      unfold with_cycles in W. rewrite E in W. injection W as <-. destruct (K _ _ T0) as (j & J & Q). exists j, ci. split; [exact J|]. split; [reflexivity|]. eapply column_weaken; [|exact Q]. intros s w. apply conv_whole. auto.
    - intros I ->. assert (E : existsb (String.eqb "cycle_index") cols = false).
      { destruct (existsb (String.eqb "cycle_index") cols) eqn:E; [|reflexivity]. apply existsb_exists in E as (x & Ix & Ex). apply String.eqb_eq in Ex. subst x. contradiction. }
      unfold with_cycles in W. rewrite E in W. unfold raw_column in W. rewrite T9 in W. cbn [bind] in W. destruct (mapM (whole_number float_of) n) as [n'|] eqn:M; [|discriminate W].
      cbn [bind] in W. injection W as <-. rewrite sget_sset, String.eqb_refl in T0. injection T0 as ->.
      destruct (K _ _ T9) as (j & J & Q). exists j, ci. split; [exact J|]. split; [reflexivity|].
      apply mapM_forall2 in M. unfold column_is in *. clear -Q M. revert ci M. induction Q as [|r w rows n (s & Es & Hs) _ IH]; intros ci M; inversion M as [|? y ? ys Hy Hys]; subst; constructor; [|apply IH; exact Hys].
      exists s. split; [exact Es|]. apply conv_text in Hs; [|auto]. subst w. cbn in Hy. destruct (float_of s) as [q|] eqn:Eq; [|discriminate Hy]. injection Hy as <-.
      exists q, (truncate q). split; [exact Eq|]. split; [apply truncate_ok | reflexivity].
  Qed.
  Lemma data_mapped ext pre cols rows lines data : biologic_file ext pre cols rows lines -> NoDup cols -> complete (length cols) rows -> ~ In "cycle_index"%string cols ->
    biologic_table float_of mapped true ext lines = Ok data ->
    exists ns loops c, sget data "step_index" = Some ns /\ mapped ns loops = Ok c /\ sget data "cycle_index" = Some (map BI c) /\
      (In "Loop"%string cols -> exists j vals, nth_error cols j = Some "Loop"%string /\ loops = Some vals /\ column_is (fun s v => v = BT s) j rows vals) /\
      (~ In "Loop"%string cols -> loops = None).
  Proof.
    intros F N C NI H. rewrite (file_read _ _ _ _ _ _ F) in H. destruct (read_table conv cols rows) as [raw|] eqn:R; [|discriminate H]. cbn [bind] in H.
    apply data_shape in H as (raw2 & ci & ns & v & i & qd & qc & ec & ed & t & n & W & (T0 & T1 & _) & -> & L).
    assert (E : existsb (String.eqb "cycle_index") cols = false).
    { destruct (existsb (String.eqb "cycle_index") cols) eqn:E; [|reflexivity]. apply existsb_exists in E as (x & Ix & Ex). apply String.eqb_eq in Ex. subst x. contradiction. }
    rewrite (cycles_other _ _ _ _ _ W) in T1 by discriminate. unfold with_cycles in W. rewrite E in W. unfold raw_column in W. rewrite T1 in W. cbn [bind] in W.
    destruct (mapped ns (sget raw "Loop")) as [c|] eqn:M; [|discriminate W]. cbn [bind] in W. injection W as <-. rewrite sget_sset, String.eqb_refl in T0. injection T0 as <-.
    exists ns, (sget raw "Loop"), c. split; [reflexivity|]. split; [exact M|]. split; [reflexivity|]. split.
    - intro I. destruct (sget raw "Loop") as [vals|] eqn:G.
      + destruct (column_at cols rows raw _ vals N C R G) as (j & J & Q). exists j, vals. split; [exact J|]. split; [reflexivity|]. eapply column_weaken; [|exact Q].
        intros s w Hs. cbn in Hs. injection Hs as <-. reflexivity.
      + apply In_nth_error in I as [j J]. destruct (Proofs_Biologic.table_columns conv _ _ _ N R j _ J) as (w & W1 & _). congruence.
    - intro I. destruct (sget raw "Loop") as [vals|] eqn:G; [|reflexivity]. destruct I. exact (raw_keys _ _ _ _ _ N R G).
  Qed.
  (** A cell that has to be a number. *)
  Lemma data_total ext pre cols rows lines : biologic_file ext pre cols rows lines -> NoDup cols -> complete (length cols) rows ->
    (forall c, In c biologic_needed -> In c cols) -> In "cycle number"%string cols ->
    (forall r j c s, In r rows -> nth_error cols j = Some c -> nth_error r j = Some s -> c = "Ns"%string \/ c = "cycle_index"%string \/ c = "cycle number"%string \/ In c (map (fun n => fst (fst n)) biologic_numbers) ->
       exists q, float_of s = Some q) ->
    exists data, biologic_table float_of mapped false ext lines = Ok data.
  Proof.
    intros F N C NE CN Q. rewrite (file_read _ _ _ _ _ _ F).
    destruct (Proofs_Biologic.table_complete conv cols rows N) as [raw R].
    - intros items I. rewrite (C items I). reflexivity.
    - intros items j c s I J E. unfold biologic_conv. destruct (sget biologic_columns c) as [[nm ty]|] eqn:G; [|eexists; reflexivity].
      assert (X : ty = BText \/ exists q, float_of s = Some q).
      { apply sget_member in G. cbn in G. repeat (destruct G as [G|G]; [injection G as <- <- <-; first [left; reflexivity | right; apply (Q items j _ s I J E); cbn; auto 12]|]). destruct G. }
      destruct X as [-> | [q X]]; [eexists; reflexivity|]. destruct ty; rewrite ?X; eexists; reflexivity.
    - rewrite R. cbn [bind].
      assert (K : forall c, In c cols -> exists vals j, sget raw c = Some vals /\ nth_error cols j = Some c /\ column_is (fun s v => conv c s = Ok v) j rows vals).
      { intros c I. apply In_nth_error in I as [j J]. destruct (Proofs_Biologic.table_columns conv _ _ _ N R j c J) as (vals & V & W). exists vals, j. split; [exact V|]. split; [exact J|].
        rewrite (has_all (length cols) rows j C) in W; [exact W | apply nth_error_Some; congruence]. }
      assert (KL : forall c, In c cols -> exists vals, sget raw c = Some vals /\ length vals = length rows).
      { intros c I. destruct (K c I) as (vals & j & V & _ & W). exists vals. split; [exact V|]. symmetry. apply (two_lengths _ _ _ W). }
      assert (W : exists raw2 ci, with_cycles float_of mapped false cols raw = Ok raw2 /\ sget raw2 "cycle_index" = Some ci /\ length ci = length rows).
      { unfold with_cycles. destruct (existsb (String.eqb "cycle_index") cols) eqn:E.
        - apply existsb_exists in E as (x & Ix & Ex). apply String.eqb_eq in Ex. subst x. destruct (KL _ Ix) as (ci & V & L). eauto.
        - unfold raw_column. destruct (K _ CN) as (n & j & V & J & W). rewrite V. cbn [bind].
          assert (M : exists n', mapM (whole_number float_of) n = Ok n' /\ length n' = length rows).
          { assert (Q' : forall r s, In r rows -> nth_error r j = Some s -> exists q, float_of s = Some q) by (intros r s I E'; apply (Q r j _ s I J E'); auto).
            unfold column_is in W. clear -W Q'. induction W as [|r w rows n (s & Es & Hs) _ IH]; [exists []; auto|].
            destruct IH as (n' & M & L); [intros r' s' I; apply Q'; right; exact I|]. destruct (Q' r s (or_introl eq_refl) Es) as [q Hq]. cbn in Hs. injection Hs as <-.
            cbn [mapM whole_number]. rewrite Hq. cbn [bind]. rewrite M. cbn [bind]. eexists. split; [reflexivity|]. cbn. rewrite L. reflexivity. }
          destruct M as (n' & M & L). rewrite M. cbn [bind]. exists (sset raw "cycle_index" n'), n'. split; [reflexivity|]. split; [rewrite sget_sset, String.eqb_refl; reflexivity | exact L]. }
      destruct W as (raw2 & ci & W & Gc & Lc).
      assert (K2 : forall c, In c biologic_needed \/ c = "cycle number"%string -> exists vals, sget raw2 c = Some vals /\ length vals = length rows).
      { intros c I. rewrite (cycles_other _ _ _ _ c W); [apply KL; destruct I as [I | ->]; auto|]. destruct I as [I | ->]; [|discriminate]. intros ->. cbn in I. repeat (destruct I as [I|I]; [discriminate I|]). destruct I. }
      destruct (K2 "Ns"%string) as (ns & G1 & L1); [left; cbn; auto|]. destruct (K2 "Ecell/V"%string) as (v & G2 & L2); [left; cbn; auto 12|].
      destruct (K2 "I/mA"%string) as (i & G3 & L3); [left; cbn; auto 12|]. destruct (K2 "Q discharge/mA.h"%string) as (qd & G4 & L4); [left; cbn; auto 12|].
      destruct (K2 "Q charge/mA.h"%string) as (qc & G5 & L5); [left; cbn; auto 12|]. destruct (K2 "Energy charge/W.h"%string) as (ec & G6 & L6); [left; cbn; auto 12|].
      destruct (K2 "Energy discharge/W.h"%string) as (ed & G7 & L7); [left; cbn; auto 12|]. destruct (K2 "time/s"%string) as (t & G8 & L8); [left; cbn; auto 12|].
      destruct (K2 "cycle number"%string) as (n & G9 & L9); [auto|].
      exists (data_of ci ns v i qd qc ec ed t n). apply data_shape. exists raw2, ci, ns, v, i, qd, qc, ec, ed, t, n. split; [exact W|]. split; [repeat split; assumption|]. split; [reflexivity|].
      intros k c I. cbn in I. repeat (destruct I as [I|I]; [injection I as _ <-; unfold points; rewrite ?map_length, ?seq_length; congruence|]). destruct I.
  Qed.
  Lemma data_missing mapping ext pre cols rows lines data c : biologic_file ext pre cols rows lines -> NoDup cols ->
    In c ("cycle number"%string :: biologic_needed) -> biologic_table float_of mapped mapping ext lines = Ok data -> In c cols.
  Proof.
    intros F N I H. rewrite (file_read _ _ _ _ _ _ F) in H. destruct (read_table conv cols rows) as [raw|] eqn:R; [|discriminate H]. cbn [bind] in H.
    apply data_shape in H as (raw2 & ci & ns & v & i & qd & qc & ec & ed & t & n & W & (T0 & T1 & T2 & T3 & T4 & T5 & T6 & T7 & T8 & T9) & -> & L).
    repeat match goal with T : sget raw2 ?k = Some _ |- _ => rewrite (cycles_other _ _ _ _ k W) in T by discriminate end.
    cbn in I. repeat (destruct I as [<-|I]; [eapply raw_keys; eassumption|]). destruct I.
  Qed.
  (** Without a column for the number of the cycle, and a line that ends early *)
  Lemma rows_whole mapping ext pre cols rows lines data : biologic_file ext pre cols rows lines -> NoDup cols ->
    biologic_table float_of mapped mapping ext lines = Ok data ->
    forall c1 c2 j1 j2 r, In c1 biologic_needed -> In c2 biologic_needed -> nth_error cols j1 = Some c1 -> nth_error cols j2 = Some c2 -> In r rows ->
      (nth_error r j1 = None <-> nth_error r j2 = None).
  Proof.
    intros F N H. rewrite (file_read _ _ _ _ _ _ F) in H. destruct (read_table conv cols rows) as [raw|] eqn:R; [|discriminate H]. cbn [bind] in H.
    apply data_shape in H as (raw2 & ci & ns & v & i & qd & qc & ec & ed & t & n & W & (T0 & T1 & T2 & T3 & T4 & T5 & T6 & T7 & T8 & T9) & -> & L).
    repeat match goal with T : sget raw2 ?k = Some _ |- _ => rewrite (cycles_other _ _ _ _ k W) in T by discriminate end.
    assert (K : forall c, In c biologic_needed -> exists vals, sget raw c = Some vals /\ length vals = length n).
    { intros c I. cbn in I. repeat (destruct I as [<-|I]; [eexists; split; [eassumption|]; eapply L; cbn; eauto 14|]). destruct I. }
    assert (HL : forall c j, In c biologic_needed -> nth_error cols j = Some c -> length (filter (Proofs_Biologic.has_item j) rows) = length n).
    { intros c j I J. destruct (K c I) as (vals & V & LV). destruct (Proofs_Biologic.table_columns conv _ _ _ N R j c J) as (w & W1 & W2). rewrite V in W1. injection W1 as <-.
      rewrite <- LV. symmetry. apply (Proofs_Biologic.cv_length conv c j _ _ W2). }
    intros c1 c2 j1 j2 r I1 I2 J1 J2 Ir.
    assert (E : filter (Proofs_Biologic.has_item j1) rows = filter (Proofs_Biologic.has_item j2) rows).
    { pose proof (HL c1 j1 I1 J1) as A. pose proof (HL c2 j2 I2 J2) as B. destruct (Nat.le_gt_cases j1 j2) as [Le|Le].
      - symmetry. apply Proofs_Biologic.filter_le; [|congruence]. unfold Proofs_Biologic.has_item. intros x X. apply Nat.ltb_lt in X. apply Nat.ltb_lt. lia.
      - apply Proofs_Biologic.filter_le; [|congruence]. unfold Proofs_Biologic.has_item. intros x X. apply Nat.ltb_lt in X. apply Nat.ltb_lt. lia. }
    assert (G : Proofs_Biologic.has_item j1 r = Proofs_Biologic.has_item j2 r).
    { destruct (Proofs_Biologic.has_item j1 r) eqn:A; destruct (Proofs_Biologic.has_item j2 r) eqn:B; try reflexivity.
      - assert (X : In r (filter (Proofs_Biologic.has_item j1) rows)) by (apply filter_In; auto). rewrite E in X. apply filter_In in X as [_ X]. congruence.
      - assert (X : In r (filter (Proofs_Biologic.has_item j2) rows)) by (apply filter_In; auto). rewrite <- E in X. apply filter_In in X as [_ X]. congruence. }
    unfold Proofs_Biologic.has_item in G. rewrite !nth_error_None. destruct (Nat.ltb_spec j1 (length r)), (Nat.ltb_spec j2 (length r)); try discriminate G; lia.
  Qed.
End Data.
