(** Lemmas for C40, C69, C70. *)
From Verif Require Import Py Num Model_Text Model_Arbin Model_M2A Spec_Numeral Spec_Arbin Spec_M2A
  Proofs_Strings Proofs_Text Proofs_Numeral Proofs_Diagnostic Proofs_Datapath Proofs_Structure Proofs_Arbin Proofs_Arbin_Set Proofs_M2B.

(** ** Labels and where loops lead *)
Lemma str_int_inj a b : (0 <= a)%Z -> (0 <= b)%Z -> str_int a = str_int b -> a = b.
Proof.
  intros A B H. pose proof (parse_str_int a) as P. rewrite H, (parse_str_int b) in P. congruence.
Qed.
Lemma digits_avoid ds c : Forall is_digit ds -> In c ["."; "-"; "_"; "["; "]"; "="; " "; ":"]%char -> ~ In c (list_ascii_of_string (digits_text ds)).
Proof.
  intros F I J. induction F as [|d ds D F IH]; [exact J|]. cbn in J. destruct J as [J|J]; [|exact (IH J)]. unfold is_digit in D. clear -D I J.
  do 10 (destruct d as [|d]; [subst c; cbn in I; intuition discriminate|]). lia.
Qed.
Lemma str_int_digits n : str_int (Z.of_nat n) = digits_text (digits_of (Z.of_nat n)) /\ Forall is_digit (digits_of (Z.of_nat n)) /\ digits_of (Z.of_nat n) <> [].
Proof.
  unfold str_int. destruct (Z.ltb_spec (Z.of_nat n) 0); [lia|]. split; [reflexivity|]. destruct (digits_of_spec (Z.of_nat n)) as (A & B & _); [lia|]. auto.
Qed.
Lemma nat_text_avoids n c : In c ["."; "-"; "_"; "["; "]"; "="; " "; ":"]%char -> avoids [c] (str_int (Z.of_nat n)).
Proof. destruct (str_int_digits n) as (-> & F & _). intros I d J [<-|[]]. exact (digits_avoid _ _ F I J). Qed.
Lemma label_inj i j a b : label_of i a = label_of j b -> i = j.
Proof.
  unfold label_of. replace (Z.of_nat i + 1)%Z with (Z.of_nat (S i)) by lia. replace (Z.of_nat j + 1)%Z with (Z.of_nat (S j)) by lia. intro H.
  apply (f_equal (str_split "-")) in H. change ("-" ++ a_note a)%string with (String "-" (a_note a)) in H. change ("-" ++ a_note b)%string with (String "-" (a_note b)) in H.
  rewrite !str_split_char in H by (apply (avoids_free _ _ _ (nat_text_avoids _ "-" ltac:(cbn; auto))); left; reflexivity).
  injection H as H _. apply str_int_inj in H; lia.
Qed.
Fixpoint labels (i : nat) (steps : list astep) : list string := match steps with [] => [] | st :: r => label_of i st :: labels (S i) r end.
Lemma labels_app i a b : labels i (a ++ b) = labels i a ++ labels (i + length a) b.
Proof. revert i. induction a as [|x a IH]; intro i; cbn; [rewrite Nat.add_0_r; reflexivity|]. rewrite IH. do 2 f_equal. f_equal. lia. Qed.
Lemma labels_length i l : length (labels i l) = length l.
Proof. revert i. induction l; intro; cbn; auto. Qed.
Lemma labels_nth i l k st : nth_error l k = Some st -> nth_error (labels i l) k = Some (label_of (i + k) st).
Proof. revert i k. induction l as [|x l IH]; intros i [|k] H; try discriminate; cbn in *; [injection H as ->; rewrite Nat.add_0_r; reflexivity|]. rewrite (IH (S i) k H). do 2 f_equal. lia. Qed.

Lemma find_do_opens steps d i want : (i <= length steps)%nat -> opens steps d i want -> (2 <= d)%nat -> find_do steps want (i - 1) = Some d.
Proof.
  intros LE (LT & (st & N & T) & NO) D2. 
  assert (G : forall j, (d <= j)%nat -> (j < i)%nat -> find_do steps want j = Some d).
  { induction j as [|j IH]; intros A B; [lia|]. destruct j as [|j]; [lia|]. cbn [find_do].
    destruct (Nat.eq_dec d (S (S j))) as [<-|NE].
    - rewrite N, T, String.eqb_refl. reflexivity.
    - destruct (nth_error steps (S (S j))) as [x|] eqn:X; [|apply nth_error_None in X; lia].
      destruct (String.eqb_spec (a_type x) want) as [E|_]; [|apply IH; lia]. destruct (NO (S (S j))); [lia|]. exists x. auto. }
  apply G; lia.
Qed.
Lemma flow_get (flow : list (Z * string)) k v j : d_get Z.eqb (d_set Z.eqb flow k v) j = if Z.eqb j k then Some v else d_get Z.eqb flow j.
Proof. apply d_get_set. Qed.
Lemma metadata_spec steps : forall rest pre flow last N F, steps = pre ++ rest -> metadata_loop steps rest (length pre) (labels 0 pre) flow last = Ok (N, F) ->
  N = labels 0 steps /\ (forall j, (j < length pre)%nat -> d_get Z.eqb F (Z.of_nat j) = d_get Z.eqb flow (Z.of_nat j)) /\
  (forall k st n d, nth_error rest k = Some st -> contains "Loop" (a_type st) = true -> first_number (a_type st) = Ok n ->
     find_do steps ("Do " ++ str_int n) (length pre + k - 1) = Some d -> (d < length pre + k)%nat -> d_get Z.eqb F (Z.of_nat (length pre + k)) = nth_error (labels 0 steps) (S d)).
Proof.
  induction rest as [|st rest IH]; intros pre flow last N F E H.
  - cbn in H. injection H as <- <-. rewrite app_nil_r in E. subst pre. split; [reflexivity|]. split; [auto|]. intros k st n d X. destruct k; discriminate X.
  - assert (E' : steps = (pre ++ [st]) ++ rest) by (rewrite <- app_assoc; exact E).
    assert (LN : length (pre ++ [st]) = S (length pre)) by (rewrite app_length; cbn; lia).
    assert (NN : labels 0 pre ++ [label_of (length pre) st] = labels 0 (pre ++ [st])) by (rewrite labels_app; reflexivity).
    cbn [metadata_loop] in H. rewrite NN in H. destruct (contains "Loop" (a_type st)) eqn:CL.
    + destruct (first_number (a_type st)) as [n|] eqn:FN; [|discriminate]. cbn [bind] in H.
      set (last' := match find_do steps ("Do " ++ str_int n) (length pre - 1) with Some d => Some d | None => last end) in *.
      destruct last' as [d|] eqn:LD; [|discriminate]. destruct (nth_error (labels 0 (pre ++ [st])) (S d)) as [l|] eqn:NL; [|discriminate].
      rewrite <- LN in H. destruct (IH (pre ++ [st]) _ _ _ _ E' H) as (A & B & C). split; [exact A|]. rewrite LN in *. split.
      * intros j J. rewrite B by lia. rewrite flow_get. destruct (Z.eqb_spec (Z.of_nat j) (Z.of_nat (length pre))); [lia|reflexivity].
      * intros k st' n' d' X1 X2 X3 X4 X5. destruct k as [|k].
        -- cbn in X1. injection X1 as <-. rewrite FN in X3. injection X3 as <-. rewrite Nat.add_0_r in *. unfold last' in LD. rewrite X4 in LD. injection LD as <-.
           rewrite B by lia. rewrite flow_get, Z.eqb_refl, <- NL. rewrite E', (labels_app 0 (pre ++ [st]) rest), nth_error_app1 by (rewrite labels_length, app_length; cbn; lia). reflexivity.
        -- cbn in X1. replace (length pre + S k)%nat with (S (length pre) + k)%nat in * by lia. eapply C; eauto.
    + rewrite <- LN in H. destruct (IH (pre ++ [st]) _ _ _ _ E' H) as (A & B & C). split; [exact A|]. rewrite LN in *. split; [intros j J; apply B; lia|].
      intros k st' n' d' X1 X2 X3 X4 X5. destruct k as [|k]; [cbn in X1; injection X1 as <-; congruence|].
      cbn in X1. replace (length pre + S k)%nat with (S (length pre) + k)%nat in * by lia. eapply C; eauto.
Qed.
Lemma metadata_names steps N F : create_metadata steps = Ok (N, F) -> N = labels 0 steps.
Proof. intro H. apply (metadata_spec steps steps [] [] None N F eq_refl H). Qed.
Lemma metadata_loop_target steps N F i d lname dname cname : create_metadata steps = Ok (N, F) -> In (lname, dname, cname) loop_names -> type_at steps i lname -> opens steps d i dname -> (2 <= d)%nat ->
  exists st, nth_error steps (S d) = Some st /\ d_get Z.eqb F (Z.of_nat i) = Some (label_of (S d) st).
Proof.
  intros H LN (st & NI & TI) O D2. pose proof O as (LT & _ & _). assert (LI : (i < length steps)%nat) by (apply nth_error_Some; congruence).
  destruct (nth_error steps (S d)) as [sd|] eqn:ND; [|apply nth_error_None in ND; lia]. exists sd. split; [reflexivity|].
  destruct (metadata_spec steps steps [] [] None N F eq_refl H) as (_ & _ & C).
  assert (X : exists n, contains "Loop" (a_type st) = true /\ first_number (a_type st) = Ok n /\ dname = ("Do " ++ str_int n)%string).
  { rewrite TI. destruct LN as [E|[E|[]]]; injection E as <- <- _; [exists 1%Z|exists 2%Z]; repeat split. }
  destruct X as (n & X1 & X2 & ->).
  pose proof (find_do_opens steps d i _ (Nat.lt_le_incl _ _ LI) O D2) as FD. specialize (C i st n d NI X1 X2). cbn [length Nat.add] in C. rewrite (C FD LT). rewrite (labels_nth 0 steps (S d) sd ND). reflexivity.
Qed.

(** ** One compiled step *)
Definition fields (b : list (string * node)) : Prop := map fst b = map fst blank_body /\ Forall (fun kv => exists v, snd kv = Leaf v) b.
Lemma blank_fields : fields blank_body.
Proof. split; [reflexivity|]. unfold blank_body. apply Forall_forall. intros kv I. apply in_map_iff in I. destruct I as (x & <- & _). eexists. reflexivity. Qed.
Lemma put_fields b k v : fields b -> smem blank_body k = true -> fields (put b k v).
Proof.
  intros [A B] K. unfold put. split.
  - rewrite sset_keys. replace (smem b k) with true; [exact A|]. symmetry. apply smem_in. rewrite A. apply smem_in. exact K.
  - apply (sset_forall (fun n => exists v, n = Leaf v)); [exact B|eauto].
Qed.
Definition kept_fields : list string := ["m_szLabel"; "m_uLimitNum"; "m_szCurrentRange"]%string.
Definition set_fields : list string := ["m_szStepCtrlType"; "m_szCtrlValue"; "m_szExtCtrlValue1"; "m_szExtCtrlValue2"]%string.
Definition kept (b b' : list (string * node)) : Prop := fields b -> fields b' /\ forall f, In f kept_fields -> sget b' f = sget b f.
Lemma kept_refl b : kept b b.
Proof. intro F. split; [exact F|reflexivity]. Qed.
Lemma kept_put b b' k v : kept b b' -> str_in k set_fields = true -> kept b (put b' k v).
Proof.
  intros K I F. destruct (K F) as [A B]. apply str_in_in in I. split.
  - apply put_fields; [exact A|]. cbn in I. repeat (destruct I as [<-|I]; [reflexivity|]). destruct I.
  - intros f H. rewrite <- (B f H). unfold put. rewrite sget_sset. destruct (String.eqb_spec f k) as [E|]; [|reflexivity]. subst f. exfalso. cbn in I, H.
    repeat (destruct I as [<-|I]; [cbn in H; intuition discriminate|]). destruct I.
Qed.
Lemma kept_puts kvs : forall b b', kept b b' -> forallb (fun k => str_in k set_fields) (map fst kvs) = true -> kept b (puts b' kvs).
Proof.
  induction kvs as [|[k v] kvs IH]; intros b b' K H; [exact K|]. cbn [map fst forallb] in H. apply andb_true_iff in H. destruct H as [H1 H2].
  unfold puts. cbn [fold_left fst snd]. fold (puts (put b' k v) kvs). apply IH; [|exact H2]. apply kept_put; assumption.
Qed.
Definition loop_ends (st : astep) (i : nat) (flow : list (Z * string)) (ends : entries) : Prop :=
  exists e v g, a_ends st = Single e /\ fld e "Value" = Ok v /\ d_get Z.eqb flow (Z.of_nat i) = Some g /\
    ends = Several [[("EndType", "Loop Addendum"); ("Oper", "< "); ("Step", hd EmptyString (str_split "-" g)); ("Value", v)]%string; e].
Definition looping (st : astep) : bool := match a_mode st with None => contains "Loop" (a_type st) | Some _ => false end.
Ltac kept := repeat first [apply kept_refl | apply kept_put; [|reflexivity] | apply kept_puts; [|reflexivity]].
Lemma set_control_spec st i flow b b' ends : set_control st i flow b = Ok (b', ends) ->
  kept b b' /\ (if looping st then loop_ends st i flow ends else ends = a_ends st).
Proof.
  intro H. unfold set_control in H. unfold looping. destruct (a_mode st) as [m|].
  - assert (X : forall r, (let! x := r in Ok (x, a_ends st)) = Ok (b', ends) -> r = Ok b' /\ ends = a_ends st) by (intros [r|] E; [injection E as <- <-; auto|discriminate]).
    cut (kept b b' /\ ends = a_ends st); [auto|].
    destruct (String.eqb m "Current").
    + destruct (a_value st) as [v|]; [|discriminate]. destruct (contains "C" v); apply X in H; destruct H as [H ->]; (split; [|reflexivity]);
      destruct (a_limits st) as [l|]; destruct (String.eqb (a_type st) "Charge"); try destruct (String.eqb (a_type st) "Dischrge"); try destruct (fld l "Voltage") as [u|]; cbn [bind] in H; try discriminate; injection H as <-; kept.
    + destruct (String.eqb m "Voltage"); [|discriminate]. apply X in H. destruct H as [H ->]. split; [|reflexivity].
      destruct (a_limits st) as [l|]; [destruct (fld l "Current") as [u|]; [|discriminate]; cbn [bind] in H; destruct (contains "C" u); [discriminate|]|];
      destruct (String.eqb (a_type st) "Charge"); try destruct (String.eqb (a_type st) "Dischrge"); cbn [orb] in H; try destruct (a_value st) as [v|]; try discriminate; injection H as <-; kept.
  - destruct (String.eqb_spec (a_type st) "Rest") as [E|_].
    + rewrite E. cbn [contains]. destruct (a_limits st); [discriminate|]. cbn [bind] in H. injection H as <- <-. split; [kept|reflexivity].
    + destruct (str_in (a_type st) _); [|discriminate]. destruct (String.eqb_spec (a_type st) "AdvCycle") as [E|_].
      * rewrite E. cbn [bind] in H. injection H as <- <-. split; [kept|reflexivity].
      * destruct (contains "Loop" (a_type st)).
        -- destruct (first_number (a_type st)) as [n|]; [|discriminate]. cbn [bind] in H. destruct (d_get Z.eqb flow (Z.of_nat i)) as [g|] eqn:G; [|discriminate].
           destruct (a_ends st) as [|e|] eqn:E; try discriminate. destruct (fld e "Value") as [v|] eqn:V; [|discriminate]. cbn [bind] in H. injection H as <- <-.
           split; [kept|]. exists e, v, g. auto.
        -- destruct (contains "Do" (a_type st)); [destruct (first_number (a_type st)) as [n|]; [|discriminate]|]; cbn [bind] in H; injection H as <- <-; (split; [kept|reflexivity]).
Qed.

Lemma sset_new {V} (d : list (string * V)) k v : smem d k = false -> sset d k v = d ++ [(k, v)].
Proof.
  unfold smem, d_mem, sset. induction d as [|[a w] d IH]; intro H; [reflexivity|]. cbn in *. destruct (String.eqb k a); [discriminate|]. rewrite (IH H). reflexivity.
Qed.
Lemma sset_front {V} (a b : list (string * V)) k v : smem a k = true -> sset (a ++ b) k v = sset a k v ++ b.
Proof.
  unfold smem, d_mem, sset. induction a as [|[x w] a IH]; intro H; [discriminate|]. cbn in *. destruct (String.eqb k x); [reflexivity|]. rewrite (IH H). reflexivity.
Qed.
Lemma sget_app {V} (a b : list (string * V)) k : sget (a ++ b) k = match sget a k with Some v => Some v | None => sget b k end.
Proof. unfold sget. induction a as [|[x w] a IH]; [reflexivity|]. cbn. destruct (String.eqb k x); [reflexivity|exact IH]. Qed.
Lemma smem_sget {V} (a : list (string * V)) k : smem a k = match sget a k with Some _ => true | None => false end.
Proof. reflexivity. Qed.
Fixpoint keyed (k : nat) (ls : list (list (string * string))) : list (string * node) :=
  match ls with [] => [] | l :: r => (limit_key k, as_node l) :: keyed (S k) r end.
Lemma limit_key_inj a b : limit_key a = limit_key b -> a = b.
Proof. unfold limit_key. intro H. change ("Limit" ++ str_int (Z.of_nat a) = "Limit" ++ str_int (Z.of_nat b))%string in H. cbn in H. injection H as H. apply str_int_inj in H; lia. Qed.
Lemma keyed_in k ls x n : In (x, n) (keyed k ls) <-> exists j l, nth_error ls j = Some l /\ x = limit_key (k + j) /\ n = as_node l.
Proof.
  revert k. induction ls as [|l ls IH]; intro k; cbn [keyed]; [split; [intros []|intros (j & l & H & _); destruct j; discriminate]|]. cbn [In]. split.
  - intros [E|I].
    + injection E as <- <-. exists 0%nat, l. rewrite Nat.add_0_r. auto.
    + apply IH in I. destruct I as (j & l' & A & B & C). exists (S j), l'. rewrite B. split; [exact A|]. split; [replace (k + S j)%nat with (S k + j)%nat by lia; reflexivity|exact C].
  - intros (j & l' & A & B & C). destruct j as [|j].
    + left. injection A as <-. rewrite B, C, Nat.add_0_r. reflexivity.
    + right. apply IH. exists j, l'. split; [exact A|]. split; [rewrite B; replace (k + S j)%nat with (S k + j)%nat by lia; reflexivity|exact C].
Qed.
Lemma keyed_get k ls j l : nth_error ls j = Some l -> sget (keyed k ls) (limit_key (k + j)) = Some (as_node l).
Proof.
  unfold sget. revert k j. induction ls as [|x ls IH]; intros k j H; [destruct j; discriminate|]. cbn [keyed d_get]. destruct j as [|j].
  - injection H as ->. rewrite Nat.add_0_r, String.eqb_refl. reflexivity.
  - destruct (String.eqb_spec (limit_key (k + S j)) (limit_key k)) as [E|_]; [apply limit_key_inj in E; lia|]. replace (k + S j)%nat with (S k + j)%nat by lia. apply IH. exact H.
Qed.
Lemma keyed_none k ls m : (m < k)%nat -> sget (keyed k ls) (limit_key m) = None.
Proof.
  unfold sget. revert k. induction ls as [|x ls IH]; intros k H; [reflexivity|]. cbn [keyed d_get]. destruct (String.eqb_spec (limit_key m) (limit_key k)) as [E|_]; [apply limit_key_inj in E; lia|].
  apply IH. lia.
Qed.
Lemma keyed_above k ls m : (k + length ls <= m)%nat -> sget (keyed k ls) (limit_key m) = None.
Proof.
  unfold sget. revert k. induction ls as [|x ls IH]; intros k H; [reflexivity|]. cbn [keyed d_get]. cbn in H. destruct (String.eqb_spec (limit_key m) (limit_key k)) as [E|_]; [apply limit_key_inj in E; lia|].
  apply IH. lia.
Qed.
Lemma put_limits_spec ls : forall k b, (forall j, (k <= j)%nat -> smem b (limit_key j) = false) -> put_limits k ls b = b ++ keyed k ls.
Proof.
  induction ls as [|l ls IH]; intros k b H; cbn [put_limits keyed]; [rewrite app_nil_r; reflexivity|]. rewrite sset_new by (apply H; lia). rewrite IH.
  - rewrite <- app_assoc. reflexivity.
  - intros j J. rewrite smem_sget, sget_app. specialize (H j ltac:(lia)). rewrite smem_sget in H. destruct (sget b (limit_key j)); [discriminate|].
    unfold sget. cbn [d_get]. destruct (String.eqb_spec (limit_key j) (limit_key k)) as [E|_]; [apply limit_key_inj in E; lia|reflexivity].
Qed.
Lemma fields_limit b k : fields b -> smem b (limit_key k) = false.
Proof.
  intros [A _]. destruct (smem b (limit_key k)) eqn:E; [|reflexivity]. apply smem_in in E. rewrite A in E. exfalso. unfold limit_key in E.
  change ("Limit" ++ str_int (Z.of_nat k))%string with (String "L" ("imit" ++ str_int (Z.of_nat k))) in E. cbn in E. repeat (destruct E as [E|E]; [discriminate|]). exact E.
Qed.
Lemma put_get b k v f : sget (put b k v) f = if String.eqb f k then Some (Leaf v) else sget b f.
Proof. apply sget_sset. Qed.

(** the limits of a step: those of the ends, then those of the reports from key [start] *)
Definition report_limits (show : Q -> string) (st : astep) (ends : entries) (rls : list (list (string * string))) (start : nat) : Prop :=
  match a_reports st with
  | Absent => rls = []
  | Single r => entries_len ends = Ok start /\ exists l, convert_report show r = Ok l /\ rls = [l]
  | Several rs => match ends with
                  | Absent => False
                  | Single _ => rls = []
                  | Several es => start = length es /\ mapM (convert_report show) rs = Ok rls
                  end
  end.
Definition with_ends (st : astep) (ends : entries) : astep :=
  {| a_note := a_note st; a_type := a_type st; a_mode := a_mode st; a_value := a_value st; a_limits := a_limits st; a_ends := ends; a_reports := a_reports st |}.
Lemma compile_shape show st i names flow cr b' st' : compile show st i names flow cr = Ok (b', st') ->
  exists b0 b ends els rls start,
    set_control st i flow (puts blank_body [("m_szLabel", label_of i st); ("m_szCurrentRange", cr)]%string) = Ok (b0, ends) /\
    (if looping st then loop_ends st i flow ends else ends = a_ends st) /\ st' = with_ends st ends /\
    end_limits show b0 ends i names (a_type st) flow = Ok els /\ report_limits show st ends rls start /\
    (rls <> [] -> (length els <= start)%nat) /\
    b' = b ++ keyed 0 els ++ keyed start rls /\ fields b /\
    (forall f, f <> "m_uLimitNum"%string -> sget b f = sget b0 f) /\
    sget b "m_szLabel" = Some (Leaf (label_of i st)) /\ sget b "m_szCurrentRange" = Some (Leaf cr) /\
    sget b "m_uLimitNum" = Some (Leaf (str_int (Z.of_nat (length els + length rls)))).
Proof.
  unfold compile. intro H. set (bb := puts blank_body _) in *. destruct (set_control st i flow bb) as [[b0 ends]|] eqn:SC; [|discriminate]. cbn [bind] in H.
  destruct (end_limits show b0 ends i names (a_type st) flow) as [els|] eqn:EL; [|discriminate]. cbn [bind] in H.
  destruct (set_control_spec _ _ _ _ _ _ SC) as [K LE].
  assert (F : fields bb) by (unfold bb, puts; cbn [fold_left fst snd]; do 2 (apply put_fields; [|reflexivity]); exact blank_fields).
  destruct (K F) as [F0 G0].
  assert (P0 : put_limits 0 els b0 = b0 ++ keyed 0 els) by (apply put_limits_spec; intros; apply fields_limit; exact F0). rewrite P0 in H.
  assert (X : exists rls start, report_limits show st ends rls start /\ (rls <> [] -> (length els <= start)%nat) /\
     Ok (put (b0 ++ keyed 0 els ++ keyed start rls) "m_uLimitNum" (str_int (Z.of_nat (length els + length rls))), with_ends st ends) = Ok (b', st')).
  { unfold report_limits. destruct (a_reports st) as [|r|rs] eqn:R.
    - exists [], 0%nat. split; [reflexivity|]. split; [congruence|]. cbn [bind] in H. cbn [keyed length]. rewrite app_nil_r, Nat.add_0_r. unfold with_ends. rewrite R. exact H.
    - destruct (entries_len ends) as [start|] eqn:LEN; [|discriminate]. cbn [bind] in H. destruct (convert_report show r) as [l|] eqn:C; [|discriminate]. cbn [bind] in H.
      assert (LS : (length els <= start)%nat).
      { destruct ends as [|e|es]; cbn in LEN; [discriminate| |]; injection LEN as <-; cbn in EL.
        - destruct (convert_end show (ctrl_type b0) e i names (a_type st) flow) as [x|] eqn:CE; [|discriminate]. injection EL as <-. cbn.
          unfold convert_end in CE. destruct e; [discriminate CE|cbn; lia].
        - apply mapM_ok in EL. apply F2_length in EL. lia. }
      exists [l], start. split; [eauto|]. split; [auto|]. rewrite put_limits_spec, <- app_assoc in H.
      + cbn [length]. replace (length els + 1)%nat with (S (length els)) by lia. unfold with_ends. rewrite R. exact H.
      + intros j J. rewrite smem_sget, sget_app. pose proof (fields_limit b0 j F0) as N. rewrite smem_sget in N. destruct (sget b0 (limit_key j)); [discriminate|].
        rewrite keyed_above by lia. reflexivity.
    - destruct ends as [|e|es]; [discriminate| |].
      + exists [], 0%nat. split; [reflexivity|]. split; [congruence|]. cbn [bind] in H. cbn [keyed length]. rewrite app_nil_r, Nat.add_0_r. unfold with_ends. rewrite R. exact H.
      + destruct (mapM (convert_report show) rs) as [rl|] eqn:M; [|discriminate]. cbn [bind] in H. cbn in EL. apply mapM_ok in EL. apply F2_length in EL.
        pose proof (proj1 (mapM_ok _ _ _) M) as M'. apply F2_length in M'.
        exists rl, (length es). split; [auto|]. split; [lia|]. rewrite put_limits_spec, <- app_assoc in H.
        * rewrite <- M'. unfold with_ends. rewrite R. exact H.
        * intros j J. rewrite smem_sget, sget_app. pose proof (fields_limit b0 j F0) as N. rewrite smem_sget in N. destruct (sget b0 (limit_key j)); [discriminate|].
          rewrite keyed_above by lia. reflexivity. }
  destruct X as (rls & start & RL & LS & E). injection E as E1 E2.
  assert (SM : smem b0 "m_uLimitNum" = true) by (apply smem_in; rewrite (proj1 F0); cbn; auto).
  exists b0, (put b0 "m_uLimitNum" (str_int (Z.of_nat (length els + length rls)))), ends, els, rls, start.
  split; [reflexivity|]. split; [exact LE|]. split; [symmetry; exact E2|]. split; [exact EL|]. split; [exact RL|]. split; [exact LS|].
  split; [rewrite <- E1; unfold put; apply sset_front; exact SM|]. split; [apply put_fields; [exact F0|reflexivity]|].
  split; [|split; [|split]].
  - intros f NE. rewrite put_get. destruct (String.eqb_spec f "m_uLimitNum"); [contradiction|reflexivity].
  - rewrite put_get. cbn [String.eqb Ascii.eqb Bool.eqb]. rewrite (G0 "m_szLabel"%string) by (cbn; auto). reflexivity.
  - rewrite put_get. cbn [String.eqb Ascii.eqb Bool.eqb]. rewrite (G0 "m_szCurrentRange"%string) by (cbn; auto). reflexivity.
  - rewrite put_get. reflexivity.
Qed.
