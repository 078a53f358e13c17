(** C140: splicing of Maccor files. *)
From Verif Require Import Py Num Model_Arbin Model_Readers Model_RawFile Model_SpliceFile Spec_SpliceFile Proofs_SpliceFile.
From Coq Require Import Lqa.

(** C140: a file is its first line and the table of its other lines; the line ends that are doubled on the way and blank lines make no difference. *)
Theorem C140_read : forall value meta ls ls', line meta -> Forall line ls -> Forall line ls' -> filter (fun l => negb (only_blanks l)) ls = filter (fun l => negb (only_blanks l)) ls' ->
  read_maccor_file value (content (meta :: ls)) = read_maccor_file value (content (meta :: ls')) /\
  forall m d, read_maccor_file value (content (meta :: ls)) = Ok (m, d) -> m = (meta ++ String (ascii_of_nat 10) "")%string.
Proof.
  intros value meta ls ls' M F F' E. rewrite !read_file by assumption. rewrite E. split; [reflexivity|]. intros m d. destruct (filter _ ls'); [discriminate|]. destruct (mapM _ _); [|discriminate]. cbn [bind]. intros H. injection H as <- _. reflexivity.
Qed.
(** C140: what was written is read back. *)
Theorem C140_round_trip : forall value text meta d, line meta -> storable value text d ->
  read_maccor_file value (write_maccor_file text (meta ++ String (ascii_of_nat 10) "") d) = Ok ((meta ++ String (ascii_of_nat 10) "")%string, d).
Proof. intros value text meta d. apply round_trip. Qed.
(** C140: a written file has the first line given, then the labels, then one line per row. *)
Theorem C140_written : forall text meta d, write_maccor_file text (meta ++ String (ascii_of_nat 10) "") d =
  content (meta :: join (String (ascii_of_nat 9) "") (fst d) :: map (fun r => join (String (ascii_of_nat 9) "") (map text r)) (snd d)).
Proof. intros text meta d. apply write_lines. Qed.
(** C140: the spliced file has the first line of the first file, all its rows, and then the rows of the second file, in which the seven columns go on from the end of the first file. *)
Theorem C140_splice : forall value text c1 c2 meta m2 labels rows1 last1 first2 rest2 out, line meta -> storable value text (labels, rows1) -> last_error rows1 = Some last1 ->
  Forall (fun r => length r = length labels) (first2 :: rest2) ->
  read_maccor_file value c1 = Ok ((meta ++ String (ascii_of_nat 10) "")%string, (labels, rows1)) -> read_maccor_file value c2 = Ok (m2, (labels, first2 :: rest2)) ->
  run_splice value text c1 c2 = Ok out -> exists rows2, Forall2 (continued columns_to_update labels labels last1 first2) (first2 :: rest2) rows2 /\
    out = content (meta :: join (String (ascii_of_nat 9) "") labels :: map (fun r => join (String (ascii_of_nat 9) "") (map text r)) (rows1 ++ rows2)) /\
    (storable value text (labels, rows2) -> read_maccor_file value out = Ok ((meta ++ String (ascii_of_nat 10) "")%string, (labels, rows1 ++ rows2))).
Proof.
  intros value text c1 c2 meta m2 labels rows1 last1 first2 rest2 out M S L W R1 R2 H. unfold run_splice in H. rewrite R1, R2 in H. cbn [bind fst snd] in H. destruct (increments _ _ _) as [d|] eqn:I; [|discriminate H]. cbn [bind] in H.
  pose proof S as (_ & D & _ & RW). cbn [fst snd] in *. destruct (increments_spec labels labels (labels, rows1) last1 D D eq_refl L columns_to_update (labels, first2 :: rest2) first2 rest2 d) as (f' & r' & -> & F);
    [unfold columns_to_update; repeat (constructor; [cbn [In]; intros X; repeat (destruct X as [X|X]; [discriminate X|]); exact X|]); constructor | reflexivity | exact I|].
  exists (f' :: r'). split; [exact F|]. rewrite stack_same in H; [|exact D | eapply Forall_impl; [|exact RW]; intros r (X & _); exact X | eapply continued_lengths; [exact F | exact W]].
  assert (O : out = write_maccor_file text (meta ++ newline) (labels, rows1 ++ f' :: r')) by (injection H as <-; reflexivity). clear H. split; [rewrite O; apply write_lines|].
  intros S2. rewrite O. apply round_trip; [exact M|]. destruct S as (S1 & S3 & S4 & S5), S2 as (_ & _ & _ & S6). cbn [fst snd] in *. split; [exact S1|]. split; [exact S3|]. split; [exact S4|]. apply Forall_app. split; assumption.
Qed.
(** C140: files with different labels: all labels are written, those of the first file first, every value stays under its label, and what a file has no column for is missing. *)
Theorem C140_labels : forall value text c1 c2 meta m2 labels1 labels2 rows1 last1 first2 rest2 out, NoDup labels1 -> NoDup labels2 -> last_error rows1 = Some last1 ->
  Forall (fun r => length r = length labels1) rows1 -> Forall (fun r => length r = length labels2) (first2 :: rest2) ->
  read_maccor_file value c1 = Ok ((meta ++ String (ascii_of_nat 10) "")%string, (labels1, rows1)) -> read_maccor_file value c2 = Ok (m2, (labels2, first2 :: rest2)) ->
  run_splice value text c1 c2 = Ok out -> exists rows2 more new1 new2, Forall2 (continued columns_to_update labels1 labels2 last1 first2) (first2 :: rest2) rows2 /\
    NoDup (labels1 ++ more) /\ (forall c, In c more <-> In c labels2 /\ ~ In c labels1) /\ Forall2 (placed labels1 (labels1 ++ more)) rows1 new1 /\ Forall2 (placed labels2 (labels1 ++ more)) rows2 new2 /\
    out = content (meta :: join (String (ascii_of_nat 9) "") (labels1 ++ more) :: map (fun r => join (String (ascii_of_nat 9) "") (map text r)) (new1 ++ new2)).
Proof.
  intros value text c1 c2 meta m2 labels1 labels2 rows1 last1 first2 rest2 out D1 D2 L W1 W2 R1 R2 H. unfold run_splice in H. rewrite R1, R2 in H. cbn [bind fst snd] in H. destruct (increments _ _ _) as [d|] eqn:I; [|discriminate H]. cbn [bind] in H.
  destruct (increments_spec labels1 labels2 (labels1, rows1) last1 D1 D2 eq_refl L columns_to_update (labels2, first2 :: rest2) first2 rest2 d) as (f' & r' & -> & F);
    [unfold columns_to_update; repeat (constructor; [cbn [In]; intros X; repeat (destruct X as [X|X]; [discriminate X|]); exact X|]); constructor | reflexivity | exact I|].
  assert (DN : NoDup (labels1 ++ filter (fun c => negb (str_in c labels1)) labels2)) by (apply nodup_app; [exact D1 | apply NoDup_filter; exact D2 | intros c J K; apply new_label in K as (_ & K); contradiction]).
  exists (f' :: r'), (filter (fun c => negb (str_in c labels1)) labels2). eexists. eexists. split; [exact F|]. split; [exact DN|]. split; [intros c; apply new_label|].
  split; [apply placed_rows; assumption|]. split; [apply placed_rows; [assumption..|]; eapply continued_lengths; [exact F | exact W2]|].
  assert (O : out = write_maccor_file text (meta ++ newline) (stack (labels1, rows1) (labels2, f' :: r'))) by (injection H as <-; reflexivity). rewrite O. apply write_lines.
Qed.
(** C140: the first line of the second file does not matter. *)
Theorem C140_second_metadata : forall value text c1 m m' ls, line m -> line m' -> Forall line ls ->
  run_splice value text c1 (content (m :: ls)) = run_splice value text c1 (content (m' :: ls)).
Proof.
  intros value text c1 m m' ls M M' F. unfold run_splice. destruct (read_maccor_file value c1) as [f1|]; [|reflexivity]. cbn [bind]. rewrite !read_file by assumption. destruct (filter _ ls); [reflexivity|]. destruct (mapM _ _); reflexivity.
Qed.
(** C140: an empty file, and one of a single line, are refused. *)
Theorem C140_refused : forall value meta, line meta -> meta <> ""%string -> read_maccor_file value "" = Err IndexError /\ read_maccor_file value (content [meta]) = Err (OtherError "EmptyDataError") /\
  read_maccor_file value meta = Err (OtherError "EmptyDataError").
Proof.
  intros value meta M N. split; [reflexivity|]. split; [rewrite read_file by (try assumption; constructor); reflexivity|].
  assert (E : file_lines meta = [meta]).
  { clear value. induction meta as [|c s IH]; [elim N; reflexivity|]. cbn [file_lines]. destruct (Ascii.eqb_spec c nl) as [->|NE]; [elim M; left; reflexivity|]. destruct s as [|c' s]; [reflexivity|]. rewrite IH; [reflexivity | intros I; apply M; right; exact I | discriminate]. }
  unfold read_maccor_file. rewrite E. reflexivity.
Qed.

(** C140: without one of the seven columns in either file, nothing is written. *)
Theorem C140_missing_column : forall value text c1 c2 m1 m2 d1 d2 c out, read_maccor_file value c1 = Ok (m1, d1) -> read_maccor_file value c2 = Ok (m2, d2) -> In c columns_to_update -> ~ In c (fst d1) \/ ~ In c (fst d2) ->
  run_splice value text c1 c2 <> Ok out.
Proof.
  intros value text c1 c2 m1 m2 d1 d2 c out R1 R2 I N H. unfold run_splice in H. rewrite R1, R2 in H. cbn [bind fst snd] in H. destruct (increments d1 d2 columns_to_update) as [d|] eqn:E; [|discriminate H]. clear H R1 R2.
  assert (P : forall l, position c l <> None -> In c l) by (induction l as [|x l IH]; cbn [position]; [intros X; elim X; reflexivity|]; destruct (String.eqb_spec x c) as [->|]; [left; reflexivity|]; intros X; right; apply IH; destruct (position c l); [discriminate | elim X; reflexivity]).
  revert d2 N E. induction columns_to_update as [|x cs IH]; intros d2 N E; [destruct I|]. cbn [increments] in E. destruct (increment_one d1 d2 x) as [d'|] eqn:O; [|discriminate E]. cbn [bind] in E.
  unfold increment_one in O. destruct (position x (fst d2)) as [j|] eqn:P2; [|discriminate O]. destruct (position x (fst d1)) as [i|] eqn:P1; [|discriminate O].
  destruct I as [->|I]; [destruct N as [N|N]; apply N, P; congruence|].
  destruct (hd_error (snd d2)) as [r2|]; [|discriminate O]. destruct (last_error (snd d1)) as [r1|]; [|discriminate O]. destruct (nth_error r2 j) as [a|]; [|discriminate O]. destruct (nth_error r1 i) as [b|]; [|discriminate O]. destruct (to_add a b) as [o|]; [|discriminate O]. cbn [bind] in O. injection O as <-.
  apply (IH I _) in E; [exact E|]. destruct o; exact N.
Qed.

(** Non-vacuity: numbers of one digit. *)
Definition digit_cell (s : string) : cell :=
  match s with
  | EmptyString => Missing
  | String c EmptyString => if (48 <=? nat_of_ascii c)%nat && (nat_of_ascii c <=? 57)%nat then Number (inject_Z (Z.of_nat (nat_of_ascii c - 48))) else Word s
  | _ => Word s
  end.
Definition digit_text (v : cell) : string :=
  match v with Missing => ""%string | Word s => s | Number q => String (ascii_of_nat (48 + Z.to_nat (Qfloor q))) "" end.
Definition labels8 : list string := columns_to_update ++ ["State"%string].
Definition row8 (a b : Z) : list cell := Number (inject_Z a) :: Number (inject_Z b) :: repeat (Number (inject_Z 0)) 5 ++ [Word "R"].
Definition file8 (meta : string) (rows : list (list cell)) : string := write_maccor_file digit_text (meta ++ newline) (labels8, rows).
Example C140_example : storable digit_cell digit_text (labels8, [row8 1 1; row8 2 3]) /\
  exists out, run_splice digit_cell digit_text (file8 "one" [row8 1 1; row8 2 3]) (file8 "two" [row8 1 4; row8 2 5]) = Ok out /\
    read_maccor_file digit_cell out = Ok (("one" ++ newline)%string, (labels8, [row8 1 1; row8 2 3; row8 3 4; row8 4 5])).
Proof.
  split.
  - split; [cbn; lia|]. split; [unfold labels8, columns_to_update; cbn [app fst]; repeat (constructor; [cbn [In]; intros X; repeat (destruct X as [X|X]; [discriminate X|]); exact X|]); constructor|].
    cbn [fst snd]. split.
    + unfold labels8, columns_to_update. cbn [app]. repeat (constructor; [split; intros X; cbn in X; repeat (destruct X as [X|X]; [discriminate X|]); exact X|]). constructor.
    + repeat (constructor; [split; [reflexivity|]; repeat (constructor; [split; [split; intros X; cbn in X; repeat (destruct X as [X|X]; [discriminate X|]); exact X | reflexivity]|]); constructor|]). constructor.
  - eexists. split; [vm_compute; reflexivity|]. vm_compute. reflexivity.
Qed.

(** Non-vacuity of different labels and missing values: the second file has voltages instead of states and starts without a cycle number. *)
Definition labels8v : list string := columns_to_update ++ ["Volts"%string].
Definition row8v (a : Z) (b : cell) : list cell := Number (inject_Z a) :: b :: repeat (Number (inject_Z 0)) 5 ++ [Number (inject_Z 3)].
Example C140_labels_example :
  exists out, run_splice digit_cell digit_text (file8 "one" [row8 1 1; row8 2 3]) (write_maccor_file digit_text ("two" ++ newline) (labels8v, [row8v 1 Missing; row8v 2 (Number (inject_Z 1))])) = Ok out /\
    read_maccor_file digit_cell out = Ok (("one" ++ newline)%string, (labels8 ++ ["Volts"%string],
      [row8 1 1 ++ [Missing]; row8 2 3 ++ [Missing]; Number (inject_Z 3) :: Missing :: repeat (Number (inject_Z 0)) 5 ++ [Missing; Number (inject_Z 3)];
       Number (inject_Z 4) :: Number (inject_Z 1) :: repeat (Number (inject_Z 0)) 5 ++ [Missing; Number (inject_Z 3)]])).
Proof. eexists. split; [vm_compute; reflexivity|]. vm_compute. reflexivity. Qed.

Print Assumptions C140_read.
Print Assumptions C140_round_trip.
Print Assumptions C140_written.
Print Assumptions C140_splice.
Print Assumptions C140_labels.
Print Assumptions C140_second_metadata.
Print Assumptions C140_refused.
Print Assumptions C140_missing_column.
Print Assumptions C140_example.
Print Assumptions C140_labels_example.
