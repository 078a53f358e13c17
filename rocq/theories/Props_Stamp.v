(** C120, C121: the time stamps of raw files. *)
From Verif Require Import Py Num Model_Stamp Spec_Stamp Proofs_Stamp.

(** ** C120 *)
(** The time a Maccor cycler prints is converted to an instant of UTC at which the Pacific clock
    shows it, the first one when the clock shows it twice. *)
Theorem C120_pacific dst st u : proper st -> (yr st < 9999)%Z -> shown dst u = count st ->
  exists st', correct_timestamp dst (maccor_text st) = Ok (iso_text st') /\ proper st'
    /\ shown dst (count st') = count st /\ (count st' <= u)%Z.
Proof. exact (pacific dst st u). Qed.
(** Only one instant is denoted by a text. *)
Theorem C120_texts a b : proper a -> proper b -> (iso_text a = iso_text b <-> count a = count b).
Proof. intros A B. split; [intro E; rewrite (iso_inj a b A B E); reflexivity | intro E; rewrite (count_inj a b A B E); reflexivity]. Qed.
(** A record is given its own time wherever the clock was not set back. *)
Theorem C120_right_time dst st u : proper st -> (yr st < 9999)%Z -> shown dst u = count st ->
  (forall u', shown dst u' = count st -> u' = u) ->
  exists st', correct_timestamp dst (maccor_text st) = Ok (iso_text st') /\ proper st' /\ count st' = u.
Proof.
  intros P Y S U. destruct (pacific dst st u P Y S) as (st' & E & P' & S' & _). exists st'. split; [exact E|]. split; [exact P' | exact (U _ S')].
Qed.
(** A record on which the time of day is missing is one at midnight. *)
Theorem C120_date_only dst st : proper st ->
  correct_timestamp dst (maccor_date st) = correct_timestamp dst (maccor_text (at_hour (yr st) (mo st) (dy st) 0)).
Proof. exact (date_only dst st). Qed.
(** A time that the clock skips is read as one hour earlier. *)
Theorem C120_skipped dst st : proper st -> (yr st < 9999)%Z -> (forall u, shown dst u <> count st) ->
  exists st', correct_timestamp dst (maccor_text st) = Ok (iso_text st') /\ proper st' /\ shown dst (count st') = (count st - 3600)%Z.
Proof. exact (skipped dst st). Qed.
(** Figures that are no date and time, as the thirtieth of February or the hour 24, are refused. *)
Theorem C120_impossible dst st : figures st -> ~ proper st -> correct_timestamp dst (maccor_text st) = Err ValueError.
Proof. exact (impossible dst st). Qed.
Example C120_impossible_example : figures (at_hour 2019 2 29 0) /\ ~ proper (at_hour 2019 2 29 0) /\ proper (at_hour 2020 2 29 0).
Proof.
  split; [repeat split; vm_compute; congruence|]. split; [|repeat split; vm_compute; congruence].
  intros (_ & _ & (_ & D) & _). vm_compute in D. apply D. reflexivity.
Qed.
(** False: "the stamp of every record is the instant of the record".  At 9:30 UTC on 3 November 2019
    the clock shows 1:30 for the second time. *)
Definition half_past (st : stamp) : stamp := {| yr := yr st; mo := mo st; dy := dy st; hh := hh st; mi := 30; ss := 0 |}.
Theorem C120_right_time_refuted :
  exists st u, proper st /\ shown dst_2019 u = count st
    /\ exists st', correct_timestamp dst_2019 (maccor_text st) = Ok (iso_text st') /\ proper st' /\ count st' = (u - 3600)%Z.
Proof.
  exists (half_past (at_hour 2019 11 3 1)), (count (half_past (at_hour 2019 11 3 9))).
  split; [repeat split; vm_compute; discriminate|]. split; [vm_compute; reflexivity|].
  exists (half_past (at_hour 2019 11 3 8)). split; [vm_compute; reflexivity|]. split; [repeat split; vm_compute; discriminate | vm_compute; reflexivity].
Qed.
Print Assumptions C120_pacific.
Print Assumptions C120_texts.
Print Assumptions C120_right_time.
Print Assumptions C120_date_only.
Print Assumptions C120_skipped.
Print Assumptions C120_impossible.
Print Assumptions C120_right_time_refuted.

(** Stamps of PredictionDiagnostics_000151_test.052 and of the day after. *)
Example C120_example :
  correct_timestamp dst_2019 "10/21/2019 23:59:59" = Ok "2019-10-22T06:59:59+00:00"%string
  /\ correct_timestamp dst_2019 "10/22/2019" = Ok "2019-10-22T07:00:00+00:00"%string
  /\ correct_timestamp dst_2019 "12/31/2019 20:00:00" = Ok "2020-01-01T04:00:00+00:00"%string
  /\ correct_timestamp dst_2019 "10/22/2019 00:00" = Err ValueError.
Proof. vm_compute. auto. Qed.

(** ** C121 *)
(** The stamp of an Arbin record is at most 64 seconds from the time written in the file; it is
    always a multiple of 128 seconds. *)
Theorem C121_near ts : Forall recent ts -> exists is, arbin_instants (map Some ts) = Ok is
  /\ Forall2 (fun t i => Qabs (i - t) <= 64 /\ exists k, i == inject_Z (128 * k)) ts is.
Proof. exact (arbin_near ts). Qed.
(** Records are not reordered. *)
Theorem C121_order ts is : Forall recent ts -> arbin_instants (map Some ts) = Ok is ->
  forall j k t t' i i', nth_error ts j = Some t -> nth_error ts k = Some t' -> nth_error is j = Some i -> nth_error is k = Some i' ->
  t <= t' -> i <= i'.
Proof. exact (arbin_order ts is). Qed.
(** One record without a time, and the file is not read. *)
Theorem C121_missing col : In None col -> arbin_instants col = Err ValueError.
Proof. exact (arbin_missing col). Qed.
(** False: "the stamp is the time written in the file".  The first record of
    2017-05-09_test-TC-contact_CH33.csv is stamped 37 seconds too early, and two records up to two
    minutes apart have the same stamp. *)
Theorem C121_exact_refuted :
  (exists t i, recent t /\ arbin_instants [Some t] = Ok [i] /\ t - i == (3717 # 100))
  /\ (exists t t' i i', recent t /\ recent t' /\ arbin_instants [Some t; Some t'] = Ok [i; i'] /\ t' - t == 126 /\ i == i').
Proof.
  split.
  - exists (149437725317 # 100). eexists. split; [split; vm_compute; [discriminate | reflexivity]|]. split; [vm_compute; reflexivity | reflexivity].
  - exists (inject_Z 1494377153), (inject_Z 1494377279). eexists. eexists. split; [split; vm_compute; [discriminate | reflexivity]|].
    split; [split; vm_compute; [discriminate | reflexivity]|]. split; [vm_compute; reflexivity|]. split; vm_compute; reflexivity.
Qed.
Print Assumptions C121_near.
Print Assumptions C121_order.
Print Assumptions C121_missing.
Print Assumptions C121_exact_refuted.
Example C121_example : recent (inject_Z 1500000000) /\ recent (inject_Z 1700000000).
Proof. repeat split; vm_compute; (discriminate || reflexivity). Qed.
