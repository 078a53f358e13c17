(** C28: loader selection.  The vocabulary is in Spec_Load. *)
From Verif Require Import Py Model_Load Spec_Load Proofs_Load.

(** C28: the loader is the first one in the priority order that the name belongs
    to; ValueError exactly when it belongs to none. *)
Theorem C28_first_matching_loader :
  forall name,
  (forall l, auto_load name = Ok l <-> first_named l name) /\
  (forall e, auto_load name = Err e <-> e = ValueError /\ forall l, ~ names l name).
Proof. exact auto_load_spec. Qed.
(** C28: the matcher computes the usual meaning of the patterns. *)
Theorem C28_matcher_is_regular_expression_matching :
  forall s r, re_match r s = true <-> exists p t, s = (p ++ t)%string /\ matches r p.
Proof. exact re_match_iff. Qed.
(** C28: reloading a processed file keeps the stored class; anything that is
    neither a datapath nor a dictionary is rejected. *)
Theorem C28_processed_class_kept :
  forall o path, match auto_load_processed o path with
  | Ok (cls, p) => p = path /\ (o = LDatapath cls \/ (o = LDict /\ cls = "ArbinDatapath"%string))
  | Err e => e = TypeError /\ o = LOther
  end.
Proof. intros [cls| |] path; simpl; auto. Qed.

Example C28_runs : map auto_load ["2017-05-09_test-TC-contact_CH33.csv"; "PreDiag_000287_000128short.092"; "x.h5";
    "run_Ca1.txt"; "neware_1.csv"; "cell_timeseries.csv"; "notes.md"]%string
  = [Ok Arbin; Ok Maccor; Ok Indigo; Ok Biologic; Ok Neware; Ok BatteryArchive; Err ValueError].
Proof. vm_compute. reflexivity. Qed.
(** A Battery Archive name as published goes to the Maccor reader, because "18650"
    and "100" look like Maccor run numbers. *)
Example C28_archive_name_goes_to_maccor :
  let name := "SNL_18650_LFP_25C_0-100_0.5-1C_a_timeseries.csv"%string in
  auto_load name = Ok Maccor /\ names BatteryArchive name.
Proof.
  split; [vm_compute; reflexivity|]. apply test_iff. vm_compute. reflexivity.
Qed.

Print Assumptions C28_first_matching_loader.
Print Assumptions C28_matcher_is_regular_expression_matching.
Print Assumptions C28_processed_class_kept.
