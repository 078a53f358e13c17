(** C141: ids of datapaths. *)
From Verif Require Import Py Model_Identity Spec_Identity Proofs_Identity.

(** Two datapaths whose fields have no dashes have the same id exactly if all that the id shows is the same. *)
Theorem C141_same : forall (Frame : Type) (a b : datapath Frame), plain a -> plain b -> (semiunique_id a = semiunique_id b <-> alike a b).
Proof. intros Frame a b. apply alike_iff. Qed.
(** Structuring a datapath without frames changes the id, whatever else is changed, when fields have no dashes. *)
Theorem C141_structured : forall (Frame : Type) (a b : datapath Frame), plain a -> plain b -> ~ some_frame a -> some_frame b -> semiunique_id a <> semiunique_id b.
Proof. intros Frame a b A B N S H. apply alike_iff in H; [|assumption..]. destruct H as (_ & _ & _ & _ & H & _). apply N, H, S. Qed.

Definition sample (barcode channel : option string) (data : option nat) : datapath nat :=
  {| d_barcode := barcode; d_channel := channel; d_protocol := Some "p"%string; d_schema := None; d_summary := None; d_data := data; d_diag_summary := None; d_diag_data := None; d_legacy := false; d_paths := [("raw"%string, Some "r.csv"%string)] |}.
(** The content of frames is not part of the id: datapaths with different structured data share it. *)
Theorem C141_content_refuted : ~ (forall a b : datapath nat, semiunique_id a = semiunique_id b -> d_data a = d_data b).
Proof. intros H. specialize (H (sample None None (Some 1%nat)) (sample None None (Some 2%nat)) eq_refl). discriminate H. Qed.
(** With dashes, different barcodes and channels can share an id. *)
Theorem C141_dashes_refuted : ~ (forall a b : datapath nat, semiunique_id a = semiunique_id b -> d_barcode a = d_barcode b).
Proof. intros H. specialize (H (sample (Some "a") (Some "b-channel:c") None) (sample (Some "a-channel:b") (Some "c") None) eq_refl)%string. discriminate H. Qed.
(** No barcode and the barcode "None" share an id, also without dashes. *)
Theorem C141_none_refuted : ~ (forall a b : datapath nat, plain a -> plain b -> semiunique_id a = semiunique_id b -> d_barcode a = d_barcode b).
Proof.
  intros H. assert (P : forall o, o = None \/ o = Some "None"%string -> plain (sample o None None)).
  { intros o O. assert (E : shown o = "None"%string) by (destruct O as [-> | ->]; reflexivity). unfold plain. cbn [sample d_barcode]. rewrite E.
    repeat split; intros I; cbn in I; repeat (destruct I as [I|I]; [discriminate I|]); exact I. }
  specialize (H (sample None None None) (sample (Some "None"%string) None None) (P _ (or_introl eq_refl)) (P _ (or_intror eq_refl)) eq_refl). discriminate H.
Qed.
Example C141_example : semiunique_id (sample (Some "0001"%string) (Some "33"%string) (Some 1%nat)) = "barcode:0001-channel:33-protocol:p-schema:None-structured:True-legacy:False-raw_path:r.csv-structured_path:None"%string
  /\ plain (sample (Some "0001"%string) (Some "33"%string) (Some 1%nat)) /\ some_frame (sample None None (Some 1%nat)) /\ ~ some_frame (sample None None None).
Proof.
  split; [reflexivity|]. split; [|split].
  - repeat split; intros I; cbn in I; repeat (destruct I as [I|I]; [discriminate I|]); exact I.
  - right. left. discriminate.
  - intros [I|[I|[I|I]]]; apply I; reflexivity.
Qed.
Print Assumptions C141_same.
Print Assumptions C141_structured.
Print Assumptions C141_content_refuted.
Print Assumptions C141_dashes_refuted.
Print Assumptions C141_none_refuted.
Print Assumptions C141_example.
