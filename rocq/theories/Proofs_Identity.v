(** Proofs for C141. *)
From Verif Require Import Py Model_Identity Spec_Identity Proofs_Strings.

Lemma structured_iff {Frame} (d : datapath Frame) : is_structured d = true <-> some_frame d.
Proof.
  unfold is_structured, some_frame. cbn [existsb]. destruct (d_summary d), (d_data d), (d_diag_summary d), (d_diag_data d); cbn; split; intros H; try reflexivity; try discriminate H; try (left; discriminate); try (right; left; discriminate); try (right; right; left; discriminate); try (right; right; right; discriminate).
  destruct H as [H|[H|[H|H]]]; elim H; reflexivity.
Qed.
Lemma cut a : forall b x y, dash_free a -> dash_free b -> (a ++ String "-" x = b ++ String "-" y)%string -> a = b /\ x = y.
Proof.
  unfold dash_free. induction a as [|c a IH]; intros [|e b] x y A B H; cbn [append list_ascii_of_string In] in *.
  - injection H as H. split; [reflexivity | exact H].
  - injection H as H _. elim B. left. symmetry. exact H.
  - injection H as H _. elim A. left. exact H.
  - injection H as -> H. destruct (IH b x y) as (-> & ->); [intros I; apply A; right; exact I | intros I; apply B; right; exact I | exact H | split; reflexivity].
Qed.
Lemma bool_free b : dash_free (shown_bool b).
Proof. destruct b; intros I; cbn in I; repeat (destruct I as [I|I]; [discriminate I|]); exact I. Qed.
Lemma shown_bool_inj a b : shown_bool a = shown_bool b -> a = b.
Proof. destruct a, b; intros H; try reflexivity; discriminate H. Qed.
Lemma alike_iff {Frame} (a b : datapath Frame) : plain a -> plain b -> (semiunique_id a = semiunique_id b <-> alike a b).
Proof.
  intros (A1 & A2 & A3 & A4 & A5) (B1 & B2 & B3 & B4 & B5). unfold semiunique_id, alike. split.
  - intros H. cbn [append] in H. repeat (injection H as H || idtac).
    repeat match type of H with String _ _ = String _ _ => injection H as H end. apply cut in H as (E1 & H); [|assumption..]. cbn [append] in H.
    repeat match type of H with String _ _ = String _ _ => injection H as H end. apply cut in H as (E2 & H); [|assumption..]. cbn [append] in H.
    repeat match type of H with String _ _ = String _ _ => injection H as H end. apply cut in H as (E3 & H); [|assumption..]. cbn [append] in H.
    repeat match type of H with String _ _ = String _ _ => injection H as H end. apply cut in H as (E4 & H); [|assumption..]. cbn [append] in H.
    repeat match type of H with String _ _ = String _ _ => injection H as H end. apply cut in H as (E5 & H); [|apply bool_free..]. cbn [append] in H.
    repeat match type of H with String _ _ = String _ _ => injection H as H end. apply cut in H as (E6 & H); [|apply bool_free..]. cbn [append] in H.
    repeat match type of H with String _ _ = String _ _ => injection H as H end. apply cut in H as (E7 & H); [|assumption..]. cbn [append] in H.
    repeat match type of H with String _ _ = String _ _ => injection H as H end. apply shown_bool_inj in E5, E6. repeat split; try assumption; rewrite <- !structured_iff; congruence.
  - intros (E1 & E2 & E3 & E4 & E5 & E6 & E7 & E8). rewrite E1, E2, E3, E4, E6, E7, E8. rewrite <- !structured_iff in E5. assert (E : is_structured a = is_structured b) by (destruct (is_structured a), (is_structured b); try reflexivity; [symmetry; apply E5; reflexivity | apply E5; reflexivity]). rewrite E. reflexivity.
Qed.
