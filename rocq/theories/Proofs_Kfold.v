(** Folds of indices, samples and groups. *)
From Coq Require Import Permutation.
From Verif Require Import Py Num Model_Features Spec_Features Proofs_Diagnostic Proofs_Frames Model_Splitter.

Lemma nat_in_iff x l : nat_in x l = true <-> In x l.
Proof.
  unfold nat_in. rewrite existsb_exists. split; [intros (y & Y & E); apply Nat.eqb_eq in E; subst; exact Y|]. intro H. exists x. rewrite Nat.eqb_refl. auto.
Qed.
Definition total (l : list nat) : nat := fold_right plus 0%nat l.
Lemma cut_concat sizes : forall l, total sizes = length l -> concat (cut sizes l) = l.
Proof.
  induction sizes as [|s r IH]; intros l H; cbn in *; [destruct l; [reflexivity|discriminate]|]. rewrite IH.
  - apply firstn_skipn.
  - rewrite skipn_length. unfold total in H. cbn in H. unfold total. lia.
Qed.
Lemma cut_length sizes : forall l, length (cut sizes l) = length sizes.
Proof. induction sizes as [|s r IH]; intro l; cbn; [reflexivity|]. rewrite IH. reflexivity. Qed.
Lemma total_sizes n k j : (j <= k)%nat -> total (map (fold_size n k) (seq 0 j)) = (j * (n / k) + Nat.min j (n mod k))%nat.
Proof.
  induction j as [|j IH]; intro L; [reflexivity|]. rewrite seq_S, map_app. unfold total. rewrite fold_right_app. cbn [map fold_right plus].
  assert (F : forall l a, fold_right plus a l = (total l + a)%nat) by (clear; induction l as [|x l IH]; intro a; cbn; [reflexivity|]; rewrite IH; unfold total; lia).
  rewrite F, IH by lia. unfold fold_size. destruct (Nat.ltb_spec j (n mod k)); lia.
Qed.
Lemma sizes_sum n k : (0 < k)%nat -> total (map (fold_size n k) (seq 0 k)) = n.
Proof.
  intro K. rewrite total_sizes by lia. pose proof (Nat.div_mod n k ltac:(lia)) as D. pose proof (Nat.mod_upper_bound n k ltac:(lia)). rewrite Nat.min_r by lia. lia.
Qed.
Lemma filter_partition {A} (p q : A -> bool) l : (forall x, In x l -> q x = negb (p x)) -> Permutation (filter p l ++ filter q l) l.
Proof.
  induction l as [|x l IH]; intro H; cbn; [constructor|]. rewrite (H x) by (left; reflexivity). specialize (IH (fun y Y => H y (or_intror Y))).
  destruct (p x); cbn; [constructor; exact IH|]. etransitivity; [symmetry; apply Permutation_middle|]. constructor. exact IH.
Qed.
Lemma concat_disjoint {A} (ls : list (list A)) : NoDup (concat ls) -> Forall (@NoDup A) ls /\ ForallOrdPairs (fun a b => forall x, In x a -> ~ In x b) ls.
Proof.
  induction ls as [|l ls IH]; cbn; intro H; [split; constructor|]. apply NoDup_app_iff in H. destruct H as (N1 & N2 & D). destruct (IH N2) as [F P]. split; [constructor; assumption|].
  constructor; [|exact P]. apply Forall_forall. intros b B x X Y. apply (D x X). apply in_concat. exists b. auto.
Qed.

Section Kfold.
  Variable shuffle : nat -> list nat.
  Hypothesis SH : forall n, Permutation (shuffle n) (seq 0 n).
  Lemma kfold_spec k n fs : kfold shuffle k n = Ok fs ->
    length fs = k /\ (forall tr te, In (tr, te) fs -> Permutation (tr ++ te) (seq 0 n)) /\ Permutation (concat (map snd fs)) (seq 0 n).
  Proof.
    unfold kfold. destruct ((k <=? 1)%nat || (n <? k)%nat) eqn:E; [discriminate|]. apply orb_false_iff in E. destruct E as [K N]. apply Nat.leb_gt in K. apply Nat.ltb_ge in N.
    intros [= <-]. set (chunks := cut _ _). rewrite map_length. split; [unfold chunks; rewrite cut_length, map_length, seq_length; reflexivity|].
    assert (CC : concat chunks = shuffle n). { apply cut_concat. rewrite sizes_sum by lia. rewrite (Permutation_length (SH n)), seq_length. reflexivity. }
    split.
    - intros tr te I. apply in_map_iff in I. destruct I as (ch & [= <- <-] & _). etransitivity; [apply Permutation_app_comm|]. apply filter_partition. reflexivity.
    - rewrite map_map. cbn [snd].
      assert (ND : NoDup (concat chunks)) by (rewrite CC; apply (Permutation_NoDup (Permutation_sym (SH n)) (seq_NoDup n 0))).
      assert (IN : forall ch x, In ch chunks -> In x ch -> In x (seq 0 n)) by (intros ch x C X; apply (Permutation_in _ (SH n)); rewrite <- CC; apply in_concat; exists ch; auto).
      etransitivity; [|apply SH]. rewrite <- CC. destruct (concat_disjoint _ ND) as [F _]. clear - F IN. induction chunks as [|ch cs IH]; cbn; [constructor|].
      inversion F; subst. apply Permutation_app; [|apply IH; [intros; eapply IN; [right; eassumption|assumption]|assumption]].
      apply NoDup_Permutation; [apply nodup_filter, seq_NoDup|assumption|]. intro x. rewrite filter_In, nat_in_iff. split; [tauto|]. intro X. split; [|exact X]. eapply IN; [left; reflexivity|exact X].
  Qed.
  Lemma kfold_iff k n : (exists fs, kfold shuffle k n = Ok fs) <-> (2 <= k <= n)%nat.
  Proof.
    unfold kfold. split.
    - intros [fs H]. destruct ((k <=? 1)%nat || (n <? k)%nat) eqn:E; [discriminate|]. apply orb_false_iff in E. destruct E as [K N]. apply Nat.leb_gt in K. apply Nat.ltb_ge in N. lia.
    - intros [K N]. rewrite (proj2 (Nat.leb_gt k 1)), (proj2 (Nat.ltb_ge n k)) by lia. cbn. eauto.
  Qed.
End Kfold.

Lemma at_indices_all l : at_indices l (seq 0 (length l)) = l.
Proof.
  unfold at_indices. induction l as [|x l IH]; cbn; [reflexivity|]. f_equal. rewrite <- seq_shift, flat_map_concat_map, map_map, <- flat_map_concat_map. exact IH.
Qed.
Lemma at_indices_app l a b : at_indices l (a ++ b) = at_indices l a ++ at_indices l b.
Proof. apply flat_map_app. Qed.
Lemma at_indices_perm l a b : Permutation a b -> Permutation (at_indices l a) (at_indices l b).
Proof. apply Permutation_flat_map. Qed.
Lemma at_indices_concat l is : at_indices l (concat is) = concat (map (at_indices l) is).
Proof. induction is as [|i is IH]; [reflexivity|]. cbn [concat map]. rewrite at_indices_app, IH. reflexivity. Qed.

(** Groups distributed over folds distribute the samples. *)
Lemma group_folds (f : string -> string) L G Gs : NoDup L -> NoDup G -> (forall s, In s L -> In (f s) G) -> Permutation (concat Gs) G ->
  Permutation (concat (map (fun g => filter (fun s => str_in (f s) g) L) Gs)) L.
Proof.
  intros NL NG IN P. rewrite <- flat_map_concat_map. apply NoDup_Permutation; [|exact NL|].
  - apply nodup_flat_map; [intros; apply nodup_filter, NL|].
    destruct (concat_disjoint _ (Permutation_NoDup (Permutation_sym P) NG)) as [_ D]. revert D. apply fop_impl. intros a b _ _ H s S S'.
    apply filter_In in S. apply filter_In in S'. apply (H (f s)); apply str_in_iff; tauto.
  - intro s. rewrite in_flat_map. split; [intros (g & _ & S); apply filter_In in S; tauto|]. intro S.
    pose proof (Permutation_in _ (Permutation_sym P) (IN s S)) as I. apply in_concat in I. destruct I as (g & Gg & I). exists g. split; [exact Gg|]. apply filter_In. split; [exact S|]. apply str_in_iff, I.
Qed.
