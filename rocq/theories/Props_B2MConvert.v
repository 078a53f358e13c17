(** C146: converting a Biologic file: what is written, and what stays as it was. *)
From Verif Require Import Py Model_B2MConvert Spec_B2MConvert.

Lemma newlines_lf s : newlines lf s = s.
Proof. induction s as [|c s IH]; [reflexivity|]. cbn [newlines]. destruct (Ascii.eqb_spec c "010") as [->|D]; rewrite IH; reflexivity. Qed.
Lemma put_other fs out b : only_changed out fs (put fs out b).
Proof. intros f D. unfold put. destruct (String.eqb_spec f out); [contradiction|reflexivity]. Qed.
Lemma put_same fs out b : put fs out b out = Some b.
Proof. unfold put. rewrite String.eqb_refl. reflexivity. Qed.

Section Convert.
  Context (linesep : string) (decode encode to_xml : string -> result string) (writable : string -> bool).
  Notation convert := (convert linesep decode encode to_xml writable).
  (** A conversion that ends without error has written the converted text, and nothing else. *)
  Theorem C146_written fs mps out fs' : convert fs mps out = (Ok tt, fs') ->
    exists raw text xml bytes, fs mps = Some raw /\ decode raw = Ok text /\ to_xml text = Ok xml /\ encode (newlines linesep xml) = Ok bytes /\ (linesep = lf -> encode xml = Ok bytes) /\ fs' out = Some bytes /\ only_changed out fs fs'.
  Proof.
    unfold Model_B2MConvert.convert. destruct (fs mps) as [raw|] eqn:R; [|intro H; discriminate H]. destruct (decode raw) as [text|] eqn:D; cbn [bind]; [|intro H; discriminate H]. destruct (to_xml text) as [xml|] eqn:X; [|intro H; discriminate H].
    destruct (writable out); [|intro H; discriminate H]. destruct (encode (newlines linesep xml)) as [b|] eqn:E; intro H; [|discriminate H]. injection H as <-. exists raw, text, xml, b.
    split; [reflexivity|]. split; [exact D|]. split; [exact X|]. split; [exact E|]. split; [intros ->; rewrite newlines_lf in E; exact E|]. split; [apply put_same|apply put_other].
  Qed.
  (** It ends without error exactly if the file exists, its text can be decoded and converted, and the result can be written. *)
  Theorem C146_when fs mps out : fst (convert fs mps out) = Ok tt <->
    exists raw text xml bytes, fs mps = Some raw /\ decode raw = Ok text /\ to_xml text = Ok xml /\ writable out = true /\ encode (newlines linesep xml) = Ok bytes.
  Proof.
    unfold Model_B2MConvert.convert. split.
    - destruct (fs mps) as [raw|] eqn:R; [|intro H; discriminate H]. destruct (decode raw) as [text|] eqn:D; cbn [bind]; [|intro H; discriminate H]. destruct (to_xml text) as [xml|] eqn:X; [|intro H; discriminate H].
      destruct (writable out) eqn:W; [|intro H; discriminate H]. destruct (encode (newlines linesep xml)) as [b|] eqn:E; [|intro H; discriminate H]. intros _. exists raw, text, xml, b. auto.
    - intros (raw & text & xml & b & -> & D & X & W & E). rewrite D. cbn [bind]. rewrite X, W, E. reflexivity.
  Qed.
  (** After an error all files are as they were, unless the text could not be encoded. *)
  Theorem C146_failed fs mps out e fs' : convert fs mps out = (Err e, fs') ->
    only_changed out fs fs' /\ (unchanged fs fs' \/ (fs' out = Some EmptyString /\ exists xml, encode (newlines linesep xml) = Err e)) /\ ((forall s, exists b, encode s = Ok b) -> unchanged fs fs').
  Proof.
    unfold Model_B2MConvert.convert. assert (S : unchanged fs fs) by (intro f; reflexivity). assert (T : only_changed out fs fs) by (intros f _; reflexivity).
    destruct (fs mps) as [raw|]; [|intro H; injection H as <- <-; auto]. destruct (let! text := decode raw in to_xml text) as [xml|x]; [|intro H; injection H as <- <-; auto].
    destruct (writable out); [|intro H; injection H as <- <-; auto]. destruct (encode (newlines linesep xml)) as [b|x] eqn:E; intro H; [discriminate H|]. injection H as <- <-.
    split; [apply put_other|]. split; [right; split; [apply put_same|exists xml; exact E]|]. intro A. destruct (A (newlines linesep xml)) as (b & B). congruence.
  Qed.
  (** The error: a file that does not exist, then that of decoding, converting, opening or encoding. *)
  Theorem C146_errors fs mps out e : fst (convert fs mps out) = Err e <->
    (fs mps = None /\ e = OtherError "Exception") \/ exists raw, fs mps = Some raw /\ (decode raw = Err e \/ exists text, decode raw = Ok text /\ (to_xml text = Err e \/ exists xml, to_xml text = Ok xml /\
      ((writable out = false /\ e = FileNotFoundError) \/ (writable out = true /\ encode (newlines linesep xml) = Err e)))).
  Proof.
    unfold Model_B2MConvert.convert. destruct (fs mps) as [raw|].
    - transitivity (decode raw = Err e \/ exists text, decode raw = Ok text /\ (to_xml text = Err e \/ exists xml, to_xml text = Ok xml /\ ((writable out = false /\ e = FileNotFoundError) \/ (writable out = true /\ encode (newlines linesep xml) = Err e)))).
      2:{ split; [intro H; right; exists raw; auto|]. intros [[H _]|(r & H & G)]; [discriminate H|]. injection H as <-. exact G. }
      destruct (decode raw) as [text|x]; cbn [bind].
      + transitivity (to_xml text = Err e \/ exists xml, to_xml text = Ok xml /\ ((writable out = false /\ e = FileNotFoundError) \/ (writable out = true /\ encode (newlines linesep xml) = Err e))).
        2:{ split; [intro H; right; exists text; auto|]. intros [H|(t & H & G)]; [discriminate H|]. injection H as <-. exact G. }
        destruct (to_xml text) as [xml|x].
        * transitivity ((writable out = false /\ e = FileNotFoundError) \/ (writable out = true /\ encode (newlines linesep xml) = Err e)).
          2:{ split; [intro H; right; exists xml; auto|]. intros [H|(t & H & G)]; [discriminate H|]. injection H as <-. exact G. }
          destruct (writable out); [destruct (encode (newlines linesep xml)) as [b|y]|]; cbn [fst].
          -- split; [intro H; discriminate H|]. intros [[H _]|[_ H]]; discriminate H.
          -- split; [intro H; injection H as <-; right; split; reflexivity|]. intros [[H _]|[_ H]]; [discriminate H|]. injection H as <-. reflexivity.
          -- split; [intro H; injection H as <-; left; split; reflexivity|]. intros [[_ ->]|[H _]]; [reflexivity|discriminate H].
        * cbn [fst]. split; [intro H; injection H as <-; left; reflexivity|]. intros [H|(t & H & _)]; [injection H as <-; reflexivity|discriminate H].
      + cbn [fst]. split; [intro H; injection H as <-; left; reflexivity|]. intros [H|(t & H & _)]; [injection H as <-; reflexivity|discriminate H].
    - cbn [fst]. split; [intro H; injection H as <-; left; split; reflexivity|]. intros [[_ ->]|(r & H & _)]; [reflexivity|discriminate H].
  Qed.
End Convert.
(** A file that was there is lost when its new text cannot be encoded: it is emptied before. *)
Theorem C146_kept_refuted : ~ forall linesep decode encode to_xml writable fs mps out e fs', convert linesep decode encode to_xml writable fs mps out = (Err e, fs') -> unchanged fs fs'.
Proof.
  intro H. specialize (H lf Ok (fun _ => Err (OtherError "UnicodeEncodeError")) Ok (fun _ => true) (fun _ => Some "x"%string) "a.mps"%string "b.000"%string _ _ eq_refl "b.000"%string). discriminate H.
Qed.
(** Where lines end in carriage return and line feed, the line ends of the converted text get a second carriage return. *)
Theorem C146_line_ends_refuted : ~ forall linesep xml, linesep = lf \/ linesep = crlf -> newlines linesep xml = xml.
Proof. intro H. specialize (H crlf crlf (or_intror eq_refl)). discriminate H. Qed.

(** Non-vacuity. *)
Example convert_example : let r := convert lf Ok Ok (fun s => Ok (s ++ crlf)%string) (fun _ => true) (fun f => if String.eqb f "a.mps" then Some "x"%string else None) "a.mps" "b.000" in
  fst r = Ok tt /\ snd r "b.000"%string = Some ("x" ++ crlf)%string /\ snd r "a.mps"%string = Some "x"%string.
Proof. split; [|split]; reflexivity. Qed.
Example missing_file_example : fst (convert lf Ok Ok Ok (fun _ => true) (fun _ => None) "a.mps" "b.000") = Err (OtherError "Exception").
Proof. reflexivity. Qed.

Print Assumptions C146_written.
Print Assumptions C146_when.
Print Assumptions C146_failed.
Print Assumptions C146_errors.
Print Assumptions C146_kept_refuted.
Print Assumptions C146_line_ends_refuted.
