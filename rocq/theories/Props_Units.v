(** C29, C30: values and times written for Biologic.  The vocabulary is in Spec_Units. *)
From Verif Require Import Py Model_Text Model_Units Spec_Units Proofs_Units Spec_Numeral Proofs_Numeral.

(** C29: texts denote the numbers they are numerals of (Spec_Numeral). *)
Theorem C29_numbers_read_as_written : forall s x, denotes s x <-> decimal s x.
Proof. exact decimal_iff. Qed.
Theorem C29_integers_read_as_written : forall s z, parse_int s = Some z <-> integer s z.
Proof. exact integer_iff. Qed.
(** C29: value times unit is the original value, to half a thousandth of the unit,
    and exactly for values down to a microvolt, femtoampere, nanowatt, nanoohm. *)
Theorem C29_volts : keeps_value volt_units 6 convert_volts.
Proof. exact volts_ok. Qed.
Theorem C29_amps : keeps_value amp_units 15 convert_amps.
Proof. exact amps_ok. Qed.
Theorem C29_watts : keeps_value watt_units 9 convert_watts.
Proof. exact watts_ok. Qed.
Theorem C29_ohms : keeps_value ohm_units 9 convert_ohms.
Proof. exact ohms_ok. Qed.
(** C29: what is not a number is rejected. *)
Theorem C29_rejects_other_text :
  forall s, (forall x, ~ denotes s x) ->
  convert_volts s = Err ValueError /\ convert_amps s = Err ValueError /\ convert_watts s = Err ValueError /\ convert_ohms s = Err ValueError.
Proof.
  intros s N. apply convert_bad_text. destruct (parse_lit s) as [l|] eqn:E; [|reflexivity].
  exfalso. apply (N (lit_value l)). exists l. split; [exact E|reflexivity].
Qed.
Example C29_runs : map convert_amps ["0.500"; "1.5"; "2.25e-7"; "1.0001"]%string
  = [Ok ("500.000", "mA"); Ok ("1.500", "A"); Ok ("225.000", "nA"); Ok ("1000.100", "mA")]%string.
Proof. vm_compute. reflexivity. Qed.
Example C29_ohms_runs : map convert_ohms ["0.05"; "1500"; "2e6"; "12.5"]%string
  = [Ok ("50.000", "mOhms"); Ok ("1.500", "kOhms"); Ok ("2.000", "MOhms"); Ok ("12.500", "Ohms")]%string.
Proof. vm_compute. reflexivity. Qed.

(** C30 for whole hours and minutes and seconds with at most three decimals. *)
Theorem C30_duration_kept_partial :
  forall text hs ms ss h m sec,
  str_split ":" text = [hs; ms; ss] -> field_is hs h -> field_is ms m -> field_is ss sec ->
  whole h -> whole m -> (exists z, sec * 1000 == inject_Z z) ->
  exists t u q k, convert_time text = Ok (t, u) /\ denotes t q /\ In (u, k) time_units /\ q * k == h * 3600 + m * 60 + sec.
Proof. exact time_exact. Qed.
(** C30 for all other times: never longer, and shorter by less than one unit. *)
Theorem C30_shorter_by_less_than_one_unit_partial :
  forall text hs ms ss h m sec,
  str_split ":" text = [hs; ms; ss] -> field_is hs h -> field_is ms m -> field_is ss sec ->
  0 <= h -> 0 <= m -> 0 <= sec ->
  exists t u q k, convert_time text = Ok (t, u) /\ denotes t q /\ In (u, k) time_units /\
    q * k <= h * 3600 + m * 60 + sec /\ h * 3600 + m * 60 + sec < q * k + k.
Proof. exact time_never_longer. Qed.
(** C30: an error exactly when the text has not three fields, each empty or a number. *)
Theorem C30_rejects_malformed :
  forall text, (exists e, convert_time text = Err e) <->
  ~ exists hs ms ss h m s, str_split ":" text = [hs; ms; ss] /\ field_is hs h /\ field_is ms m /\ field_is ss s.
Proof. exact time_rejects. Qed.
Example C30_runs : map convert_time ["00:32:50"; "::.5"; "3600::"; "1:30:0"; "3600:0:0.5"]%string
  = [Ok ("1970.000", "s"); Ok ("500.000", "ms"); Ok ("3600.000", "h"); Ok ("90.000", "mn"); Ok ("12960000.500", "s")]%string.
Proof. vm_compute. reflexivity. Qed.
(** Finding (C30): half an hour written as "0.5::" becomes zero hours. *)
Theorem C30_duration_kept_refuted :
  exists text t u, field_is "0.5" (1 # 2) /\ str_split ":" text = ["0.5"; ""; ""]%string /\
    convert_time text = Ok (t, u) /\ u = "h"%string /\ denotes t 0.
Proof.
  exists "0.5::"%string, "0.000"%string, "h"%string. split.
  - right. split; [discriminate|]. eexists. split; [vm_compute; reflexivity|]. vm_compute. reflexivity.
  - split; [vm_compute; reflexivity|]. split; [vm_compute; reflexivity|]. split; [reflexivity|].
    eexists. split; [vm_compute; reflexivity|]. vm_compute. reflexivity.
Qed.

Print Assumptions C29_numbers_read_as_written.
Print Assumptions C29_integers_read_as_written.
Print Assumptions C29_volts.
Print Assumptions C29_amps.
Print Assumptions C29_watts.
Print Assumptions C29_ohms.
Print Assumptions C29_rejects_other_text.
Print Assumptions C30_duration_kept_partial.
Print Assumptions C30_shorter_by_less_than_one_unit_partial.
Print Assumptions C30_rejects_malformed.
Print Assumptions C30_duration_kept_refuted.
