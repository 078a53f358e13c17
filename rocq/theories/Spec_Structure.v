(** Vocabulary of the structuring properties: which cycles are regular, which
    axis and range a step is interpolated on, and the rows of the result that
    belong to one step. *)
From Verif Require Import Py Num Model_Raw Model_Diagnostic Model_Structure.

(** A cycle is regular when no diagnostic configuration lists it. *)
Definition regular (diag : option (list Z)) (c : Z) : Prop :=
  match diag with Some ix => ~ In c ix | None => True end.
Definition reg_rows (raw : list row) (diag : option (list Z)) : list row :=
  match diag with
  | Some ix => filter (fun r => negb (mem_z (cycle_index r) ix)) raw
  | None => raw
  end.

(** The axis a direction is interpolated on: test time as soon as some regular
    step of that direction is a waveform, the requested axis otherwise. *)
Definition axis_used (raw : list row) (has_wf : bool) (diag : option (list Z)) (charge_axis discharge_axis : axis) (chg : bool) : axis :=
  if any_waveform has_wf (reg_rows raw diag) chg then AxTime
  else if chg then charge_axis else discharge_axis.
(** The voltage range: as requested, else 2.8 V to 3.5 V. *)
Definition range_given (v : option (Q * Q)) := match v with Some v => v | None => (28 # 10, 35 # 10) end.

(** Selects the rows of the result for one cycle, step and direction. *)
Definition is_key3 (c s : Z) (chg : bool) (r : irow) : bool :=
  Z.eqb (i_cycle r) c && Z.eqb (i_step r) s && Bool.eqb (i_chg r) chg.
