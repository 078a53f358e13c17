(** Model of BEEPDatapath as a state machine
    (beep/structure/base.py:79-277, 296-461, 487-578, 1229-1234). *)
From Verif Require Import Py Num Model_Summary.

(** A frame: row labels and named columns. (for [to_dict], beep/structure/base.py:360-412) *)
Record frame := { f_index : list Z; f_cols : list (string * list num) }.
(** for [of_dict], beep/structure/base.py:415-461 *)
Definition range_index (n : nat) : list Z := map Z.of_nat (seq 0 n).
(** DataFrame.to_dict("list"): the labels are not written. (for [as_dict], beep/structure/base.py:360-412) *)
Definition to_dict (f : frame) : list (string * list num) := f_cols f.
(** pd.DataFrame(dict of lists); pd.DataFrame(None) is an empty frame. (for [of_dict], beep/structure/base.py:415-461) *)
Definition nrows (cols : list (string * list num)) : nat := match cols with [] => O | (_, c) :: _ => length c end.
(** for [of_opt_dict], beep/structure/base.py:415-461 *)
Definition of_dict (cols : list (string * list num)) : frame := {| f_index := range_index (nrows cols); f_cols := cols |}.
(** for [from_dict], beep/structure/base.py:415-461 *)
Definition of_opt_dict (o : option (list (string * list num))) : frame :=
  match o with Some c => of_dict c | None => {| f_index := []; f_cols := [] |} end.
(** raw_data[col] = values (for [impute1], beep/structure/base.py:191-196) *)
Definition set_col (f : frame) (name : string) (v : list num) : frame :=
  {| f_index := f_index f; f_cols := sset (f_cols f) name v |}.

(** for [datapath], beep/structure/base.py:166-277 *)
Definition meta := list (string * string).

(** How summarize_cycles ends: it writes the helper column
    "time_since_cycle_start" into raw_data on its way (beep/structure/base.py:845-854) and never
    removes it (866 drops it from a copy). *)
Inductive outcome := Done (f : frame) | FailedBefore (e : exn) | FailedAfter (e : exn).

Section Datapath.
  (** [D]: diagnostic configurations (their own round trip is C04);
      [B]: the arguments of structure() other than exclude_cycles. *)
  Context {D B : Type}.
  (** Arguments of structure(), beep/structure/base.py:503-511. *)
  Record P := { sp_base : B; sp_exclude : option (list Z) }.
  (** The four computations of structure() (each modelled elsewhere) and the
      values of the helper column. (for [structure], beep/structure/base.py:502-563) *)
  Variable sum_diag int_diag : frame -> D -> P -> result frame.
  (** beep/structure/base.py:502-563 structure *)
  Variable int_cycles : frame -> option D -> P -> result frame.
  (** beep/structure/base.py:502-563 structure *)
  Variable sum_cycles : frame -> option D -> P -> outcome.
  (** for [mark], beep/structure/base.py:502-563 *)
  Variable marks : frame -> list num.
  (** Where a schema file is found (beep/structure/base.py:200-217); [None]: FileNotFoundError. *)
  Variable find_schema : string -> option string.

  (** for [init], beep/structure/base.py:166-277 *)
  Record datapath := {
    dp_raw : option frame; dp_meta : meta; dp_paths : list (string * option string);
    dp_schema : option string; dp_legacy : bool;
    dp_sdata : option frame; dp_ssum : option frame; dp_ddata : option frame; dp_dsum : option frame;
    dp_diag : option D; dp_params : option B }.

  (** beep/structure/base.py:185-198: every given path must be absolute *)
  Definition path_ok (p : string * option string) : bool :=
    match snd p with Some s => (String.eqb s "" || prefix "/" s) | None => true end.
  (** beep/structure/base.py:191-196: missing temperature / internal_resistance become NaN columns *)
  Definition impute1 (f : frame) (col : string) : frame :=
    if smem (f_cols f) col then f else set_col f col (repeat None (length (f_index f))).
  (** beep/structure/base.py:166-277 __init__ *)
  Definition impute (f : frame) : frame := impute1 (impute1 f "temperature") "internal_resistance".

  (** beep/structure/base.py:166-277 __init__ *)
  Definition init (raw : option frame) (m : meta) (paths : list (string * option string))
      (schema : option string) : result datapath :=
    if negb (forallb path_ok paths) then Err ValueError
    else
      let! schema := match schema with
                     | None => Ok None
                     | Some s => if String.eqb s "" then Ok (Some s)
                                 else match find_schema s with
                                      | Some p => Ok (Some p)
                                      | None => Err FileNotFoundError
                                      end
                     end in
      Ok {| dp_raw := option_map impute raw; dp_meta := m;
            dp_paths := match paths with [] => [("raw"%string, None)] | _ => paths end;
            dp_schema := schema; dp_legacy := false;
            dp_sdata := None; dp_ssum := None; dp_ddata := None; dp_dsum := None;
            dp_diag := None; dp_params := None |}.

  (** beep/structure/base.py:1229-1234 *)
  Definition is_some {A} (o : option A) : bool := match o with Some _ => true | None => false end.
  (** beep/structure/base.py:1229-1234 is_structured *)
  Definition is_structured (d : datapath) : bool :=
    is_some (dp_ssum d) || is_some (dp_sdata d) || is_some (dp_dsum d) || is_some (dp_ddata d).

  (** What is written to json (as_dict, beep/structure/base.py:390-412). *)
  Record jdict := {
    j_raw : option (list (string * list num));      (* None: key popped by omit_raw *)
    j_meta : option meta;                           (* None: key absent (old files) *)
    j_paths : list (string * option string);
    j_barcode : option string; j_protocol : option string; j_channel : option string;
    j_summary : option (list (string * list num)); j_cycles : option (list (string * list num));
    j_dsum : option (list (string * list num)); j_ddata : option (list (string * list num));
    j_diag : option D; j_params : option B; j_schema : option string }.

  (** beep/structure/base.py:360-412 as_dict *)
  Definition as_dict (d : datapath) : result jdict :=
    if dp_legacy d then Err ValueError
    else
      match dp_raw d with
      | None => Err AttributeError
      | Some raw =>
          let mk s c ds dd :=
            {| j_raw := Some (to_dict raw); j_meta := Some (dp_meta d); j_paths := dp_paths d;
               j_barcode := sget (dp_meta d) "barcode"; j_protocol := sget (dp_meta d) "protocol";
               j_channel := sget (dp_meta d) "channel_id";
               j_summary := s; j_cycles := c; j_dsum := ds; j_ddata := dd;
               j_diag := dp_diag d; j_params := dp_params d; j_schema := dp_schema d |} in
          if is_structured d then
            match dp_ssum d, dp_sdata d with
            | Some s, Some c => Ok (mk (Some (to_dict s)) (Some (to_dict c))
                                       (option_map to_dict (dp_dsum d)) (option_map to_dict (dp_ddata d)))
            | _, _ => Err AttributeError             (* None.to_dict *)
            end
          else Ok (mk None None None None)
      end.

  (** beep/structure/base.py:338-357: the json value written by to_json_file *)
  Definition to_json (d : datapath) (omit_raw : bool) : result jdict :=
    let! j := as_dict d in
    Ok (if omit_raw
        then {| j_raw := None; j_meta := j_meta j; j_paths := j_paths j; j_barcode := j_barcode j;
                j_protocol := j_protocol j; j_channel := j_channel j; j_summary := j_summary j;
                j_cycles := j_cycles j; j_dsum := j_dsum j; j_ddata := j_ddata j; j_diag := j_diag j;
                j_params := j_params j; j_schema := j_schema j |}
        else j).

  (** beep/structure/base.py:433-436: {k: d.get(k) for k in ("barcode", "protocol", "channel_id")}
      (keys whose value is None are left out: .get answers the same). *)
  Definition legacy_meta (j : jdict) : meta :=
    let put k o := match o with Some v => [(k, v)] | None => [] end in
    put "barcode"%string (j_barcode j) ++ put "protocol"%string (j_protocol j) ++ put "channel_id"%string (j_channel j).

  (** beep/structure/base.py:415-461 from_dict *)
  Definition from_dict (j : jdict) : result datapath :=
    let '(raw, m, legacy) :=
      match j_raw j, j_meta j with
      | Some r, Some m => (Some (of_dict r), m, false)
      | _, _ => (None, legacy_meta j, true)
      end in
    let! d := init raw m (j_paths j) (j_schema j) in
    Ok {| dp_raw := dp_raw d; dp_meta := dp_meta d; dp_paths := dp_paths d; dp_schema := dp_schema d;
          dp_legacy := legacy;
          dp_sdata := Some (of_opt_dict (j_cycles j)); dp_ssum := Some (of_opt_dict (j_summary j));
          dp_ddata := option_map of_dict (j_ddata j); dp_dsum := option_map of_dict (j_dsum j);
          dp_diag := j_diag j; dp_params := j_params j |}.

  (** beep/structure/base.py:313-335 from_json_file: remembers the file it came from. *)
  Definition from_json (filename : string) (j : jdict) : result datapath :=
    from_dict {| j_raw := j_raw j; j_meta := j_meta j; j_paths := sset (j_paths j) "structured" (Some filename);
                 j_barcode := j_barcode j; j_protocol := j_protocol j; j_channel := j_channel j;
                 j_summary := j_summary j; j_cycles := j_cycles j; j_dsum := j_dsum j; j_ddata := j_ddata j;
                 j_diag := j_diag j; j_params := j_params j; j_schema := j_schema j |}.

  (** Field updates. (for [structure], beep/structure/base.py:502-563) *)
  Definition upd_frames (d : datapath) raw sdata ssum ddata dsum diag params : datapath :=
    {| dp_raw := raw; dp_meta := dp_meta d; dp_paths := dp_paths d; dp_schema := dp_schema d;
       dp_legacy := dp_legacy d; dp_sdata := sdata; dp_ssum := ssum; dp_ddata := ddata; dp_dsum := dsum;
       dp_diag := diag; dp_params := params |}.
  (** for [structure], beep/structure/base.py:502-563 *)
  Definition mark (raw : frame) : frame := set_col raw "time_since_cycle_start" (marks raw).

  (** beep/structure/base.py:502-563 structure; an exception leaves the assignments made so far.
      structuring_parameters (555-563) records every argument but exclude_cycles. *)
  Definition structure (d : datapath) (p : P) : datapath * result unit :=
    if dp_legacy d then (d, Err ValueError)
    else
      match dp_raw d with
      | None => (d, Err AttributeError)
      | Some raw =>
          let finish (d : datapath) : datapath * result unit :=
            match int_cycles raw (dp_diag d) p with
            | Err e => (d, Err e)
            | Ok sd =>
                let d1 := upd_frames d (Some raw) (Some sd) (dp_ssum d) (dp_ddata d) (dp_dsum d) (dp_diag d) (dp_params d) in
                match sum_cycles raw (dp_diag d) p with
                | FailedBefore e => (d1, Err e)
                | FailedAfter e =>
                    (upd_frames d1 (Some (mark raw)) (Some sd) (dp_ssum d1) (dp_ddata d1) (dp_dsum d1) (dp_diag d1) (dp_params d1), Err e)
                | Done ss =>
                    (upd_frames d1 (Some (mark raw)) (Some sd) (Some ss) (dp_ddata d1) (dp_dsum d1) (dp_diag d1) (Some (sp_base p)), Ok tt)
                end
            end in
          match dp_diag d with
          | None => finish d
          | Some dg =>
              match sum_diag raw dg p with
              | Err e => (d, Err e)
              | Ok ds =>
                  let d1 := upd_frames d (Some raw) (dp_sdata d) (dp_ssum d) (dp_ddata d) (Some ds) (dp_diag d) (dp_params d) in
                  match int_diag raw dg p with
                  | Err e => (d1, Err e)
                  | Ok dd =>
                      finish (upd_frames d1 (Some raw) (dp_sdata d1) (dp_ssum d1) (Some dd) (dp_dsum d1) (dp_diag d1) (dp_params d1))
                  end
              end
          end
      end.

  (** beep/structure/base.py:566-578 unstructure *)
  Definition unstructure (d : datapath) : datapath * result unit :=
    if dp_legacy d then (d, Err ValueError)
    else (upd_frames d (dp_raw d) None None None None None None, Ok tt).

  (** beep/structure/base.py:491-495 diagnostic setter with a value of an accepted type *)
  Definition set_diagnostic (d : datapath) (dg : option D) : datapath :=
    upd_frames d (dp_raw d) (dp_sdata d) (dp_ssum d) (dp_ddata d) (dp_dsum d) dg (dp_params d).

  (** beep/structure/base.py:101-106 must_be_structured *)
  Definition guarded {A} (d : datapath) (k : result A) : result A :=
    if is_structured d then k else Err RuntimeError.
  (** beep/structure/base.py:1129-1162 through the guard; labels are the frame's index. *)
  Definition summary_life (d : datapath) (threshold : Q) : result Z :=
    guarded d (match dp_ssum d with
               | None => Err TypeError                   (* len(None) *)
               | Some s => match sget (f_cols s) "discharge_capacity" with
                           | None => Err AttributeError
                           | Some caps => get_cycle_life (combine (f_index s) caps) 40 threshold
                           end
               end).

  (** Histories of calls on one object; [OReload] saves it and continues with
      the object loaded from that file. (for [step], beep/structure/base.py:1129-1162 get_cycle_life) *)
  Inductive op := OValidate | OStructure (p : P) | OUnstructure | OSetDiag (dg : option D) | OReload (omit_raw : bool) (filename : string).
  (** for [run], beep/structure/base.py:1129-1162 get_cycle_life *)
  Definition step (d : datapath) (o : op) : datapath * result unit :=
    match o with
    | OValidate => (d, if dp_legacy d then Err ValueError else Ok tt)   (* base.py:295-311; the verdict itself is C01 *)
    | OStructure p => structure d p
    | OUnstructure => unstructure d
    | OSetDiag dg => (set_diagnostic d dg, Ok tt)
    | OReload omit fn =>
        match to_json d omit with
        | Err e => (d, Err e)
        | Ok j => match from_json fn j with Ok d' => (d', Ok tt) | Err e => (d, Err e) end
        end
    end.
  (** beep/structure/base.py:1129-1162 get_cycle_life *)
  Fixpoint run (d : datapath) (ops : list op) : datapath * list (result unit) :=
    match ops with
    | [] => (d, [])
    | o :: r => let (d1, x) := step d o in let (d2, xs) := run d1 r in (d2, x :: xs)
    end.
End Datapath.
Arguments datapath : clear implicits.
Arguments jdict : clear implicits.
Arguments op : clear implicits.
Arguments P : clear implicits.
