(** Model of beep/structure/diagnostic.py (DiagnosticConfig). *)
From Verif Require Import Py.

(** Python sets of integers are duplicate-free lists; iteration order is not
    observable through the API and is not modelled. (for [to_set], beep/structure/diagnostic.py:87-94) *)
Fixpoint mem_z (x : Z) (l : list Z) : bool :=
  match l with [] => false | y :: r => Z.eqb x y || mem_z x r end.
(** for [named_ix], beep/structure/diagnostic.py:87-94 *)
Fixpoint to_set (l : list Z) : list Z :=
  match l with [] => [] | x :: r => if mem_z x r then to_set r else x :: to_set r end.

(** Values a keyword argument can have (beep/structure/diagnostic.py:96-100). *)
Inductive kwvalue := KInt (z : Z) | KStr (s : string) | KFloat (x : num) | KBool (b : bool) | KOther.
(** for [make_config], beep/structure/diagnostic.py:59-106 *)
Definition kw_allowed (v : kwvalue) : bool :=
  match v with KOther => false | _ => true end.

(** The attributes set by the constructor (beep/structure/diagnostic.py:70-105). *)
Record config := {
  g_cycles : list (string * list Z);     (* cycle_type_to_cycle_ix / cycles *)
  g_by_ix : list (Z * string);           (* cycle_ix_to_cycle_type / type_by_ix *)
  g_hppc : list Z; g_rpt : list Z; g_reset : list Z;
  g_params : list (string * kwvalue);
  g_all_ix : list Z }.

(** beep/structure/diagnostic.py:87-94 *)
Definition named_ix (word : string) (cyc : list (string * list Z)) : list Z :=
  to_set (concat (map snd (filter (fun p => contains word (lower (fst p))) cyc))).

(** beep/structure/diagnostic.py:59-106 __init__ *)
Definition make_config (d : list (string * list Z)) (kw : list (string * kwvalue)) : result config :=
  match d with
  | [] => Err ValueError                                                  (* 64-68 *)
  | _ =>
    let cyc := map (fun p => (fst p, to_set (snd p))) d in                (* 70-71 *)
    let non_unique := map snd cyc in                                      (* 73 *)
    let unique := to_set (concat non_unique) in                           (* 74 *)
    if negb (Nat.eqb (list_sum (map (@length Z) non_unique)) (length unique))
    then Err ValueError                                                   (* 76-80 *)
    else
      let by_ix := fold_left (fun acc p =>
                     fold_left (fun acc ix => d_set Z.eqb acc ix (fst p)) (snd p) acc) cyc [] in (* 81-84 *)
      if forallb (fun p => kw_allowed (snd p)) kw then
        Ok {| g_cycles := cyc; g_by_ix := by_ix;
              g_hppc := named_ix "hppc" cyc; g_rpt := named_ix "rpt" cyc;
              g_reset := named_ix "reset" cyc;
              g_params := kw; g_all_ix := map fst by_ix |}
      else Err TypeError                                                  (* 96-100 *)
  end.

(** beep/structure/diagnostic.py:219-236 as_dict and 206-217 from_dict; the module and class
    tags are constants and omitted. *)
Definition as_dict (c : config) : list (string * list Z) * list (string * kwvalue) :=
  (g_cycles c, g_params c).
(** beep/structure/diagnostic.py:206-217 from_dict *)
Definition from_dict (d : list (string * list Z) * list (string * kwvalue)) : result config :=
  make_config (fst d) (snd d).

(** A raw row as far as from_step_numbers reads it. (for [add_cycle], beep/structure/diagnostic.py:189-202) *)
Record rawrow := { w_cycle : Z; w_step : Z }.
(** for [add_cycle], beep/structure/diagnostic.py:189-202 *)
Definition criteria := list (string * (string * list (list Z))).

(** [Series.unique()]: distinct values in order of first appearance. (for [uniq], beep/structure/diagnostic.py:189-202) *)
Fixpoint uniq_aux (seen : list Z) (l : list Z) : list Z :=
  match l with
  | [] => []
  | x :: r => if mem_z x seen then uniq_aux seen r else x :: uniq_aux (x :: seen) r
  end.
(** for [add_cycle], beep/structure/diagnostic.py:189-202 *)
Definition uniq (l : list Z) : list Z := uniq_aux [] l.

(** beep/structure/diagnostic.py:190-202: does one cycle match the patterns of one type?
    The loop breaks at the first match. *)
Fixpoint match_patterns (match_type : string) (unique : list Z) (pats : list (list Z)) : bool :=
  match pats with
  | [] => false
  | pat :: r =>
      let all_present := forallb (fun sn => mem_z sn unique) pat in
      if String.eqb match_type "contains" && all_present then true
      else if all_present && Nat.eqb (length unique) (length (to_set pat)) then true
      else match_patterns match_type unique r
  end.

(** beep/structure/diagnostic.py:189-202: the sets collected for one cycle index. *)
Definition add_cycle (rows : list rawrow) (crit : criteria) (acc : list (string * list Z)) (cix : Z)
  : list (string * list Z) :=
  let unique := uniq (map w_step (filter (fun w => Z.eqb (w_cycle w) cix) rows)) in
  map (fun e => match sget crit (fst e) with
                | Some (mt, pats) => if match_patterns mt unique pats then (fst e, snd e ++ [cix]) else e
                | None => e
                end) acc.

(** beep/structure/diagnostic.py:109-203 *)
Definition from_step_numbers (has_step_index : bool) (rows : list rawrow) (crit : criteria)
    (kw : list (string * kwvalue)) : result config :=
  if negb has_step_index then Err ValueError                               (* 172-176 *)
  else if negb (forallb (fun c => str_in (fst (snd c)) ["contains"; "exact"]%string) crit)
  then Err ValueError                                                      (* 178-182 *)
  else
    let init := map (fun c => (fst c, @nil Z)) crit in                     (* 184 *)
    let all_diag := fold_left (add_cycle rows crit) (uniq (map w_cycle rows)) init in (* 185-202 *)
    make_config all_diag kw.                                               (* 203 *)
