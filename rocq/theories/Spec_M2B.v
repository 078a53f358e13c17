(** What a converted Biologic protocol must say, in terms of the Maccor steps. *)
From Verif Require Import Py Model_Text Spec_Units Model_M2B.

(** ** How many sequences a step becomes, and where they are *)
Definition bookkeeping (st : step) : Prop := In (st_type st) ["Do 1"; "Do 2"; "AdvCycle"]%string.
Definition opens_loop (st : step) : Prop := In (st_type st) ["Do 1"; "Do 2"]%string.
Definition closes_loop (st : step) : Prop := In (st_type st) ["Loop 1"; "Loop 2"]%string.
Definition physical (st : step) : Prop := ~ bookkeeping st /\ ~ closes_loop st.
(** none for Do and AdvCycle, two for a step with a limit, else one *)
Definition n_seqs (st : step) : nat :=
  if existsb (String.eqb (st_type st)) ["Do 1"; "Do 2"; "AdvCycle"]%string then 0
  else if existsb (String.eqb (st_type st)) ["Loop 1"; "Loop 2"]%string then 1
  else match st_limits st with None => 1 | Some _ => 2 end.
Definition n_all (steps : list step) : nat := list_sum (map n_seqs steps).
(** the number of the first sequence of step [k] (counted from 0), which is that of
    the next step that has one when step [k] has none *)
Definition first_seq (steps : list step) (k : nat) : nat := n_all (firstn k steps).

(** ** Contents of a sequence *)
Definition txt (d : seq_dict) (k s : string) : Prop := sget d k = Some (FStr s).
Definition int (d : seq_dict) (k : string) (z : Z) : Prop := sget d k = Some (FInt z).
Definition same_amount (units : list (string * Q)) (text v u : string) : Prop :=
  exists x q k, denotes text x /\ denotes v q /\ In (u, k) units /\ Qabs (q * k - x) <= k / 2000.
(** A duration is kept up to less than one unit (see C30). *)
Definition same_duration (text v u : string) : Prop :=
  exists hs ms ss h m s,
    str_split ":" text = [hs; ms; ss] /\ field_is hs h /\ field_is ms m /\ field_is ss s /\
    (0 <= h -> 0 <= m -> 0 <= s ->
     exists q k, denotes v q /\ In (u, k) time_units /\ q * k <= h * 3600 + m * 60 + s /\ h * 3600 + m * 60 + s < q * k + k).
(** what is applied to the cell *)
Definition control_kept (ty mode value : string) (d : seq_dict) : Prop :=
  (ty = "Rest"%string /\ txt d "ctrl_type" "Rest") \/
  ((ty = "Charge"%string /\ txt d "charge/discharge" "Charge" \/ ty = "Dischrge"%string /\ txt d "charge/discharge" "Discharge") /\
   exists v u, txt d "ctrl1_val" v /\ txt d "ctrl1_val_unit" u /\
     (mode = "Current"%string /\ txt d "ctrl_type" "CC" /\ same_amount amp_units value v u \/
      mode = "Voltage"%string /\ txt d "ctrl_type" "CV" /\ same_amount volt_units value v u)).
Definition comparison (oper comp : string) : Prop :=
  oper = ">="%string /\ comp = ">"%string \/ oper = "<="%string /\ comp = "<"%string.
Definition lim_key (j : nat) (f : string) : string := ("lim" ++ nth j ["1"; "2"; "3"] "" ++ "_" ++ f)%string.
Definition rec_key (j : nat) (f : string) : string := ("rec" ++ nth j ["1"; "2"; "3"] "" ++ "_" ++ f)%string.
(** end condition [e] is limit number [j] (from 0) *)
Definition limit_kept (e : end_entry) (j : nat) (d : seq_dict) : Prop :=
  exists ty c v u, txt d (lim_key j "type") ty /\ txt d (lim_key j "comp") c /\
    txt d (lim_key j "value") v /\ txt d (lim_key j "value_unit") u /\
    (e_type e = "StepTime"%string /\ ty = "Time"%string /\ c = ">"%string /\ same_duration (e_value e) v u \/
     e_type e = "Voltage"%string /\ ty = "Ecell"%string /\ comparison (e_oper e) c /\ same_amount volt_units (e_value e) v u \/
     e_type e = "Current"%string /\ ty = "|I|"%string /\ comparison (e_oper e) c /\ same_amount amp_units (e_value e) v u).
Definition report_kept (r : report) (j : nat) (d : seq_dict) : Prop :=
  exists ty v u, txt d (rec_key j "type") ty /\ txt d (rec_key j "value") v /\ txt d (rec_key j "value_unit") u /\
    (r_type r = "StepTime"%string /\ ty = "Time"%string /\ same_duration (r_value r) v u \/
     r_type r = "Voltage"%string /\ ty = "Ecell"%string /\ same_amount volt_units (r_value r) v u \/
     r_type r = "Current"%string /\ ty = "I"%string /\ same_amount amp_units (r_value r) v u).
Definition limits_kept (ends : list end_entry) (d : seq_dict) : Prop :=
  (length ends <= 3)%nat /\ int d "lim_nb" (Z.of_nat (length ends)) /\
  forall j e, nth_error ends j = Some e -> limit_kept e j d.
Definition reports_kept (reports : list report) (d : seq_dict) : Prop :=
  (length reports <= 3)%nat /\ int d "rec_nb" (Z.of_nat (length reports)) /\
  forall j r, nth_error reports j = Some r -> report_kept r j d.
Definition the_ends (st : step) : list end_entry :=
  match st_ends st with NoneOf => [] | One e => [e] | Many l => l end.
Definition the_reports (st : step) : list report :=
  match st_reports st with NoneOf => [] | One e => [e] | Many l => l end.

(** the quantity that limits a step controlled in [mode] *)
Definition opposite (mode opp : string) : Prop :=
  mode = "Current"%string /\ opp = "Voltage"%string \/ mode = "Voltage"%string /\ opp = "Current"%string.

(** ** Gotos *)
(** In a technique made of [steps], step [k] having number [offset + 1 + k]: the
    sequence addressed by a goto to step number [g] from step [k]. *)
Definition goto_target (steps : list step) (offset end_step : Z) (k : nat) (g s : Z) : Prop :=
  (g = offset + 1 + Z.of_nat k + 1 /\ s = Z.of_nat (first_seq steps (S k)))%Z \/
  (g <> offset + 1 + Z.of_nat k + 1 /\ g = end_step /\ s = 9999)%Z \/
  (g <> offset + 1 + Z.of_nat k + 1 /\ g <> end_step /\
   exists m, (m < length steps)%nat /\ g = offset + 1 + Z.of_nat m /\ s = Z.of_nat (first_seq steps m))%Z.

(** ** Techniques *)
(** [seg] is the part of the procedure that technique [tp] stands for. *)
Definition stands_for (seg : list step) (tp : partition) : Prop :=
  if tp_loops tp then
    exists o c, seg = o :: tp_steps tp ++ [c] /\ st_type o = "Do 1"%string /\ st_type c = "Loop 1"%string /\
                exists e, st_ends c = One e /\ parse_int (e_value e) = Some (tp_count tp)
  else seg = tp_steps tp.
(** a looping technique takes two technique numbers *)
Definition tech_width (tp : partition) : Z := if tp_loops tp then 2%Z else 1%Z.
(** consecutive technique numbers and step offsets *)
Fixpoint laid_out (num offset : Z) (segs : list (list step)) (tps : list partition) : Prop :=
  match segs, tps with
  | [], [] => True
  | seg :: segs, tp :: tps =>
      tp_num tp = num /\ tp_offset tp = (offset + (if tp_loops tp then 1 else 0))%Z /\ seg <> [] /\ stands_for seg tp /\
      laid_out (num + tech_width tp) (offset + Z.of_nat (length seg)) segs tps
  | _, _ => False
  end.
(** a run of steps without nested loops *)
Definition plain (st : step) : Prop := ~ In (st_type st) ["Do 1"; "Do 2"; "Loop 1"]%string.
Inductive unnested : list step -> Prop :=
| un_nil : unnested []
| un_plain st r : plain st -> unnested r -> unnested (st :: r)
| un_loop o body c r : st_type o = "Do 1"%string -> Forall plain body -> st_type c = "Loop 1"%string ->
    unnested r -> unnested (o :: body ++ c :: r).
(** a loop that contains a loop: opening step, body, closing step *)
Record nested := { ne_open : step; ne_body : list step; ne_close : step; ne_count : Z }.
Definition is_nested (n : nested) : Prop :=
  st_type (ne_open n) = "Do 1"%string /\ st_type (ne_close n) = "Loop 1"%string /\
  Forall (fun st => ~ In (st_type st) ["Do 1"; "Loop 1"]%string) (ne_body n) /\
  Exists (fun st => st_type st = "Do 2"%string) (ne_body n) /\
  exists e, st_ends (ne_close n) = One e /\ parse_int (e_value e) = Some (ne_count n).
Definition nested_steps (n : nested) : list step := ne_open n :: ne_body n ++ [ne_close n].
(** a procedure: runs without nesting alternating with nested loops *)
Definition procedure := list (list step * nested).
Fixpoint procedure_steps (p : procedure) (tail : list step) : list step :=
  match p with [] => tail | (run, n) :: r => run ++ nested_steps n ++ procedure_steps r tail end.
Definition run_technique (num offset : Z) (run : list step) : list partition :=
  match run with
  | [] => []
  | _ => [{| tp_num := num; tp_steps := run; tp_offset := offset; tp_loops := false; tp_count := 0 |}]
  end.
Fixpoint techniques (num offset : Z) (p : procedure) (tail : list step) : list partition :=
  match p with
  | [] => run_technique num offset tail
  | (run, n) :: r =>
      let num' := (num + Z.of_nat (length (run_technique num offset run)))%Z in
      let offset' := (offset + Z.of_nat (length run))%Z in
      run_technique num offset run
      ++ {| tp_num := num'; tp_steps := ne_body n; tp_offset := offset' + 1; tp_loops := true; tp_count := ne_count n |}
      :: techniques (num' + 2) (offset' + Z.of_nat (length (nested_steps n))) r tail
  end.

(** ** Filters *)
(** an end condition beyond the configured range *)
Definition beyond (c : config) (e : end_entry) : Prop :=
  exists v, denotes (e_value e) v /\
   ((e_type e = "Voltage"%string /\ e_oper e = ">="%string /\ exists m, max_v c = Some m /\ m <= v) \/
    (e_type e = "Voltage"%string /\ e_oper e = "<="%string /\ exists m, min_v c = Some m /\ v <= m) \/
    (e_type e = "Current"%string /\ e_oper e = ">="%string /\ exists m, max_i c = Some m /\ m < v) \/
    (e_type e = "Current"%string /\ e_oper e = "<="%string /\ exists m, min_i c = Some m /\ v < m)).
(** [l'] is [l] without the elements satisfying [P] *)
Inductive without {A} (P : A -> Prop) : list A -> list A -> Prop :=
| wo_nil : without P [] []
| wo_drop x l l' : P x -> without P l l' -> without P (x :: l) l'
| wo_keep x l l' : ~ P x -> without P l l' -> without P (x :: l) (x :: l').

(** the numbers that have to be read can be read *)
Definition readable (st : step) : Prop :=
  forall e, In e (the_ends st) -> In (e_type e) ["Voltage"; "Current"]%string -> exists v, denotes (e_value e) v.
(** [st'] is [st] with other end conditions *)
Definition same_but_ends (st st' : step) : Prop :=
  st_type st' = st_type st /\ st_mode st' = st_mode st /\ st_value st' = st_value st /\
  st_limits st' = st_limits st /\ st_reports st' = st_reports st.
(** the configured end conditions are gone, everything else is there *)
Definition filtered (c : config) (st st' : step) : Prop :=
  same_but_ends st st' /\ without (beyond c) (the_ends st) (the_ends st').
(** step number [n + k] is what the user's mappings, one after the other, make of step [k] *)
Fixpoint mapped_by (fs : list (step -> Z -> result step)) (n : Z) (st st' : step) : Prop :=
  match fs with
  | [] => st' = st
  | f :: r => exists m, f st n = Ok m /\ mapped_by r n m st'
  end.

(** ** The exported table *)
(** a cell of width [w] *)
Definition padded (w : nat) (s cell : string) : Prop :=
  String.length cell = w /\ exists p, cell = (s ++ p)%string /\ forall a, In a (list_ascii_of_string p) -> a = " "%char.
Fixpoint cat (l : list string) : string := match l with [] => ""%string | s :: r => (s ++ cat r)%string end.
Definition shown (v : fval) (s : string) : Prop := match v with FStr t => s = t | FInt z => s = str_int z end.
(** a row: the name of the field, then its value in each sequence *)
Definition row (w : nat) (k : string) (seqs : list seq_dict) (line : string) : Prop :=
  exists name cells, line = (name ++ cat cells ++ crlf)%string /\ padded w k name /\
    Forall2 (fun d cell => exists v s, sget d k = Some v /\ shown v s /\ padded w s cell) seqs cells.
Definition table (w : nat) (keys : list string) (seqs : list seq_dict) (text : string) : Prop :=
  exists lines, text = cat lines /\ Forall2 (fun k line => row w k seqs line) keys lines.
Definition fits (w : nat) (keys : list string) (seqs : list seq_dict) : Prop :=
  forall k, In k keys -> (String.length k <= w)%nat /\
    forall d, In d seqs -> exists v s, sget d k = Some v /\ shown v s /\ (String.length s <= w)%nat.
(** number of technique blocks of the file *)
Definition blocks (techs : list (partition * list seq_dict)) : Z :=
  fold_right (fun t n => (tech_width (fst t) + n)%Z) 0%Z techs.

(** The technique blocks of a file: numbered from 1, each repeated technique followed
    by a loop block that goes back to it and says how often. *)
Definition entry_line (name value line : string) : Prop :=
  exists p q : string, line = (name ++ p ++ value ++ q ++ crlf)%string /\ (String.length p > 0)%nat /\ forall a, In a (list_ascii_of_string p) \/ In a (list_ascii_of_string q) -> a = " "%char.
Definition technique_block (n : Z) (kind body : string) : string :=
  (crlf ++ "Technique : " ++ str_int n ++ crlf ++ kind ++ crlf ++ body)%string.
Inductive technique_blocks (keys : list string) : Z -> list (partition * list seq_dict) -> string -> Prop :=
| no_block n : technique_blocks keys n [] ""
| one_block n tp seqs body rest more : tp_loops tp = false -> table 20 keys seqs body -> technique_blocks keys (n + 1) rest more ->
    technique_blocks keys n ((tp, seqs) :: rest) (technique_block n "Modulo Bat" body ++ more)
| loop_block n tp seqs body goto times rest more : tp_loops tp = true -> table 20 keys seqs body ->
    entry_line "goto Ne" (str_int n) goto -> entry_line "nt times" (str_int (tp_count tp)) times -> technique_blocks keys (n + 2) rest more ->
    technique_blocks keys n ((tp, seqs) :: rest) (technique_block n "Modulo Bat" body ++ technique_block (n + 1) "Loop" (goto ++ times) ++ more).

(** ** Procedures that can be converted *)
Definition is_number (s : string) : Prop := exists v, denotes s v.
Definition is_duration (s : string) : Prop :=
  exists hs ms ss h m x, str_split ":" s = [hs; ms; ss] /\ field_is hs h /\ field_is ms m /\ field_is ss x.
Definition end_ok (e : end_entry) : Prop :=
  e_type e = "StepTime"%string /\ e_oper e = "="%string /\ is_duration (e_value e) \/
  (e_type e = "Voltage"%string \/ e_type e = "Current"%string) /\ (e_oper e = ">="%string \/ e_oper e = "<="%string) /\ is_number (e_value e).
Definition report_ok (r : report) : Prop :=
  r_type r = "StepTime"%string /\ is_duration (r_value r) \/
  (r_type r = "Voltage"%string \/ r_type r = "Current"%string) /\ is_number (r_value r).
Definition control_ok (st : step) : Prop :=
  st_type st = "Rest"%string /\ st_limits st = None \/
  (st_type st = "Charge"%string \/ st_type st = "Dischrge"%string) /\
  exists opp, opposite (st_mode st) opp /\ is_number (st_value st) /\
    forall ls, st_limits st = Some ls -> exists lim, sget ls opp = Some lim /\ is_number lim.
(** no loop is opened or closed by the steps from [a] to before [b] *)
Definition no_loop_between (steps : list step) (a b : nat) : Prop :=
  forall j st, (a <= j < b)%nat -> nth_error steps j = Some st -> ~ opens_loop st /\ ~ closes_loop st.
(** A goto from step [k] may go to the next step, to the end of the procedure, or to
    a step of the technique that is not behind an earlier Do or Loop. *)
Definition goto_ok (steps : list step) (offset e : Z) (k : nat) (g : Z) : Prop :=
  g = (offset + 1 + Z.of_nat k + 1)%Z \/ g = e \/
  exists m, (m < length steps)%nat /\ g = (offset + 1 + Z.of_nat m)%Z /\ no_loop_between steps m k.
Definition step_ok (steps : list step) (offset e : Z) (k : nat) (st : step) : Prop :=
  (physical st -> control_ok st /\
     (length (the_ends st) <= 3)%nat /\ (length (the_reports st) <= 3)%nat /\
     (forall en, In en (the_ends st) -> end_ok en /\ exists g, parse_int (e_step en) = Some g /\ goto_ok steps offset e k g) /\
     (forall r, In r (the_reports st) -> report_ok r)) /\
  (closes_loop st ->
     (exists en n, st_ends st = One en /\ parse_int (e_value en) = Some n) /\
     exists j o, (j < k)%nat /\ nth_error steps j = Some o /\ opens_loop o /\ no_loop_between steps (S j) k).
