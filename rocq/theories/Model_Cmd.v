(** The commands `beep structure`, `beep featurize`, `beep train`, `beep predict` and `beep protocol`.
    Models beep/cmd.py:102-163, 420-640, 707-993, 1228-1388, 1441-1511, 1550-1613.
    Simplifications: the file system is a dictionary from paths to bytes; os.path.abspath, hashing,
    loading, validating, structuring, featurizing and serialising are parameters that may fail; no
    s3 bucket is given; times, log lines and the metadata block of the status file are left out; a
    keyboard interrupt arrives inside one of those parameters. *)
From Verif Require Import Py Num.
From Verif Require Model_Generate.

(** Ctrl-C, as an exception. (for [is_interrupt], beep/cmd.py:536-606) *)
Definition KeyboardInterrupt : exn := OtherError "KeyboardInterrupt".
(** for [each], beep/cmd.py:536-606 *)
Definition is_interrupt (e : exn) : bool := match e with OtherError n => String.eqb n "KeyboardInterrupt" | _ => false end.
(** How a command ends: with its report (which is what the status file holds), with an uncaught
    exception, or by leaving with an exit code; in the last two cases no status file is written.
    [click.Context.exit(1)] (588, 770, 778, 860, 1338, 1484) is called on the class, so 1 is bound to
    [self] and the code keeps its default 0 (click 8.1.7, core.py: [def exit(self, code=0)]).
    (for [context_exit], beep/cmd.py:536-606) *)
Inductive ended (A : Type) := Finished (a : A) | Crashed (e : exn) | Exited (code : Z).
Arguments Finished {A} a. Arguments Crashed {A} e. Arguments Exited {A} code.
(** for [each], beep/cmd.py:536-606 *)
Definition context_exit {A} : ended A := Exited 0.

(** os.path.basename, splitext, join (for [add_suffix], beep/cmd.py:102-125) *)
Definition basename (path : string) : string := last (str_split "/" path) ""%string.
(** for [splitext], beep/cmd.py:102-125 *)
Fixpoint last_dot (s : string) : option (string * string) :=
  match s with
  | EmptyString => None
  | String c r => match last_dot r with
                  | Some (a, b) => Some (String c a, b)
                  | None => if Ascii.eqb c "." then Some (""%string, s) else None
                  end
  end.
(** for [splitext], beep/cmd.py:102-125 *)
Fixpoint only_dots (s : string) : bool := match s with EmptyString => true | String c r => Ascii.eqb c "." && only_dots r end.
(** for [add_suffix], beep/cmd.py:102-125 *)
Definition splitext (base : string) : string * string :=
  match last_dot base with Some (a, b) => if only_dots a then (base, ""%string) else (a, b) | None => (base, ""%string) end.
(** for [path_join], beep/cmd.py:102-125 *)
Fixpoint ends_slash (s : string) : bool :=
  match s with EmptyString => false | String c "" => Ascii.eqb c "/" | String _ r => ends_slash r end.
(** for [add_suffix], beep/cmd.py:102-125 *)
Definition path_join (dir base : string) : string := (if ends_slash dir then dir ++ base else dir ++ "/" ++ base)%string.
(** beep/cmd.py:102-125 add_suffix, with the extension given *)
Definition add_suffix (full_path output_dir suffix ext : string) : string :=
  path_join output_dir (fst (splitext (basename full_path)) ++ suffix ++ ext)%string.

(** for [md5sum], beep/cmd.py:150-163 *)
Definition disk := list (string * string).

Section Structure.
  Variables (abspath : string -> string) (md5 : string -> string -> result string).
  (** beep/cmd.py:150-163 md5sum: of the bytes at a path *)
  Definition md5sum (w : disk) (f : string) : result string :=
    match sget w f with Some b => md5 f b | None => Err FileNotFoundError end.
  (** data: a loaded datapath *)
  Variables (data : Type) (auto_load : string -> string -> result data) (schema : data -> string).
  Variables (validate : data -> result (bool * string)).
  Variables (structure_with autostructure : data -> result data).
  Variables (structuring_parameters : data -> string) (dump : bool -> data -> result string) (writable : string -> result unit).

  (** for [attempt], beep/cmd.py:550-583 *)
  Record options := {
    output_dir : option string; output_filenames : list string; cwd : string;
    automatic : bool; validation_only : bool; no_raw : bool; halt_on_error : bool }.
  (** beep/cmd.py:537-547 *)
  Record status := {
    validated : bool; validation_schema : option string; structured : bool; output : option string;
    trace : option exn; raw_md5 : option string; parameters : option string; processed_md5 : option string }.
  (** for [attempt], beep/cmd.py:550-583 *)
  Definition fresh : status :=
    {| validated := false; validation_schema := None; structured := false; output := None; trace := None;
       raw_md5 := None; parameters := None; processed_md5 := None |}.
  (** for [each], beep/cmd.py:536-606 *)
  Definition with_trace (s : status) (e : exn) : status :=
    {| validated := validated s; validation_schema := validation_schema s; structured := structured s; output := output s;
       trace := Some e; raw_md5 := raw_md5 s; parameters := parameters s; processed_md5 := processed_md5 s |}.
  (** for [attempt], beep/cmd.py:550-583 *)
  Definition BEEPValidationError : exn := OtherError "BEEPValidationError".

  (** beep/cmd.py:550-583, the body of the try: the disk, the status so far, and the exception if one was raised *)
  Definition attempt (o : options) (f out : string) (w : disk) : disk * status * option exn :=
    let s := fresh in
    match md5sum w f with
    | Err e => (w, s, Some e)
    | Ok h =>
        let s := {| validated := false; validation_schema := None; structured := false; output := None; trace := None;
                    raw_md5 := Some h; parameters := None; processed_md5 := None |} in
        match match sget w f with Some b => auto_load f b | None => Err FileNotFoundError end with
        | Err e => (w, s, Some e)
        | Ok dp =>
            let s := {| validated := false; validation_schema := Some (schema dp); structured := false; output := None;
                        trace := None; raw_md5 := Some h; parameters := None; processed_md5 := None |} in
            match validate dp with
            | Err e => (w, s, Some e)
            | Ok (ok, reason) =>
                let s := {| validated := ok; validation_schema := Some (schema dp); structured := false; output := None;
                            trace := None; raw_md5 := Some h; parameters := None; processed_md5 := None |} in
                if negb ok then (w, s, Some BEEPValidationError)
                else if validation_only o then (w, s, None)
                else match (if automatic o then autostructure dp else structure_with dp) with
                     | Err e => (w, s, Some e)
                     | Ok dp =>
                         match (let! t := dump (no_raw o) dp in let! _ := writable out in Ok t) with
                         | Err e => (w, s, Some e)
                         | Ok t =>
                             let w := sset w out t in
                             let s := {| validated := ok; validation_schema := validation_schema s; structured := true;
                                         output := Some out; trace := None; raw_md5 := Some h;
                                         parameters := Some (structuring_parameters dp); processed_md5 := None |} in
                             match md5sum w out with
                             | Err e => (w, s, Some e)
                             | Ok h' => (w, {| validated := ok; validation_schema := validation_schema s; structured := true;
                                              output := Some out; trace := None; raw_md5 := Some h;
                                              parameters := parameters s; processed_md5 := Some h' |}, None)
                             end
                         end
                     end
            end
        end
    end.
  (** beep/cmd.py:536-606, the loop over the files and their outputs *)
  Fixpoint each (o : options) (l : list (string * string)) (w : disk) (acc : list (string * status)) : disk * ended (list (string * status)) :=
    match l with
    | [] => (w, Finished acc)
    | (f, out) :: l =>
        match attempt o f out w with
        | (w, s, None) => each o l w (sset acc f s)
        | (w, s, Some e) =>
            if is_interrupt e then (w, context_exit)
            else if halt_on_error o then (w, Crashed e)
            else each o l w (sset acc f (with_trace s e))
        end
    end.
  (** beep/cmd.py:490-519 *)
  Definition output_files (o : options) (fs : list string) : result (list string) :=
    match output_dir o with
    | Some d => Ok (map (fun f => add_suffix f (abspath d) "_structured" ".json.gz") fs)
    | None =>
        match output_filenames o with
        | [] => Ok (map (fun f => add_suffix f (cwd o) "_structured" ".json.gz") fs)
        | l => if Nat.eqb (length fs) (length l) then Ok (map abspath l) else Err ValueError
        end
    end.
  (** for [sorted_out], beep/cmd.py:609-619 *)
  Record report := { statuses : list (string * status); succeeded : list string; failed : list string; invalid : list string; n_files : nat }.
  (** beep/cmd.py:609-619 *)
  Definition sorted_out (n : nat) (st : list (string * status)) : report :=
    {| statuses := st;
       succeeded := map fst (filter (fun x => validated (snd x) && structured (snd x)) st);
       failed := map fst (filter (fun x => validated (snd x) && negb (structured (snd x))) st);
       invalid := map fst (filter (fun x => negb (validated (snd x))) st);
       n_files := n |}.
  (** beep/cmd.py:479-640 *)
  Definition structure (o : options) (given : list string) (w : disk) : disk * ended report :=
    let fs := map abspath given in
    if existsb (fun f => negb (smem w f)) fs then (w, Crashed FileNotFoundError)
    else match output_files o fs with
         | Err e => (w, Crashed e)
         | Ok outs =>
             match each o (combine fs outs) w [] with
             | (w, Finished st) => (w, Finished (sorted_out (length fs) st))
             | (w, Crashed e) => (w, Crashed e)
             | (w, Exited c) => (w, Exited c)
             end
         end.
End Structure.

Section Featurize.
  Variables (abspath : string -> string) (md5 : string -> string -> result string).
  (** runs, featurizers before and after computing, hyperparameter values, serialised matrices *)
  Variables (run feat value matrix : Type).
  (** for [fclass], beep/cmd.py:763-790 *)
  Definition hyper := list (string * value).
  (** for [resolve], beep/cmd.py:763-790 *)
  Record fclass := { fname : string; defaults : hyper; make : run -> hyper -> result feat }.
  Variables (load_processed : string -> string -> result run) (fvalidate : feat -> result (bool * string)) (create_features : feat -> result feat).
  Variables (dump_feat : feat -> result string) (matrix_of : list feat -> result matrix) (dump_matrix : matrix -> result string).
  Variables (writable : string -> result unit).
  (** 749-762: the featurizers shipped, the two groups; 780-790: importable classes ([None]: not a
      featurizer); 738: ast.literal_eval of the text given ([None]: not a dictionary) *)
  Variables (native : list (string * fclass)) (all_features all_targets : list string).
  Variables (import_class : string -> result (option fclass)) (literal_eval : string -> result (option (list (string * option hyper)))).
  (** for [names_of], beep/cmd.py:736-749 *)
  Record foptions := {
    f_output_filename : option string; f_output_dir : option string; f_cwd : string; auto_name : string;
    featurize_with : list string; with_hyperparams : list string; save_intermediates : bool; f_halt : bool }.

  (** beep/cmd.py:736-749 *)
  Definition names_of (o : foptions) : list string :=
    if str_in "all_features" (featurize_with o) then all_features
    else if str_in "all_targets" (featurize_with o) then all_targets
    else featurize_with o.
  (** beep/cmd.py:752-760 *)
  Definition parse_hyper (s : string) : result (string * option hyper) :=
    let! d := literal_eval s in
    match d with
    | None => Err TypeError
    | Some [kv] => Ok kv
    | Some _ => Err ValueError
    end.
  (** for [resolve], beep/cmd.py:763-790 *)
  Definition update (d new : hyper) : hyper := fold_left (fun d kv => sset d (fst kv) (snd kv)) new d.
  (** beep/cmd.py:763-790; [inr]: the command leaves *)
  Fixpoint resolve (l : list (string * option hyper)) : ended (list (fclass * hyper)) :=
    match l with
    | [] => Finished []
    | (n, p) :: l =>
        let k c := match resolve l with
                   | Finished r => Finished ((c, match p with Some p => update (defaults c) p | None => defaults c end) :: r)
                   | x => x
                   end in
        match sget native n with
        | Some c => k c
        | None =>
            if negb (contains "." n) then context_exit
            else match import_class n with
                 | Err e => Crashed e
                 | Ok None => context_exit
                 | Ok (Some c) => k c
                 end
        end
    end.
  (** beep/cmd.py:822-831 *)
  Record sub := {
    featurizer_name : string; hyperparameters : hyper; s_output : option string; valid : bool; featurized : bool;
    s_trace : option exn; s_md5 : option string }.
  (** for [apply_one], beep/cmd.py:834-866 *)
  Definition BEEPFeaturizationError : exn := OtherError "BEEPFeaturizationError".
  (** for [apply_one], beep/cmd.py:834-866 *)
  Definition intermediate (o : foptions) (c : fclass) (f : string) : string :=
    path_join (match f_output_dir o with Some d => abspath d | None => f_cwd o end) (fname c ++ "-" ++ basename f)%string.
  (** beep/cmd.py:834-866, the body of the try: disk, featurizer added to the list, entry, exception *)
  Definition apply_one (o : foptions) (f : string) (r : run) (c : fclass) (h : hyper) (w : disk) : disk * option feat * sub * option exn :=
    let entry v d out m := {| featurizer_name := fname c; hyperparameters := h; s_output := out; valid := v; featurized := d; s_trace := None; s_md5 := m |} in
    match make c r h with
    | Err e => (w, None, entry false false None None, Some e)
    | Ok x =>
        match fvalidate x with
        | Err e => (w, None, entry false false None None, Some e)
        | Ok (false, _) => (w, None, entry false false None None, Some BEEPFeaturizationError)
        | Ok (true, _) =>
            match create_features x with
            | Err e => (w, None, entry true false None None, Some e)
            | Ok x =>
                if save_intermediates o then
                  let p := intermediate o c f in
                  match (let! t := dump_feat x in let! _ := writable p in Ok t) with
                  | Err e => (w, Some x, entry true true None None, Some e)
                  | Ok t =>
                      let w := sset w p t in
                      match md5sum md5 w p with
                      | Err e => (w, Some x, entry true true (Some p) None, Some e)
                      | Ok h' => (w, Some x, entry true true (Some p) (Some h'), None)
                      end
                  end
                else (w, Some x, entry true true None None, None)
            end
        end
    end.
  (** for [apply_all], beep/cmd.py:819-884 *)
  Definition with_strace (s : sub) (e : exn) : sub :=
    {| featurizer_name := featurizer_name s; hyperparameters := hyperparameters s; s_output := s_output s; valid := valid s;
       featurized := featurized s; s_trace := Some e; s_md5 := s_md5 s |}.
  (** beep/cmd.py:819-884 *)
  Fixpoint apply_all (o : foptions) (f : string) (r : run) (cs : list (fclass * hyper)) (w : disk) : disk * ended (list feat * list sub) :=
    match cs with
    | [] => (w, Finished ([], []))
    | (c, h) :: cs =>
        let '(w, x, s, e) := apply_one o f r c h w in
        let k s := match apply_all o f r cs w with
                   | (w, Finished (xs, ss)) => (w, Finished (match x with Some x => x :: xs | None => xs end, s :: ss))
                   | y => y
                   end in
        match e with
        | None => k s
        | Some e => if is_interrupt e then (w, context_exit) else if f_halt o then (w, Crashed e) else k (with_strace s e)
        end
    end.
  (** for [each_file], beep/cmd.py:803-890 *)
  Record fstatus := { processed_chksum : string; subs : list sub }.
  (** beep/cmd.py:803-890: hashing and loading are outside the try *)
  Fixpoint each_file (o : foptions) (fs : list string) (cs : list (fclass * hyper)) (w : disk) (bfs : list feat) (acc : list (string * fstatus))
    : disk * ended (list feat * list (string * fstatus)) :=
    match fs with
    | [] => (w, Finished (bfs, acc))
    | f :: fs =>
        match md5sum md5 w f with
        | Err e => (w, Crashed e)
        | Ok h =>
            match match sget w f with Some b => load_processed f b | None => Err FileNotFoundError end with
            | Err e => (w, Crashed e)
            | Ok r =>
                match apply_all o f r cs w with
                | (w, Finished (xs, ss)) => each_file o fs cs w (bfs ++ xs) (sset acc f {| processed_chksum := h; subs := ss |})
                | (w, Crashed e) => (w, Crashed e)
                | (w, Exited c) => (w, Exited c)
                end
            end
        end
    end.
  (** for [freport_of], beep/cmd.py:937-953 *)
  Record freport := {
    f_statuses : list (string * fstatus); matrix_output : option string; matrix_trace : option exn;
    all_succeeded : list (string * nat); some_succeeded : list (string * nat); none_succeeded : list (string * nat) }.
  (** for [freport_of], beep/cmd.py:937-953 *)
  Definition n_success (s : fstatus) : nat := length (filter featurized (subs s)).
  (** beep/cmd.py:937-953 *)
  Definition freport_of (n : nat) (st : list (string * fstatus)) (out : option string) (e : option exn) : freport :=
    let counted := map (fun x => (fst x, n_success (snd x))) st in
    {| f_statuses := st; matrix_output := out; matrix_trace := e;
       all_succeeded := filter (fun x => Nat.eqb (snd x) n) counted;
       some_succeeded := filter (fun x => negb (Nat.eqb (snd x) n) && negb (Nat.eqb (snd x) 0)) counted;
       none_succeeded := filter (fun x => negb (Nat.eqb (snd x) n) && Nat.eqb (snd x) 0) counted |}.
  (** beep/cmd.py:892-905 *)
  Definition matrix_path (o : foptions) : string :=
    match f_output_filename o with Some f => abspath f | None => path_join (f_cwd o) (auto_name o) end.
  (** beep/cmd.py:707-993 featurize *)
  Definition write_matrix (o : foptions) (bfs : list feat) (w : disk) : disk * result string :=
    match (let! m := matrix_of bfs in let! t := dump_matrix m in let! _ := writable (matrix_path o) in Ok t) with
    | Err e => (w, Err e)
    | Ok t => (sset w (matrix_path o) t, Ok (matrix_path o))
    end.
  (** beep/cmd.py:733-993 *)
  Definition featurize (o : foptions) (given : list string) (w : disk) : disk * ended freport :=
    match mapM parse_hyper (with_hyperparams o) with
    | Err e => (w, Crashed e)
    | Ok hs =>
        match resolve (map (fun n => (n, None)) (names_of o) ++ hs) with
        | Crashed e => (w, Crashed e)
        | Exited c => (w, Exited c)
        | Finished cs =>
            match each_file o (map abspath given) cs w [] [] with
            | (w, Crashed e) => (w, Crashed e)
            | (w, Exited c) => (w, Exited c)
            | (w, Finished (bfs, st)) =>
                match write_matrix o bfs w with
                | (w, Ok p) => (w, Finished (freport_of (length cs) st (Some p) None))
                | (w, Err e) => if f_halt o then (w, Crashed e) else (w, Finished (freport_of (length cs) st None (Some e)))
                end
            end
        end
    end.
End Featurize.

(** Options of `beep train` that reach the experiment; [None]: not given. (for [alphas_of], beep/cmd.py:1245-1249) *)
Record train_options := {
  alpha_lower : option Q; alpha_upper : option Q; n_alphas : option Q;
  train_feature_nan_thresh : option Q; train_sample_nan_thresh : option Q; predict_sample_nan_thresh : option Q;
  drop_nan_training_targets : bool; impute_strategy : option string; kfold : option Z; max_iter : option Z; tol : option Q;
  l1_ratios : option string; homogenize_features : option bool }.
(** for [given], beep/cmd.py:1245-1270 *)
Inductive kwarg := KNum (x : Q) | KInt (n : Z) | KText (s : string) | KFlag (b : bool) | KNums (l : list Q).
(** bool(x) of an optional number (for [alphas_of], beep/cmd.py:1245-1249) *)
Definition truthy (x : option Q) : bool := match x with Some x => negb (Qeq_bool x 0) | None => false end.
(** numpy.linspace(start, stop, num) of command line values: [num] must be an integer object, and the
    option is declared FLOAT (1052), so it never is one (numpy 1.24: operator.index)
    (for [alphas_of], beep/cmd.py:1245-1249) *)
Definition np_linspace (start stop num : option Q) : result (list Q) := Err TypeError.
(** beep/cmd.py:1245-1249 *)
Definition alphas_of (o : train_options) : result (option (list Q)) :=
  let l := [alpha_lower o; alpha_upper o; n_alphas o] in
  if existsb truthy l && negb (forallb truthy l)
  then let! a := np_linspace (alpha_lower o) (alpha_upper o) (n_alphas o) in Ok (Some a)
  else Ok None.
Section Train.
  (** float(text) (for [additional_kwargs], beep/cmd.py:1245-1270) *)
  Variable parse_float : string -> result Q.
  (** str.strip of blanks (for [additional_kwargs], beep/cmd.py:1245-1270) *)
  Variable strip : string -> string.
  (** for [additional_kwargs], beep/cmd.py:1245-1270 *)
  Definition given {A} (name : string) (mk : A -> kwarg) (x : option A) : list (string * kwarg) :=
    match x with Some x => [(name, mk x)] | None => [] end.
  (** beep/cmd.py:1245-1270: the keyword arguments, those that are None left out *)
  Definition additional_kwargs (o : train_options) : result (list (string * kwarg)) :=
    let! alphas := alphas_of o in
    let! l1 := match l1_ratios o with
               | None => Ok None
               | Some s => let! l := mapM parse_float (str_split "," (strip s)) in Ok (Some l)
               end in
    Ok (given "train_feature_nan_thresh" KNum (train_feature_nan_thresh o)
        ++ given "train_sample_nan_thresh" KNum (train_sample_nan_thresh o)
        ++ given "predict_sample_nan_thresh" KNum (predict_sample_nan_thresh o)
        ++ given "drop_nan_training_targets" KFlag (Some (drop_nan_training_targets o))
        ++ given "impute_strategy" KText (impute_strategy o)
        ++ given "kfold" KInt (kfold o)
        ++ given "max_iter" KInt (max_iter o)
        ++ given "tol" KNum (tol o)
        ++ given "l1_ratios" KNums l1
        ++ given "homogenize_features" KFlag (homogenize_features o)
        ++ given "alphas" KNums alphas).
  (** beep/model.py:90-108, the keyword arguments of the experiment beyond those always passed *)
  Definition accepted : list string :=
    ["alphas"; "train_feature_drop_nan_thresh"; "train_sample_drop_nan_thresh"; "predict_sample_nan_thresh";
     "drop_nan_training_targets"; "impute_strategy"; "kfold"; "max_iter"; "tol"; "l1_ratio"; "homogenize_features"]%string.
  (** a call with keyword arguments: an unexpected one is a TypeError (for [train], beep/cmd.py:1228-1388) *)
  Definition call_with {A} (f : list (string * kwarg) -> result A) (kw : list (string * kwarg)) : result A :=
    if forallb (fun k => str_in (fst k) accepted) kw then f kw else Err TypeError.

  (** experiments, their serialisation; [fit kw] loads the matrices, builds the experiment and trains it *)
  Variables (model : Type) (fit : list (string * kwarg) -> result model) (dump_model : model -> result string).
  (** for [train], beep/cmd.py:1228-1388 *)
  Record trained := { t_created : bool; t_output : option string; t_trace : option exn }.
  (** beep/cmd.py:1228-1388 after the hashes of the two files *)
  Definition train (o : train_options) (halt : bool) (out : string) (writable : string -> result unit) (w : disk) : disk * ended trained :=
    match additional_kwargs o with
    | Err e => (w, Crashed e)
    | Ok kw =>
        match call_with fit kw with
        | Err e =>
            if is_interrupt e then (w, context_exit)
            else if halt then (w, Crashed e)
            else (w, Finished {| t_created := false; t_output := None; t_trace := Some e |})
        | Ok m =>
            match (let! t := dump_model m in let! _ := writable out in Ok t) with
            | Err e => (w, Crashed e)
            | Ok t => (sset w out t, Finished {| t_created := true; t_output := Some out; t_trace := None |})
            end
        end
    end.
End Train.

(** beep/cmd.py:1441-1511: the threshold predictions are made with *)
Definition threshold_used (option_given : option Q) (of_the_model : Q) : Q :=
  if truthy option_given then match option_given with Some x => x | None => of_the_model end else of_the_model.

(** `beep protocol` (for [protocol], beep/cmd.py:1575-1606) *)
Record protocol_status := { protocol_files : list (string * bool); p_trace : option exn }.
(** for [protocol], beep/cmd.py:1575-1606 *)
Definition ProtocolException : exn := OtherError "ProtocolException".
(** beep/cmd.py:1575-1606 after the files were found: [failures] stays the empty list it starts as, the generator's
    own list is bound to another name *)
Definition protocol (generated : result Model_Generate.report) : protocol_status :=
  let failures : list string := [] in
  match generated with
  | Err e => {| protocol_files := []; p_trace := Some e |}
  | Ok r =>
      let e := if String.eqb (Model_Generate.res r) "error" || match failures with [] => false | _ => true end
               then Some ProtocolException else None in
      {| protocol_files := fold_left (fun d f => sset d f false) failures
                             (fold_left (fun d f => sset d f true) (Model_Generate.made_files r) []);
         p_trace := e |}
  end.
