(** Model of the reconstruction of test data
    ([SourceManager.reconstruct_testdata], egenerator/manager/source.py
    l.1255-1822).

    Simplifications: numbers are exact reals, [None] for NaN.  Fits, losses,
    covariances and the other numerical results of the modules are given from
    outside as functions of the batch and what the module reads; the contents
    of the dictionaries of results are those of the modules.  Printing, timing
    and files other than the table are left out.  The batches of the generator
    are numpy arrays (data/handler/base.py l.993-1005). *)
From Coq Require Import Reals.
From Verif Require Import Py PyStr RList M_Source M_Tray.
From Verif Require M_Reco M_Cascade.
Open Scope R_scope.

Notation row := (list R).

(** A tensor of a batch: rows of parameters, or anything else *)
Inductive tensor := TRows (rows : list row) | TOther (n : nat).
Definition batch := list tensor.

(** Values in the results of modules *)
Inductive rvalue :=
| RRows (rows : list row) | RMat (m : nat -> nat -> R) | RNum (x : option R)
| RText (s : string) | RFlag (b : bool) | RObj (hess_inv : bool) | RVec (v : list R)
| RSamples (accepted : nat).

(** ** Modules *)

(** What is added to the tray: class and the settings that differ *)
Inductive spec :=
| SReco (seed : string) (previous randomize : bool)
| SSelect (names : list string)
| SCov | SGof | SCirc | SMcmc | SScan.

(** The setting 'seed': a string or a list *)
Inductive seed_setting := OneSeed (s : string) | Seeds (l : list string).
Definition seed_names (s : seed_setting) : list string :=
  match s with OneSeed s => [s] | Seeds l => l end.

(** 'reconstruction_settings'; [r_directory] is the directory part of
    'reco_output_file', [r_random] is [None] without 'num_random_seeds'. *)
Record reco_settings := mk_reco_settings {
  r_seed : seed_setting; r_random : option nat; r_directory : string; r_tensor : string;
  r_trafo : bool; r_default : bool; r_fit : dict bool;
  r_cov : bool; r_gof : bool; r_circ : bool; r_mcmc : bool; r_scan : bool }.

(** Modules for one seed (l.1368-1456) and the names that are compared in the end *)
Definition seed_plan (random : option nat) (seed : string) : list (string * spec) :=
  match random with
  | None => []
  | Some n =>
      let names := map (fun i => ("reco_random_" ++ fmt04 i ++ seed)%string) (seq 0 n) in
      map (fun name => (name, SReco seed false true)) names
      ++ [("sel_reco_random", SSelect names);
          (("reco_random_" ++ seed)%string, SReco "sel_reco_random" true false)]
  end ++ [(("reco_" ++ seed)%string, SReco seed false false)].
Definition seed_recos (random : option nat) (seed : string) : list string :=
  ("reco_" ++ seed)%string :: match random with None => [] | Some _ => [("reco_random_" ++ seed)%string] end.

(** All modules (l.1355-1538) *)
Definition plan (c : reco_settings) : list (string * spec) :=
  let seeds := seed_names (r_seed c) in
  flat_map (seed_plan (r_random c)) seeds
  ++ [("reco", SSelect (flat_map (seed_recos (r_random c)) seeds))]
  ++ (if r_cov c then [("covariance", SCov)] else [])
  ++ (if r_gof c then [("GoodnessOfFit", SGof)] else [])
  ++ (if r_circ c then [("CircularizedAngularUncertainty", SCirc)] else [])
  ++ (if r_mcmc c then [("mcmc", SMcmc)] else [])
  ++ (if r_scan c then [("visualization", SScan)] else []).

Section TestReco.
  (** Parameter names of the first model, the mapping to particles, the names of
      the tensors of a batch *)
  Variable names : list string.
  Variable mapping : option (dict string).
  Variable tensors : list string.

  (** A fit from a seed: result, result in the transformed space, and whether the
      object of the minimiser has [hess_inv] *)
  Record fitted := mk_fitted { f_result : list row; f_trafo : list row; f_hess : bool }.
  Variable fit : list bool -> batch -> list row -> result fitted.
  (** [parameter_loss_function] at given parameters, and [get_loss] (l.1322-1328) *)
  Variable parameter_loss : batch -> list row -> result (option R).
  Variable get_loss : batch -> result (option R).
  (** The matrices of the covariance module: cov, cov_sand, cov_trafo,
      cov_sand_trafo and the same from the minimiser's [hess_inv] *)
  Record covariances := mk_covariances {
    v_cov : nat -> nat -> R; v_sand : nat -> nat -> R;
    v_cov_trafo : nat -> nat -> R; v_sand_trafo : nat -> nat -> R;
    v_fit : nat -> nat -> R; v_sand_fit : nat -> nat -> R;
    v_fit_trafo : nat -> nat -> R; v_sand_fit_trafo : nat -> nat -> R }.
  Variable covariance : batch -> dict rvalue -> result covariances.
  (** p-values, bias and covariance of reconstructed samples *)
  Record goodness := mk_goodness {
    y_p1 : option R; y_p2 : option R; y_samples : option (list R * (nat -> nat -> R)) }.
  Variable goodness_of_fit : batch -> dict (dict rvalue) -> result goodness.
  Variable circular : batch -> dict (dict rvalue) -> result (option R).
  (** Number of accepted samples *)
  Variable mcmc : batch -> list row -> result nat.
  Variable scan : batch -> dict (dict rvalue) -> result Datatypes.unit.
  (** Whatever else a constructor may raise *)
  Variable init_other : spec -> result Datatypes.unit.
  Variable clock : nat -> rvalue.

  (** [data_handler.tensors.get_index] (data/tensor.py l.315-328) *)
  Definition tensor_index (n : string) : result nat := M_Cascade.name_index tensors n.

  (** [data_batch[i]] as rows *)
  Definition batch_rows (b : batch) (i : nat) : result (list row) :=
    match nth_error b i with
    | Some (TRows rows) => Ok rows
    | Some (TOther _) => Err ValueError
    | None => Err IndexError
    end.

  Definition as_rows (v : rvalue) : result (list row) :=
    match v with RRows rows => Ok rows | _ => Err TypeError end.
  Definition as_mat (v : rvalue) : result (nat -> nat -> R) :=
    match v with RMat m => Ok m | _ => Err TypeError end.
  Definition as_num (v : rvalue) : result (option R) :=
    match v with RNum x => Ok x | _ => Err TypeError end.

  (** [Reconstruction.execute] (modules/reconstruction.py l.209-284); the code for
      random seeds calls [.numpy()] of a numpy array (l.237-238). *)
  Definition run_reco (flags : list bool) (seed : string) (previous randomize : bool)
      (b : batch) (results : dict (dict rvalue)) : result (dict rvalue) :=
    bind (if previous then bind (lookup seed results) (fun r => bind (lookup "result" r) as_rows)
          else bind (tensor_index seed) (fun i => batch_rows b i)) (fun seed_rows =>
    if randomize then Err AttributeError
    else
      bind (fit flags b seed_rows) (fun f =>
      bind (parameter_loss b seed_rows) (fun loss_seed =>
      bind (parameter_loss b (f_result f)) (fun loss_reco =>
      Ok [("result", RRows (f_result f)); ("result_trafo", RRows (f_trafo f));
          ("result_object", RObj (f_hess f)); ("loss_seed", RNum loss_seed);
          ("loss_reco", RNum loss_reco); ("seed_tensor_name", RText seed);
          ("seed_from_previous_module", RFlag previous)])))).

  (** [CovarianceMatrix.execute] (modules/covariance.py l.93-175); outside of the
      transformed space [cov] is not assigned (l.142-166). *)
  Definition run_cov (c : reco_settings) (b : batch) (results : dict (dict rvalue)) : result (dict rvalue) :=
    bind (lookup "reco" results) (fun reco =>
    bind (covariance b reco) (fun v =>
    if negb (r_trafo c) then Err UnboundLocalError
    else
      bind (lookup "result_object" reco) (fun obj =>
      Ok ([("cov", RMat (v_cov v)); ("cov_sand", RMat (v_sand v));
           ("cov_trafo", RMat (v_cov_trafo v)); ("cov_sand_trafo", RMat (v_sand_trafo v))]
          ++ match obj with
             | RObj true =>
                 [("cov_fit", RMat (v_fit v)); ("cov_sand_fit", RMat (v_sand_fit v));
                  ("cov_fit_trafo", RMat (v_fit_trafo v)); ("cov_sand_fit_trafo", RMat (v_sand_fit_trafo v))]
             | _ => []
             end)))).

  (** [GoodnessOfFit.execute]: the entries used here (modules/fit_quality.py
      l.464-484) *)
  Definition run_gof (b : batch) (results : dict (dict rvalue)) : result (dict rvalue) :=
    bind (goodness_of_fit b results) (fun y =>
    Ok ([("event_p_value_1sided", RNum (y_p1 y)); ("event_p_value_2sided", RNum (y_p2 y))]
        ++ match y_samples y with
           | None => []
           | Some (bias, cov) => [("sample_reco_bias", RVec bias); ("sample_reco_cov", RMat cov)]
           end)).

  (** [MarkovChainMonteCarlo.execute] (modules/mcmc.py l.125-209) *)
  Definition run_mcmc (b : batch) (results : dict (dict rvalue)) : result (dict rvalue) :=
    bind (lookup "reco" results) (fun reco =>
    bind (bind (lookup "result" reco) as_rows) (fun rows =>
    if negb (Nat.eqb (length rows) 1) then Err AssertionError
    else bind (mcmc b rows) (fun n => Ok [("log_prob_values", RSamples n)]))).

  (** The method [execute] of a module; that of the scan returns None
      (modules/visualization.py l.83-117), in which the tray looks for 'runtime'
      (tray.py l.120). *)
  Definition run_module (c : reco_settings) (flags : list bool) (sp : spec)
      (b : batch) (results : dict (dict rvalue)) : result (dict rvalue) :=
    match sp with
    | SReco seed previous randomize => run_reco flags seed previous randomize b results
    | SSelect ns => M_Reco.select_best rvalue as_num ns results
    | SCov => run_cov c b results
    | SGof => run_gof b results
    | SCirc => bind (circular b results) (fun x => Ok [("circular_unc", RNum x)])
    | SMcmc => run_mcmc b results
    | SScan => bind (scan b results) (fun _ => Err TypeError)
    end.

  (** Constructors (modules/reconstruction.py l.84-86, modules/covariance.py
      l.41-43) *)
  Definition init (flags : list bool) (sp : spec) : result Datatypes.unit :=
    bind (match sp with
          | SReco seed false _ => bind (tensor_index seed) (fun _ => Ok tt)
          | SCov => M_Reco.covariance_init flags
          | _ => Ok tt
          end) (fun _ => init_other sp).

  (** ** The tray *)
  Notation tray := (tray rvalue batch Datatypes.unit Datatypes.unit).

  Fixpoint add_all (c : reco_settings) (flags : list bool) (l : list (string * spec)) (t : tray) : result tray :=
    match l with
    | [] => Ok t
    | (name, sp) :: rest =>
        match add_module rvalue batch Datatypes.unit Datatypes.unit
                (Ok (fun k => (k, bind (init flags sp) (fun _ => Ok (run_module c flags sp))))) (Some name) t with
        | (t', Ok _) => add_all c flags rest t'
        | (_, Err e) => Err e
        end
    end.

  (** [l[i] = v] *)
  Fixpoint set_flag (i : nat) (v : bool) (l : list bool) : list bool :=
    match l, i with
    | [], _ => []
    | _ :: l', 0%nat => v :: l'
    | x :: l', S i' => x :: set_flag i' v l'
    end.

  (** Flags of the parameters to fit (l.1298-1301) *)
  Fixpoint fit_flags (d : dict bool) (l : list bool) : result (list bool) :=
    match d with
    | [] => Ok l
    | (name, v) :: rest => bind (M_Cascade.name_index names name) (fun i => fit_flags rest (set_flag i v l))
    end.

  (** ** The loop over batches (l.1560-1761) *)

  (** What is kept for an event and for a batch *)
  Record event_row := mk_event_row {
    e_true : row; e_seed : row; e_reco : row;
    e_loss_true : option R; e_loss_seed : option R; e_loss_reco : option R }.
  Record cov_row := mk_cov_row {
    o_zen_azi : R; o_fit_zen_azi : R;
    o_std : list (option R); o_std_fit : list (option R);
    o_sand : list (option R); o_sand_fit : list (option R) }.
  Record gof_row := mk_gof_row {
    z_p1 : option R; z_p2 : option R; z_samples : option (list R * list (option R)) }.
  Record state := mk_state {
    st_events : list event_row; st_cov : list cov_row; st_gof : list gof_row; st_circ : list (option R);
    st_bound : bool }.                           (* [cascade_true] is assigned *)

  (** [np.sqrt(np.diag(m))] *)
  Definition std_dev (m : nat -> nat -> R) : list (option R) :=
    map (fun i => if Rltb (m i i) 0 then None else Some (sqrt (m i i))) (seq 0 (length names)).

  (** Index of the seed that is reported (l.1571-1577); the seed of a previous
      module is replaced by the first element of 'seed', the first letter if it
      is a string. *)
  Definition first_seed (s : seed_setting) : result string :=
    match s with
    | OneSeed EmptyString => Err IndexError
    | OneSeed (String a _) => Ok (String a EmptyString)
    | Seeds [] => Err IndexError
    | Seeds (x :: _) => Ok x
    end.
  Definition seed_index (c : reco_settings) (reco : dict rvalue) : result nat :=
    bind (lookup "seed_from_previous_module" reco) (fun prev =>
    match prev with
    | RFlag true => bind (first_seed (r_seed c)) tensor_index
    | _ => bind (lookup "seed_tensor_name" reco) (fun n =>
           match n with RText s => tensor_index s | _ => Err KeyError end)
    end).

  (** Covariances (l.1586-1604) *)
  Definition cov_step (m : dict string) (results : dict (dict rvalue)) : result cov_row :=
    bind (lookup "covariance" results) (fun r =>
    bind (bind (lookup "cov" r) as_mat) (fun cov =>
    bind (bind (lookup "cov_fit" r) as_mat) (fun cov_fit =>
    bind (bind (lookup "cov_sand" r) as_mat) (fun cov_sand =>
    bind (bind (lookup "cov_sand_fit" r) as_mat) (fun cov_sand_fit =>
    bind (bind (lookup "zenith" m) (M_Cascade.name_index names)) (fun zen =>
    bind (bind (lookup "azimuth" m) (M_Cascade.name_index names)) (fun azi =>
    Ok (mk_cov_row (cov zen azi) (cov_fit zen azi) (std_dev cov) (std_dev cov_fit)
          (std_dev cov_sand) (std_dev cov_sand_fit))))))))).

  (** Goodness of fit (l.1615-1624) *)
  Definition gof_step (results : dict (dict rvalue)) : result gof_row :=
    bind (lookup "GoodnessOfFit" results) (fun r =>
    bind (bind (lookup "event_p_value_1sided" r) as_num) (fun p1 =>
    bind (bind (lookup "event_p_value_2sided" r) as_num) (fun p2 =>
    match dget "sample_reco_cov" r with
    | None => Ok (mk_gof_row p1 p2 None)
    | Some v =>
        bind (lookup "sample_reco_bias" r) (fun bias =>
        bind (as_mat v) (fun cov =>
        match bias with
        | RVec bias => Ok (mk_gof_row p1 p2 (Some (bias, std_dev cov)))
        | _ => Err TypeError
        end))
    end))).

  (** Accepted samples are printed with [cascade_true], which is first assigned in
      the loop over the events (l.1663-1709). *)
  Definition mcmc_step (bound : bool) (results : dict (dict rvalue)) : result Datatypes.unit :=
    bind (lookup "mcmc" results) (fun r =>
    bind (lookup "log_prob_values" r) (fun v =>
    match v with
    | RSamples 0 => Ok tt
    | RSamples _ => if bound then Ok tt else Err UnboundLocalError
    | _ => Err TypeError
    end)).

  (** [data_batch] with other parameters (l.1718-1726) *)
  Fixpoint set_tensor (i : nat) (v : tensor) (b : batch) : batch :=
    match b, i with
    | [], _ => []
    | _ :: b', 0%nat => v :: b'
    | x :: b', S i' => x :: set_tensor i' v b'
    end.
  Definition with_parameters (b : batch) (i : nat) (r : row) : result batch :=
    bind (M_Reco.reshape (length names) r) (fun a => Ok (set_tensor i (TRows (M_Trafo.ar_rows a)) b)).

  (** The loop over events (l.1713-1761) *)
  Fixpoint event_loop (b : batch) (i : nat) (l : list (row * row * row)) : result (list event_row) :=
    match l with
    | [] => Ok []
    | (reco, seed, truth) :: rest =>
        bind (with_parameters b i seed) (fun b_seed =>
        bind (with_parameters b i reco) (fun b_reco =>
        bind (get_loss b) (fun loss_true =>
        bind (get_loss b_seed) (fun loss_seed =>
        bind (get_loss b_reco) (fun loss_reco =>
        bind (event_loop b i rest) (fun es =>
        Ok (mk_event_row truth seed reco loss_true loss_seed loss_reco :: es)))))))
    end.

  Definition batch_step (c : reco_settings) (m : dict string) (param : nat) (t : tray) (st : state) (b : batch)
      : result state :=
    bind (execute rvalue batch Datatypes.unit Datatypes.unit clock t b) (fun results =>
    bind (lookup "reco" results) (fun reco =>
    bind (seed_index c reco) (fun si =>
    bind (bind (lookup "result" reco) as_rows) (fun reco_rows =>
    bind (batch_rows b param) (fun true_rows =>
    bind (batch_rows b si) (fun seed_rows =>
    bind (if r_cov c then bind (cov_step m results) (fun x => Ok [x]) else Ok []) (fun covs =>
    bind (if r_gof c then bind (gof_step results) (fun x => Ok [x]) else Ok []) (fun gofs =>
    bind (if r_circ c then
            bind (lookup "CircularizedAngularUncertainty" results) (fun r =>
            bind (bind (lookup "circular_unc" r) as_num) (fun x => Ok [x]))
          else Ok []) (fun circs =>
    bind (if r_mcmc c then mcmc_step (st_bound st) results else Ok tt) (fun _ =>
    bind (event_loop b param (combine (combine reco_rows seed_rows) true_rows)) (fun es =>
    Ok (mk_state (st_events st ++ es) (st_cov st ++ covs) (st_gof st ++ gofs) (st_circ st ++ circs)
          (match es with [] => st_bound st | _ => true end))))))))))))).

  Fixpoint batch_loop (c : reco_settings) (m : dict string) (param : nat) (t : tray) (st : state)
      (bs : list batch) : result state :=
    match bs with
    | [] => Ok st
    | b :: rest => bind (batch_step c m param t st b) (fun st' => batch_loop c m param t st' rest)
    end.

  (** ** The table (l.1763-1822) *)
  Definition column := list (option R).

  (** [df[name] = values] of pandas: all columns have the same length. *)
  Definition add_column (name : string) (v : column) (df : dict column) : result (dict column) :=
    match df with
    | [] => Ok [(name, v)]
    | (_, v0) :: _ => if Nat.eqb (length v) (length v0) then Ok (dset name v df) else Err ValueError
    end.
  Fixpoint add_columns (l : list (string * column)) (df : dict column) : result (dict column) :=
    match l with
    | [] => Ok df
    | (name, v) :: rest => bind (add_column name v df) (add_columns rest)
    end.

  (** [np.stack] of rows *)
  Definition stack {A} (rows : list (list A)) : result (list (list A)) :=
    match rows with
    | [] => Err ValueError
    | r :: _ => if forallb (fun x => Nat.eqb (length x) (length r)) rows then Ok rows else Err ValueError
    end.
  (** [rows[:, j]] *)
  Definition col {A} (rows : list (list A)) (j : nat) : result (list A) :=
    fold_right (fun r acc => bind acc (fun l =>
      match nth_error r j with Some x => Ok (x :: l) | None => Err IndexError end)) (Ok []) rows.

  (** Columns of all parameters, one after the other, for the named arrays *)
  Fixpoint columns (suffixes : list (string * list (list (option R)))) (l : list (nat * string))
      : result (list (string * column)) :=
    match l with
    | [] => Ok []
    | (j, name) :: rest =>
        bind (fold_right (fun s acc => bind (col (snd s) j) (fun v => bind acc (fun l =>
                Ok (((name ++ fst s)%string, v) :: l)))) (Ok []) suffixes) (fun here =>
        bind (columns suffixes rest) (fun later => Ok (here ++ later)))
    end.

  Definition numbered : list (nat * string) := combine (seq 0 (length names)) names.
  Definition known (r : row) : list (option R) := map Some r.

  (** [samples] of all batches; lists of different lengths cannot occur, since the
      keys are those of every batch. *)
  Definition gof_samples (l : list gof_row) : list (list R * list (option R)) :=
    flat_map (fun g => match z_samples g with Some s => [s] | None => [] end) l.
  Definition last_has_samples (l : list gof_row) : bool :=
    match rev l with g :: _ => match z_samples g with Some _ => true | None => false end | [] => false end.

  Definition table (c : reco_settings) (st : state) : result (dict column) :=
    let es := st_events st in
    bind (stack (map (fun e => known (e_true e)) es)) (fun true_rows =>
    bind (stack (map (fun e => known (e_seed e)) es)) (fun seed_rows =>
    bind (stack (map (fun e => known (e_reco e)) es)) (fun reco_rows =>
    bind (if r_cov c then stack (map o_std_fit (st_cov st)) else Ok []) (fun std_fit =>
    bind (if r_cov c then stack (map o_std (st_cov st)) else Ok []) (fun std =>
    bind (if r_cov c then stack (map o_sand (st_cov st)) else Ok []) (fun sand =>
    bind (if r_cov c then stack (map o_sand_fit (st_cov st)) else Ok []) (fun sand_fit =>
    bind (columns [(""%string, true_rows); ("_reco"%string, reco_rows); ("_seed"%string, seed_rows)] numbered) (fun cols =>
    bind (add_columns cols []) (fun df =>
    bind (if r_cov c then
            bind (columns [("_unc"%string, std); ("_unc_fit"%string, std_fit); ("_unc_sandwhich"%string, sand);
                           ("_unc_sandwhich_fit"%string, sand_fit)] numbered) (fun cols =>
            bind (add_columns cols df) (fun df =>
            add_columns [("cov_zenith_azimuth"%string, map (fun o => Some (o_zen_azi o)) (st_cov st));
                         ("cov_fit_zenith_azimuth"%string, map (fun o => Some (o_fit_zen_azi o)) (st_cov st))] df))
          else Ok df) (fun df =>
    bind (if r_circ c then add_columns [("circular_unc"%string, st_circ st)] df else Ok df) (fun df =>
    bind (if r_gof c then
            bind (add_columns [("event_p_value_1sided"%string, map z_p1 (st_gof st));
                               ("event_p_value_2sided"%string, map z_p2 (st_gof st))] df) (fun df =>
            if last_has_samples (st_gof st) then
              bind (stack (map snd (gof_samples (st_gof st)))) (fun std =>
              bind (stack (map (fun s => known (fst s)) (gof_samples (st_gof st)))) (fun bias =>
              bind (columns [("_unc_samples"%string, std); ("_sample_reco_bias"%string, bias)] numbered) (fun cols =>
              add_columns cols df)))
            else Ok df)
          else Ok df) (fun df =>
    add_columns [("loss_true"%string, map e_loss_true es); ("loss_reco"%string, map e_loss_reco es);
                 ("loss_seed"%string, map e_loss_seed es)] df)))))))))))).

  (** [reconstruct_testdata]: the table that is written; [os.makedirs('')] raises
      (l.1303-1307). *)
  Definition reconstruct_testdata (c : reco_settings) (bs : list batch) : result (dict column) :=
    match mapping with
    | None => Err KeyError
    | Some m =>
        bind (fit_flags (r_fit c) (map (fun _ => r_default c) names)) (fun flags =>
        if String.eqb (r_directory c) "" then Err IOError
        else
          bind (tensor_index (r_tensor c)) (fun param =>
          bind (add_all c flags (plan c) (new_tray rvalue batch Datatypes.unit Datatypes.unit)) (fun t =>
          bind (batch_loop c m param t (mk_state [] [] [] [] false) bs) (fun st =>
          table c st))))
    end.
End TestReco.
