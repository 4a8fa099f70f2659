(** Model of the IceTray module that reconstructs events
    ([EventGeneratorReconstruction], egenerator/ic3/reconstruction.py l.152-492).

    Simplifications: numbers are exact reals.  The manager, the modules of the
    tray and the batch of a frame are given from outside.  A frame maps keys to
    objects and refuses to put an object under a key it has (icetray,
    [I3Frame::Put]); the maps of IceTray are dictionaries.  Printing is left
    out. *)
From Coq Require Import Reals.
From Verif Require Import Py PyStr RList M_Source M_Tray.
From Verif Require M_Cascade M_TestReco.
Open Scope R_scope.

(** Values in the results of modules; [VObj]: the object of the minimiser with its
    attribute [success], [None] if it has none (tensorflow_probability) *)
Inductive fval :=
| VRows (rows : list (list R)) | VMat (n : nat) (m : nat -> nat -> R) | VNum (x : R)
| VObj (success : option bool) | VVec (v : list R) | VDoms (f : nat -> nat -> R) | VAny.

(** Objects of a frame *)
Record i3particle := mk_i3particle {
  t_x : option R; t_y : option R; t_z : option R;        (* pos, [None]: not set *)
  t_dir : option (R * R);                                (* zenith, azimuth *)
  t_other : dict R }.                                    (* other attributes *)
Inductive fobject :=
| OMap (d : dict R) | OParticle (p : i3particle) | ODoms (l : list ((nat * nat) * R)) | OOther (n : nat).
Definition frame := dict fobject.

(** [frame[key] = object] *)
Definition put (k : string) (o : fobject) (f : frame) : result frame :=
  if dmem k f then Err RuntimeError else Ok (dset k o f).

(** ** Configuration *)

(** A string or a list of strings *)
Definition strings := M_TestReco.seed_setting.
Definition string_list (s : strings) : list string := M_TestReco.seed_names s.

Record frame_settings := mk_frame_settings {
  w_seeds : strings; w_models : strings; w_base : option string; w_output : string;
  w_circ : bool; w_cov : bool; w_gof : bool; w_default : bool; w_fit : dict bool;
  w_gof_settings : dict (option bool) }.    (* [None]: not a boolean, but true as a condition *)

(** [os.path.join(base, name)] *)
Definition path_join (base name : string) : string :=
  match name with
  | String "/" _ => name
  | _ =>
      match base with
      | EmptyString => name
      | _ => match String.get (String.length base - 1) base with
             | Some "/"%char => (base ++ name)%string
             | _ => (base ++ "/" ++ name)%string
             end
      end
  end.

(** What is used of the manager: names of the parameters, which of them are
    transformed with the logarithm, the mapping to particles *)
Record fmanager := mk_fmanager { n_names : list string; n_log : list bool; n_mapping : option (dict string) }.

Record fmodule := mk_fmodule {
  k_settings : frame_settings; k_manager : fmanager; k_log : list string;
  k_tray : tray fval nat Datatypes.unit Datatypes.unit }.

Section Frame.
  (** Loading the manager from directories *)
  Variable load : list string -> result fmanager.
  (** Making a module for the fitted parameters; the key of the covariance is that
      of goodness of fit and angular uncertainty. *)
  Variable make : list bool -> option string -> M_TestReco.spec -> result (module fval nat).
  Variable clock : nat -> R.

  (** l.195-200 *)
  Definition manager_dirs (c : frame_settings) : list string :=
    map (fun n => match w_base c with Some b => path_join b n | None => n end) (string_list (w_models c)).

  (** l.184-187: the dictionary of the caller is changed. *)
  Definition gof_defaults (d : dict (option bool)) : dict (option bool) :=
    let d := if dmem "reconstruct_samples" d then d else dset "reconstruct_samples" (Some true) d in
    if dmem "add_per_dom_calculation" d then d else dset "add_per_dom_calculation" (Some true) d.

  (** Keyword arguments of the goodness of fit that are not given by the module
      itself (modules/fit_quality.py l.11-25); any other one is a TypeError. *)
  Definition gof_keywords : list string :=
    ["scipy_optimizer_settings"; "num_samples"; "reconstruct_samples"; "add_per_dom_calculation";
     "normalize_by_total_charge"; "random_seed"].

  (** l.240-245 *)
  Fixpoint log_names (names : list string) (log : list bool) : result (list string) :=
    match names, log with
    | [], _ => Ok []
    | _ :: _, [] => Err IndexError
    | n :: names, l :: log => bind (log_names names log) (fun rest => Ok (if l then n :: rest else rest))
    end.

  (** The modules (l.266-331) *)
  Definition frame_plan (c : frame_settings) : list (string * M_TestReco.spec) :=
    let seeds := string_list (w_seeds c) in
    map (fun s => (("reco_" ++ s)%string, M_TestReco.SReco s false false)) seeds
    ++ [("reco"%string, M_TestReco.SSelect (map (fun s => ("reco_" ++ s)%string) seeds))]
    ++ (if w_cov c then [("covariance"%string, M_TestReco.SCov)] else [])
    ++ (if w_gof c then [("GoodnessOfFit"%string, M_TestReco.SGof)] else [])
    ++ (if w_circ c then [("CircularizedAngularUncertainty"%string, M_TestReco.SCirc)] else []).

  Fixpoint add_modules (c : frame_settings) (flags : list bool) (l : list (string * M_TestReco.spec))
      (t : tray fval nat Datatypes.unit Datatypes.unit) : result (tray fval nat Datatypes.unit Datatypes.unit) :=
    match l with
    | [] => Ok t
    | (name, sp) :: rest =>
        bind (match sp with
              | M_TestReco.SGof =>
                  if forallb (fun k => existsb (String.eqb k) gof_keywords) (map fst (w_gof_settings c)) then Ok tt
                  else Err TypeError
              | _ => Ok tt
              end) (fun _ =>
        match add_module fval nat Datatypes.unit Datatypes.unit
                (Ok (fun k => (k, make flags (if w_cov c then Some "covariance"%string else None) sp))) (Some name) t with
        | (t', Ok _) => add_modules c flags rest t'
        | (_, Err e) => Err e
        end)
    end.

  (** [Configure] (l.152-331) *)
  Definition frame_configure (c : frame_settings) : result fmodule :=
    let c := mk_frame_settings (w_seeds c) (w_models c) (w_base c) (w_output c) (w_circ c) (w_cov c) (w_gof c)
               (w_default c) (w_fit c) (gof_defaults (w_gof_settings c)) in
    bind (load (manager_dirs c)) (fun m =>
    bind (log_names (n_names m) (n_log m)) (fun logs =>
    bind (M_TestReco.fit_flags (n_names m) (w_fit c) (map (fun _ => w_default c) (n_names m))) (fun flags =>
    bind (add_modules c flags (frame_plan c) (new_tray fval nat Datatypes.unit Datatypes.unit)) (fun t =>
    Ok (mk_fmodule c m logs t))))).

  (** ** A frame *)

  (** [float(v)] *)
  Definition to_float (v : fval) : result R := match v with VNum x => Ok x | _ => Err TypeError end.
  Definition entry (results : dict (dict fval)) (m k : string) : result fval :=
    bind (lookup m results) (lookup k).

  (** [for i, name in enumerate(names): d[name] = float(v[i])]; [f] gives the keys. *)
  Fixpoint write_vector (key : string -> string) (names : list string) (v : list R) (d : dict R) : result (dict R) :=
    match names, v with
    | [], _ => Ok d
    | _ :: _, [] => Err IndexError
    | n :: names, x :: v => write_vector key names v (dset (key n) x d)
    end.

  (** l.360-361 *)
  Fixpoint write_runtimes (names : list string) (results : dict (dict fval)) (d : dict R) : result (dict R) :=
    match names with
    | [] => Ok d
    | n :: names =>
        bind (bind (entry results n "runtime") to_float) (fun x =>
        write_runtimes names results (dset ("runtime_" ++ n)%string x d))
    end.

  (** The particle (l.367-385); attributes that particles do not have are those of
      the Python object. *)
  Fixpoint fill_particle (mapping items : dict string) (d : dict R) (p : i3particle) : result i3particle :=
    match items with
    | [] => Ok p
    | (key, param) :: items =>
        bind (if String.eqb key "x" then bind (lookup param d) (fun x => Ok (mk_i3particle (Some x) (t_y p) (t_z p) (t_dir p) (t_other p)))
              else if String.eqb key "y" then bind (lookup param d) (fun x => Ok (mk_i3particle (t_x p) (Some x) (t_z p) (t_dir p) (t_other p)))
              else if String.eqb key "z" then bind (lookup param d) (fun x => Ok (mk_i3particle (t_x p) (t_y p) (Some x) (t_dir p) (t_other p)))
              else if String.eqb key "zenith" || String.eqb key "azimuth" then
                bind (bind (lookup "zenith" mapping) (fun z => lookup z d)) (fun zen =>
                bind (bind (lookup "azimuth" mapping) (fun a => lookup a d)) (fun azi =>
                Ok (mk_i3particle (t_x p) (t_y p) (t_z p) (Some (zen, azi)) (t_other p))))
              else bind (lookup param d) (fun x => Ok (mk_i3particle (t_x p) (t_y p) (t_z p) (t_dir p) (dset key x (t_other p)))))
          (fill_particle mapping items d)
    end.

  (** [write_cov_matrix] (l.461-492) *)
  Definition cov_name (logs : list string) (n : string) : string :=
    if existsb (String.eqb n) logs then ("log_" ++ n)%string else n.
  Definition cov_entry (n : nat) (m : nat -> nat -> R) (i j : nat) : result R :=
    if Nat.ltb i n && Nat.ltb j n then Ok (m i j) else Err IndexError.
  (** The row [i] from the column [j] on *)
  Fixpoint write_cov_row (logs : list string) (size : nat) (m : nat -> nat -> R) (i : nat) (name_i : string)
      (j : nat) (names : list string) (d : dict R) : result (dict R) :=
    match names with
    | [] => Ok d
    | name_j :: names =>
        bind (cov_entry size m i j) (fun x =>
        write_cov_row logs size m i name_i (S j) names
          (dset (cov_name logs name_i ++ "_" ++ cov_name logs name_j)%string x d))
    end.
  Fixpoint write_cov_rows (logs : list string) (size : nat) (m : nat -> nat -> R) (i : nat) (names : list string)
      (d : dict R) : result (dict R) :=
    match names with
    | [] => Ok d
    | name_i :: rest =>
        bind (write_cov_row logs size m i name_i i names d) (write_cov_rows logs size m (S i) rest)
    end.
  Definition write_cov_matrix (o : fmodule) (cov : fval) (name : string) (f : frame) : result frame :=
    match cov with
    | VMat size m =>
        bind (write_cov_rows (k_log o) size m 0 (n_names (k_manager o)) []) (fun d =>
        put (w_output (k_settings o) ++ "_cov_matrix_" ++ name)%string (OMap d) f)
    | _ => Err TypeError
    end.

  (** l.388-393 *)
  Fixpoint write_covariances (o : fmodule) (items : dict fval) (f : frame) (d : dict R) : result (frame * dict R) :=
    match items with
    | [] => Ok (f, d)
    | (name, value) :: items =>
        if String.eqb name "runtime" then
          bind (to_float value) (fun x => write_covariances o items f (dset "runtime_covariance" x d))
        else bind (write_cov_matrix o value name f) (fun f => write_covariances o items f d)
    end.

  (** [gof_settings[k]] as a condition *)
  Definition gof_flag (o : fmodule) (k : string) : result bool :=
    bind (lookup k (w_gof_settings (k_settings o))) (fun v => match v with Some b => Ok b | None => Ok true end).

  (** Numbers of the goodness of fit (l.400-415): key in the result, key in the
      results of the module *)
  Definition gof_numbers : list (string * string) :=
    [("goodness_of_fit_1sided", "event_p_value_1sided"); ("goodness_of_fit_2sided", "event_p_value_2sided");
     ("goodness_loss_sample_min", "loss_sample_min"); ("goodness_loss_sample_max", "loss_sample_max");
     ("goodness_loss_sample_mean", "loss_sample_mean"); ("goodness_loss_sample_median", "loss_sample_median");
     ("goodness_loss_sample_std", "loss_sample_std"); ("goodness_loss_data_fit", "loss_data_fit")]%string.
  Fixpoint write_numbers (l : list (string * string)) (results : dict (dict fval)) (m : string) (d : dict R) : result (dict R) :=
    match l with
    | [] => Ok d
    | (k, k') :: l =>
        bind (bind (entry results m k') to_float) (fun x => write_numbers l results m (dset k x d))
    end.

  (** The map of DOMs (l.437-441) *)
  Definition dom_map (f : nat -> nat -> R) : list ((nat * nat) * R) :=
    flat_map (fun s => map (fun om => ((s + 1, om + 1)%nat, f s om)) (seq 0 60)) (seq 0 86).

  Definition as_vec (v : fval) : result (list R) := match v with VVec v => Ok v | _ => Err TypeError end.
  Definition as_doms (v : fval) : result (nat -> nat -> R) := match v with VDoms f => Ok f | _ => Err TypeError end.

  (** l.399-445 *)
  Definition write_goodness (o : fmodule) (results : dict (dict fval)) (f : frame) (d : dict R) : result (frame * dict R) :=
    bind (write_numbers gof_numbers results "GoodnessOfFit" d) (fun d =>
    bind (gof_flag o "reconstruct_samples") (fun samples =>
    bind (if samples then
            bind (entry results "GoodnessOfFit" "sample_reco_cov") (fun cov =>
            bind (write_cov_matrix o cov "goodness_of_fit" f) (fun f =>
            bind (bind (entry results "GoodnessOfFit" "sample_reco_bias") as_vec) (fun bias =>
            bind (write_vector (fun n => (n ++ "_sample_reco_bias")%string) (n_names (k_manager o)) bias d) (fun d =>
            Ok (f, d)))))
          else Ok (f, d)) (fun '(f, d) =>
    bind (gof_flag o "add_per_dom_calculation") (fun doms =>
    if doms then
      bind (bind (entry results "GoodnessOfFit" "dom_p_value1") as_doms) (fun p1 =>
      bind (bind (entry results "GoodnessOfFit" "dom_p_value2") as_doms) (fun p2 =>
      bind (put (w_output (k_settings o) ++ "_GoodnessOfFit_1sided")%string (ODoms (dom_map p1)) f) (fun f =>
      bind (put (w_output (k_settings o) ++ "_GoodnessOfFit_2sided")%string (ODoms (dom_map p2)) f) (fun f =>
      Ok (f, d)))))
    else Ok (f, d))))).

  (** The batch of a frame: number of events and data *)
  Variable get_data : frame -> result (nat * nat).

  (** [Physics] (l.333-459): the frame that is pushed *)
  Definition physics (o : fmodule) (f : frame) : result frame :=
    let s := k_settings o in
    bind (get_data f) (fun '(n, data) =>
    if negb (Nat.eqb n 1) then Err AssertionError
    else
      bind (execute fval nat Datatypes.unit Datatypes.unit (fun k => VNum (clock k)) (k_tray o) data) (fun results =>
      bind (entry results "reco" "result") (fun v =>
      bind (match v with VRows (r :: _) => Ok r | VRows [] => Err IndexError | _ => Err TypeError end) (fun best_fit =>
      bind (entry results "reco" "result_object") (fun obj =>
      bind (write_vector (fun n => n) (n_names (k_manager o)) best_fit []) (fun d =>
      bind (write_runtimes (t_names _ _ _ _ (k_tray o)) results d) (fun d =>
      bind (match obj with VObj (Some b) => Ok b | _ => Err AttributeError end) (fun success =>
      let d := dset "minimization_success" (if success then 1 else 0) d in
      bind (bind (entry results "reco" "loss_reco") to_float) (fun loss_reco =>
      let d := dset "loss_reco" loss_reco d in
      bind (bind (entry results "reco" "loss_seed") to_float) (fun loss_seed =>
      let d := dset "loss_seed" loss_seed d in
      bind (match n_mapping (k_manager o) with
            | Some ((_ :: _) as m) =>
                bind (fill_particle m m d (mk_i3particle None None None None [])) (fun p => Ok (Some p))
            | _ => Ok None
            end) (fun particle =>
      bind (if w_cov s then bind (lookup "covariance" results) (fun items => write_covariances o items f d)
            else Ok (f, d)) (fun '(f, d) =>
      bind (if w_gof s then write_goodness o results f d else Ok (f, d)) (fun '(f, d) =>
      bind (if w_circ s then
              write_numbers [("circular_unc", "circular_unc"); ("runtime_circular_err", "runtime")]%string
                results "CircularizedAngularUncertainty" d
            else Ok d) (fun d =>
      bind (put (w_output s) (OMap d) f) (fun f =>
      match particle with
      | None => Ok f
      | Some p => put (w_output s ++ "_I3Particle")%string (OParticle p) f
      end))))))))))))))).
End Frame.
