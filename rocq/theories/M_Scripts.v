(** Model of the command line scripts
    /repo/egenerator/train_model.py (l.19-103), export_manager.py (l.26-111),
    create_trafo_model.py (l.16-67) and reconstruct_test_data.py (l.21-175): which
    files they look for, ask about, delete, read and write, and in which order.
    The parts of [BaseModelManager.train] that touch files
    (/repo/egenerator/manager/base.py l.260-328, 676-720, 844-866) are included.

    Simplifications: a directory exists if there is a file below it; there are no
    links, and no file is placed below another file; settings of TensorFlow,
    messages and the stopping of workers at the end are left out.  Everything
    that neither reads nor writes files of the scripts (building of modules and
    managers, the training loop between two savings) is an unknown function; what
    is loaded from a directory depends on the files below this directory. *)
From Verif Require Import Py PyStr M_Component M_Build M_Handler.

(** ** Files *)

(** All files with their content *)
Definition disk := list (path * string).

Fixpoint file_at (p : path) (d : disk) : option string :=
  match d with
  | [] => None
  | (q, c) :: rest => if path_eqb p q then Some c else file_at p rest
  end.

Definition is_file (p : path) (d : disk) : bool :=
  match file_at p d with Some _ => true | None => false end.

(** The rest of [q] below [p] *)
Fixpoint relative (p q : path) : option path :=
  match p, q with
  | [], _ => Some q
  | x :: p', y :: q' => if String.eqb x y then relative p' q' else None
  | _ :: _, [] => None
  end.

Definition below (p q : path) : bool :=
  match relative p q with Some _ => true | None => false end.

(** [os.path.exists(p)] *)
Definition exists_at (p : path) (d : disk) : bool := existsb (fun f => below p (fst f)) d.

(** [os.path.isdir(p)] *)
Definition is_dir (p : path) (d : disk) : bool :=
  existsb (fun f => match relative p (fst f) with Some (_ :: _) => true | _ => false end) d.

(** The files below a directory, seen from there *)
Definition tree (p : path) (d : disk) : disk :=
  flat_map (fun f => match relative p (fst f) with Some r => [(r, snd f)] | None => [] end) d.

(** [open(p, 'w')] and the like *)
Definition write (p : path) (c : string) (d : disk) : disk :=
  (p, c) :: filter (fun f => negb (path_eqb p (fst f))) d.

(** [shutil.rmtree(p)] of a directory *)
Definition remove (p : path) (d : disk) : disk := filter (fun f => negb (below p (fst f))) d.

(** ** Scripts as sequences of actions *)

(** What a user notices apart from the files *)
Inductive event :=
  | Asked (p : path)            (* click.confirm names this path *)
  | Deleted (p : path)          (* shutil.rmtree *)
  | Loaded (p : path)           (* a manager is loaded from here *)
  | Configured                  (* a manager or transformer is configured *)
  | Saved (p : path)            (* save was called with this path *)
  | Weights (p : path)          (* save_weights was called with this path *)
  | Reconstructed.              (* reconstruct_testdata was called *)

(** An action changes the files, does something noticeable, and returns or raises. *)
Definition act (A : Type) := disk -> disk * list event * result A.

Definition ret {A} (x : A) : act A := fun d => (d, [], Ok x).
Definition lift {A} (r : result A) : act A := fun d => (d, [], r).
Definition look {A} (f : disk -> result A) : act A := fun d => (d, [], f d).
Definition change (f : disk -> disk) : act unit := fun d => (f d, [], Ok tt).
Definition note (e : event) : act unit := fun d => (d, [e], Ok tt).
Definition andthen {A B} (a : act A) (f : A -> act B) : act B := fun d =>
  let '(d1, ev1, r) := a d in
  match r with
  | Err e => (d1, ev1, Err e)
  | Ok x => let '(d2, ev2, r2) := f x d1 in (d2, ev1 ++ ev2, r2)
  end.

Notation "x <~ a ;; b" := (andthen a (fun x => b)) (at level 62, a at level 61, right associativity).
Notation "a ;;; b" := (andthen a (fun _ => b)) (at level 62, right associativity).

(** [click.confirm] with the user's answer; 'Aborting!' if they decline *)
Definition confirm (answer : bool) (p : path) : act unit :=
  note (Asked p) ;;; (if answer then ret tt else lift (Err ValueError)).

(** [shutil.rmtree(p)], which refuses plain files *)
Definition rmtree (p : path) : act unit :=
  plain <~ look (fun d => Ok (is_file p d)) ;;
  if plain then lift (Err IOError) else (change (remove p) ;;; note (Deleted p)).

(** What a component writes when it is saved: for itself and its parts the two
    files of [BaseComponent.save] (component.py l.823-856), and the further files
    of [_save].  [w_dir] is the place below the directory of the component. *)
Inductive written :=
  | Part (w_dir : path) (conf data : string)
  | More (w_file : path) (content : string).

Fixpoint save_all (overwrite : bool) (p : path) (l : list written) : act unit :=
  match l with
  | [] => ret tt
  | Part q conf data :: rest =>
      let conf_file := p ++ q ++ ["configuration.yaml"] in
      let data_file := p ++ q ++ ["data.pickle"] in
      there <~ look (fun d => Ok (exists_at conf_file d || exists_at data_file d)) ;;
      if there && negb overwrite then lift (Err IOError)
      else (change (write conf_file conf) ;;; (change (write data_file data) ;;; save_all overwrite p rest))
  | More q c :: rest => change (write (p ++ q) c) ;;; save_all overwrite p rest
  end.

(** [BaseComponent.save] (component.py l.780-859) *)
Definition save_at (overwrite : bool) (p : path) (l : list written) : act unit :=
  note (Saved p) ;;; save_all overwrite (splitext_path p) l.

Section Scripts.
(** Models, data handlers, transformers, loss modules, and modules for misc data
    and labels and data *)
Variables Model Handler Trafo Loss Module : Type.

(** A model manager; [g_dir] is 'manager_dir' of the settings it was configured
    with, which a saved manager keeps (manager/base.py l.116-134). *)
Record manager := { g_models : list Model; g_handler : Handler; g_trafo : Trafo; g_dir : value }.

(** The parts of a path given as text *)
Variable parts : string -> path.
(** [SetupManager.get_config] (setup_manager.py l.51-130) for names and contents
    of the files *)
Variable parse : list (path * string) -> result value.
(** [build_loss_module(config)] *)
Variable make_loss : value -> result Loss.
(** the evaluation module from its settings (l.49-53) *)
Variable make_evaluation : value -> result Module.
(** [build_manager(config, restore=True, modified_sub_components=...)]: settings of
    the manager, replaced modules, files below the directory *)
Variable load_manager : value -> list (string * Module) -> disk -> result manager.
(** [build_manager(config, restore=False)]; reads the transformer and parts of
    models from files *)
Variable new_manager : value -> disk -> result manager.
(** [build_manager(config, restore=False, models=..., data_handler=...,
    data_transformer=...)]: only the settings of the manager are used
    (build_components.py l.183-237) *)
Variable combine : value -> list Model -> Handler -> Trafo -> result manager.
(** What the manager writes when it is saved *)
Variable files_of : manager -> list written.
(** Where, below the directory of the manager, its models keep weights *)
Variable weight_dirs : manager -> list path.
(** What [save] writes in addition at the start of a training
    (/repo/egenerator/model/base.py l.528-533) for these settings *)
Variable training_files : manager -> value -> Loss -> option Module -> list written.
(** The training loop (manager/base.py l.722-866): the number of times it saves
    weights, and the exception it ends with, if any *)
Variable loop : manager -> value -> Loss -> option Module -> nat * option exn.
(** Contents of the files written by [save_weights] and by the summary writers *)
Variables steps_content weights_content log_content : string.

(** A setting used as path *)
Definition as_path (v : value) : result path :=
  match v with VStr s => Ok (parts s) | _ => Err TypeError end.

(** [open(file)] of all files, [get_config()]; no file at all is refused
    (setup_manager.py l.72-73) *)
Fixpoint read_files (files : list path) (d : disk) : result (list (path * string)) :=
  match files with
  | [] => Ok []
  | f :: rest => match file_at f d with
                 | None => Err IOError
                 | Some c => bind (read_files rest d) (fun l => Ok ((f, c) :: l))
                 end
  end.

Definition get_config (files : list path) (d : disk) : result value :=
  match files with
  | [] => Err ValueError
  | _ => bind (read_files files d) parse
  end.

(** ** train_model.py *)

(** The evaluation module (l.45-55) *)
Definition evaluation (config : value) : result (option Module) :=
  bind (vmem config "evaluation_module_settings") (fun there =>
  if there then
    bind (vget config "evaluation_module_settings") (fun s =>
    bind (vget s "evaluation_module") (fun name =>
    match name with
    | VNone => Ok None
    | _ => bind (make_evaluation s) (fun m => Ok (Some m))
    end))
  else Ok None).

(** 'manager_dir' and 'restore_model' of the settings (l.60-63); the path is used
    in l.64 and l.76 only after 'restore_model' was looked up *)
Definition manager_settings (config : value) : result (value * value * bool) :=
  bind (vget config "model_manager_settings") (fun s =>
  bind (vget s "config") (fun c =>
  bind (vget c "manager_dir") (fun dir =>
  bind (vget s "restore_model") (fun restore =>
  Ok (s, dir, truthy restore))))).

(** Restoring or starting from scratch (l.63-86) *)
Definition decide (answer : bool) (p : path) (restore_model : bool) : act bool :=
  there <~ look (fun d => Ok (exists_at (p ++ ["configuration.yaml"]) d)) ;;
  if restore_model then ret there
  else if there then confirm answer p ;;; (rmtree p ;;; ret false)
  else ret false.

(** [build_manager] (l.89-90, build_components.py l.183-189) *)
Definition load_or_build (config settings : value) (p : path) (restore : bool) : act manager :=
  if restore
  then note (Loaded p) ;;; look (fun d => load_manager settings [] (tree (splitext_path p) d))
  else m <~ look (new_manager config) ;; (note Configured ;;; ret m).

(** [Model.save_weights] of all models (manager/base.py l.318-328); the number of
    steps is recorded in a file that must exist (model/base.py l.391-411) *)
Fixpoint save_weights_in (p : path) (dirs : list path) : act unit :=
  match dirs with
  | [] => ret tt
  | w :: rest =>
      let steps := p ++ w ++ ["training"; "training_steps.yaml"] in
      there <~ look (fun d => Ok (exists_at steps d)) ;;
      if there
      then change (write steps steps_content) ;;;
           (change (write (p ++ w ++ ["model_checkpoint.yaml"]) weights_content) ;;; save_weights_in p rest)
      else lift (Err IOError)
  end.

Fixpoint repeated (n : nat) (a : act unit) : act unit :=
  match n with 0 => ret tt | S k => a ;;; repeated k a end.

(** [BaseModelManager.train] (manager/base.py l.676-866) as far as files are
    concerned *)
Definition train (m : manager) (config : value) (loss : Loss) (ev : option Module) : act unit :=
  p <~ lift (as_path (g_dir m)) ;;
  (save_at true p (files_of m ++ training_files m config loss ev) ;;;
  (change (write (p ++ ["logs"; "training"; "events"]) log_content) ;;;
  (change (write (p ++ ["logs"; "validation"; "events"]) log_content) ;;;
  (change (write (p ++ ["logs"; "evaluation"; "events"]) log_content) ;;;
  (let '(n, e) := loop m config loss ev in
   repeated n (note (Weights p) ;;; save_weights_in p (weight_dirs m)) ;;;
   lift (match e with None => Ok tt | Some e => Err e end)))))).

(** [train_model.main] (l.19-103) *)
Definition train_model (answer : bool) (files : list path) : act unit :=
  config <~ look (get_config files) ;;
  (loss <~ lift (make_loss config) ;;
  (ev <~ lift (evaluation config) ;;
  (s <~ lift (manager_settings config) ;;
  (let '(settings, dir, restore_model) := s in
   p <~ lift (as_path dir) ;;
   restore <~ decide answer p restore_model ;;
   (m <~ load_or_build config settings p restore ;;
   (_ <~ lift (bind (vget config "training_settings") (fun t => vget t "num_training_iterations")) ;;
    train m config loss ev)))))).

(** ** export_manager.py and reconstruct_test_data.py *)

(** The directory a config file names for its manager *)
Definition load_one (mods : list (string * Module)) (file : path) : act manager :=
  config <~ look (get_config [file]) ;;
  (sp <~ lift (bind (vget config "model_manager_settings") (fun s =>
               bind (vget s "config") (fun c =>
               bind (vget c "manager_dir") (fun dir =>
               bind (as_path dir) (fun p => Ok (s, p)))))) ;;
  (note (Loaded (snd sp)) ;;;
   look (fun d => load_manager (fst sp) mods (tree (splitext_path (snd sp)) d)))).

(** The loop over the config files (export_manager.py l.78-88,
    reconstruct_test_data.py l.150-160): the models so far, and the data handler
    and the transformer of the last manager *)
Fixpoint load_each (mods : list (string * Module)) (files : list path) (models : list Model)
    (last : option (Handler * Trafo)) : act (list Model * option (Handler * Trafo)) :=
  match files with
  | [] => ret (models, last)
  | f :: rest => m <~ load_one mods f ;; load_each mods rest (models ++ g_models m) (Some (g_handler m, g_trafo m))
  end.

(** Building the joint manager (export_manager.py l.91-97,
    reconstruct_test_data.py l.163-169); names without a value if there was no
    config file *)
Definition build_joint (config : value) (ml : list Model * option (Handler * Trafo)) : act manager :=
  match snd ml with
  | None => lift (Err UnboundLocalError)
  | Some (h, t) =>
      s <~ lift (vget config "model_manager_settings") ;;
      (m <~ lift (combine s (fst ml) h t) ;; (note Configured ;;; ret m))
  end.

(** [reco_config_file] (export_manager.py l.54-57, reconstruct_test_data.py
    l.39-42) *)
Definition reco_file (files : list path) (reco : option path) : result path :=
  match reco with
  | Some f => Ok f
  | None => match files with [] => Err IndexError | f :: _ => Ok f end
  end.

(** [shutil.copy(src, dst)] into the directory [p] *)
Definition copy_into (src p : path) (name : string) : act unit :=
  c <~ look (fun d => match file_at src d with None => Err IOError | Some c => Ok c end) ;;
  (there <~ look (fun d => Ok (is_dir p d)) ;;
   if there then change (write (p ++ [name]) c) else lift (Err IOError)).

(** [export_manager.main] (l.26-111); [output_dir] has no default *)
Definition export_manager (answer : bool) (files : list path) (output : option path) (reco : option path) : act unit :=
  match output with
  | None => lift (Err TypeError)
  | Some out =>
      there <~ look (fun d => Ok (exists_at out d)) ;;
      ((if there then confirm answer out ;;; rmtree out else ret tt) ;;;
      (rf <~ lift (reco_file files reco) ;;
      (config <~ look (get_config [rf]) ;;
      (_ <~ lift (make_loss config) ;;
      (ml <~ load_each [] files [] None ;;
      (m <~ build_joint config ml ;;
      (save_at false out (files_of m) ;;; copy_into rf out "reco_config.yaml")))))))
  end.

(** ** create_trafo_model.py *)

(** [data_handler.configure] and [data_transformer.configure] (l.42-55): what the
    transformer writes when it is saved *)
Variable make_trafo : value -> result (list written).

(** [create_trafo_model.main] (l.16-67) *)
Definition create_trafo_model (answer : bool) (files : list path) : act unit :=
  config <~ look (get_config files) ;;
  (dir <~ lift (bind (vget config "data_trafo_settings") (fun s => bind (vget s "model_dir") as_path)) ;;
  (there <~ look (fun d => Ok (exists_at (splitext_path dir) d)) ;;
  ((if there then confirm answer (splitext_path dir) else ret tt) ;;;
  (l <~ lift (make_trafo config) ;;
  (note Configured ;;;
   save_at true dir l))))).

(** ** reconstruct_test_data.py *)

(** [SeedLoaderMiscModule().configure(...)] for the names of seeds and the
    settings of the reconstruction (l.75-83) *)
Variable make_seed : list value -> value -> result Module.
(** label and data modules from their settings (l.92-98, l.109-114) *)
Variables make_label make_data : value -> result Module.
(** [manager.reconstruct_testdata(config, loss_module)] *)
Variable reconstruct : manager -> value -> Loss -> result unit.

(** [[reco_config['seed']]] or the list itself, without 'x_parameters' (l.62-68);
    iterating over a dictionary gives its keys *)
Definition seed_names (seed : value) : result (list value) :=
  bind (match seed with
        | VStr _ => Ok [seed]
        | VList l | VTuple l => Ok l
        | VDict kv => Ok (map (fun x => VStr (fst x)) kv)
        | _ => Err TypeError
        end) (fun l => Ok (filter (fun v => negb (veqb v (VStr "x_parameters"))) l)).

(** The modules to be replaced (l.61-122) *)
Definition replaced (reco : value) : result (list value * list (string * Module)) :=
  bind (vget reco "seed") (fun seed =>
  bind (seed_names seed) (fun names =>
  bind (match names with
        | [] => Ok []
        | _ => bind (make_seed names reco) (fun m => Ok [("misc_module", m)])
        end) (fun misc =>
  bind (vmem reco "modified_label_module") (fun label =>
  bind (if label then bind (vget reco "modified_label_module") (fun s =>
                      bind (make_label s) (fun m => Ok [("label_module", m)]))
        else Ok []) (fun labels =>
  bind (vmem reco "modified_data_module") (fun data =>
  bind (if data then bind (vget reco "modified_data_module") (fun s =>
                     bind (make_data s) (fun m => Ok [("data_module", m)]))
        else Ok []) (fun datas =>
  Ok (names, misc ++ labels ++ datas)))))))).

(** The check for a saved model, or the changed settings of the data handler
    (l.127-147) *)
Definition check_saved (config : value) (names : list value) : act value :=
  sp <~ lift (manager_settings config) ;;
  (let '(_, dir, restore_model) := sp in
   if restore_model then
     p <~ lift (as_path dir) ;;
     (there <~ look (fun d => Ok (exists_at (p ++ ["configuration.yaml"]) d)) ;;
      if there then ret config else lift (Err ValueError))
   else match names with
        | [] => ret config
        | _ => lift (
            bind (vget config "data_handler_settings") (fun h =>
            bind (vdict h) (fun hd =>
            bind (vget config "reconstruction_settings") (fun reco =>
            bind (vget reco "seed_parameter_names") (fun pars =>
            bind (vget reco "seed_float_precision") (fun prec =>
            bind (vget reco "seed_missing_value") (fun miss =>
            bind (vdict config) (fun cd =>
            Ok (VDict (dset "data_handler_settings"
                  (VDict (dset "misc_settings"
                    (VDict [("seed_names", VList names); ("seed_parameter_names", pars);
                            ("float_precision", prec); ("missing_value", miss)])
                    (dset "misc_module" (VStr "seed_loader.SeedLoaderMiscModule") hd))) cd))))))))))
        end).

(** [reconstruct_test_data.main] (l.21-175) *)
Definition reconstruct_test_data (files : list path) (reco : option path) : act unit :=
  rf <~ lift (reco_file files reco) ;;
  (config <~ look (get_config [rf]) ;;
  (loss <~ lift (make_loss config) ;;
  (nm <~ lift (bind (vget config "reconstruction_settings") replaced) ;;
  (config' <~ check_saved config (fst nm) ;;
  (ml <~ load_each (snd nm) files [] None ;;
  (m <~ build_joint config' ml ;;
  (note Reconstructed ;;; lift (reconstruct m config' loss)))))))).
End Scripts.
