(** Model of the functions that build and load the parts of the framework
    (/repo/egenerator/utils/build_components.py l.19-239,
    /repo/egenerator/utils/configurator.py l.11-189) and of the parts of the model
    manager they use (/repo/egenerator/manager/base.py l.23-183).

    Simplifications: settings of TensorFlow (seeds, threads, devices) are left out;
    a class that cannot be imported gives [AttributeError]; nested dictionaries of
    settings are not shared between two places of a configuration.  Components are
    those of [M_Component]; their [_load] does nothing. *)
From Verif Require Import Py PyStr M_Config M_Component M_Train.

(** [settings[key]] *)
Definition vget (v : value) (key : string) : result value :=
  match v with
  | VDict d => match dget key d with Some x => Ok x | None => Err KeyError end
  | _ => Err TypeError
  end.

(** [key in settings] *)
Definition vmem (v : value) (key : string) : result bool :=
  match v with VDict d => Ok (dmem key d) | _ => Err TypeError end.

(** [dict(settings)] *)
Definition vdict (v : value) : result (dict value) :=
  match v with VDict d => Ok d | _ => Err TypeError end.

(** A setting as keyword argument of [configure] *)
Definition arg_of (v : value) : arg :=
  match v with
  | VDict d => ADict (map (fun kv => (fst kv, IVal (snd kv))) d)
  | VList l => ASeq false (map IVal l)
  | VTuple l => ASeq true (map IVal l)
  | _ => AScalar v
  end.

Definition keywords (d : dict value) : dict arg := map (fun kv => (fst kv, arg_of (snd kv))) d.

Definition multi_class : string := "egenerator.loss.multi_loss.MultiLossModule".
Definition trafo_class : string := "egenerator.data.trafo.DataTransformer".
Definition seed_class : string := "egenerator.data.modules.misc.seed_loader.SeedLoaderMiscModule".

(** The components among the elements of a list *)
Definition item_components (l : list item) : result (list component) :=
  fold_right (fun i r => bind r (fun cs => match i with IComp c => Ok (c :: cs) | IVal _ => Err AttributeError end)) (Ok []) l.

Section Build.
(** Parameters of [M_Component.load] *)
Variable rv : string.
Variable known_class : string -> bool.
Variable kind_of : string -> kind.
Variable rebuild_tensors : dict value -> result value.
Variable fuel : nat.
Variable fs : fsys.
(** The parts of a directory name *)
Variable parts : string -> path.
(** The git state and the like that a new [Configuration] records *)
Variable git : value.
(** [_configure] of the classes that are neither managers nor sums of losses *)
Variable hook_of : string -> hook.
(** [model.parameter_names] *)
Variable names_of : component -> list string.
(** [SetupManager([os.path.join(dir, 'reco_config.yaml')]).get_config()] *)
Variable read : string -> result (dict value).

(** [misc.load_class] (misc.py l.5-28) *)
Definition load_class (v : value) : result string :=
  match v with
  | VStr s => if known_class s then Ok s else Err AttributeError
  | _ => Err AttributeError
  end.

(** ['prefix.{}'.format(name)] and [misc.load_class] of it *)
Definition load_class_in (prefix : string) (v : value) : result string :=
  match v with VStr s => load_class (VStr (prefix ++ s)%string) | _ => Err AttributeError end.

(** [Configuration(class_string=..., settings=...)] *)
Definition new_configuration (cls : string) (settings : dict value) : result conf :=
  configuration_init rv (mkConfig rv git cls [] settings [] [] [] []).

(** [MultiLossModule._configure] (loss/multi_loss.py l.30-79) *)
Definition multi_hook (kw : dict arg) : result hook_out :=
  match dget "loss_modules" kw with
  | Some (ASeq _ l) =>
      bind (item_components l) (fun cs =>
      bind (new_configuration multi_class []) (fun cf =>
      Ok (mkHook cf (VDict []) (HDict (dupdate [] (combine (map (fun i => ("loss_modules_" ++ fmt04 i)%string) (seq 0 (length cs))) cs))) [])))
  | _ => Err TypeError
  end.

(** [_check_model_ensemble_compatibility] (manager/base.py l.136-183) for the
    models after the first *)
Fixpoint ensemble_check (names : list string) (trafo : component) (models : list component) : option exn :=
  match models with
  | [] => None
  | m :: rest =>
      if negb (list_eqb String.eqb names (names_of m)) then Some ValueError
      else match dget "data_trafo" (k_subs m) with
           | None => Some AttributeError
           | Some t =>
               match conf_dict trafo, conf_dict t with
               | Ok c0, Ok c1 =>
                   match is_compatible rv c0 c1 with
                   | Err e => Some e
                   | Ok false => Some ValueError
                   | Ok true =>
                       match k_data trafo, k_data t with
                       | VDict d0, VDict d1 =>
                           if negb (same_names (dkeys d0) (dkeys d1)) then Some ValueError
                           else if forallb (fun k => match dget k d0, dget k d1 with
                                                     | Some a, Some b => veqb a b
                                                     | _, _ => false
                                                     end) (dkeys d0)
                           then ensemble_check names trafo rest else Some ValueError
                       | _, _ => Some AttributeError
                       end
                   end
               | Err e, _ => Some e
               | _, Err e => Some e
               end
           end
  end.

Definition check_models (models : list component) : option exn :=
  match models with
  | [] => Some IndexError
  | m :: _ => match dget "data_trafo" (k_subs m) with
              | None => Some AttributeError
              | Some t => ensemble_check (names_of m) t models
              end
  end.

(** [BaseModelManager._configure] (manager/base.py l.67-134) *)
Definition manager_hook (cls : string) (kw : dict arg) : result hook_out :=
  match dget "config" kw, dget "data_handler" kw, dget "models" kw with
  | Some config, Some (AComp h), Some (ASeq _ l) =>
      bind (item_components l) (fun models =>
      let subs := sub_components h models in
      match manager_check rv subs subs with
      | Some e => Err e
      | None =>
          match check_models models with
          | Some e => Err e
          | None =>
              match arg_value config with
              | None => Err TypeError
              | Some v => bind (new_configuration cls [("config", v)]) (fun cf => Ok (mkHook cf (VDict []) (HDict subs) []))
              end
          end
      end)
  | _, _, _ => Err TypeError
  end.

Definition class_hook (cls : string) : hook :=
  match kind_of cls with
  | KManager => manager_hook cls
  | _ => if String.eqb cls multi_class then multi_hook else hook_of cls
  end.

(** [Class()] and [configure] *)
Definition make (cls : string) (kw : dict arg) : result component :=
  let (c, e) := configure (class_hook cls) kw (new_component cls) in
  match e with None => Ok c | Some e => Err e end.

(** [Class()] and [load]; the caller's dictionary of replacements afterwards *)
Definition load_with (cls dir : string) (m : mods) : result (component * mods) :=
  let '(c, e, m') := load rv known_class kind_of rebuild_tensors fuel fs (new_component cls) (parts dir) m in
  match e with None => Ok (c, m') | Some e => Err e end.

Definition load_at (cls : string) (dir : value) : result component :=
  match dir with
  | VStr s => bind (load_with cls s []) (fun cm => Ok (fst cm))
  | _ => Err TypeError
  end.

(** [build_data_handler] (l.19-37) *)
Definition build_data_handler (config : value) : result component :=
  bind (vget config "data_handler_settings") (fun s =>
  bind (vget s "data_handler") (fun name =>
  bind (load_class_in "egenerator.data.handler." name) (fun cls =>
  make cls [("config", arg_of s)]))).

(** One loss module (l.58-60, l.66-68) *)
Definition build_loss (s : value) : result component :=
  bind (vget s "loss_module") (fun name =>
  bind (load_class name) (fun cls =>
  bind (vget s "config") (fun config =>
  make cls [("config", arg_of config)]))).

Fixpoint build_losses (l : list value) : result (list component) :=
  match l with
  | [] => Ok []
  | s :: rest => bind (build_loss s) (fun c => bind (build_losses rest) (fun cs => Ok (c :: cs)))
  end.

(** [build_loss_module] (l.40-75) *)
Definition build_loss_module (config : value) : result component :=
  bind (vget config "loss_module_settings") (fun s =>
  match s with
  | VDict _ => build_loss s
  | VList l | VTuple l =>
      bind (build_losses l) (fun cs => make multi_class [("loss_modules", ASeq false (map IComp cs))])
  | VStr EmptyString => make multi_class [("loss_modules", ASeq false [])]
  | _ => Err TypeError
  end).

(** One source of a model of several sources (l.112-139) *)
Definition build_base (trafo : component) (allow_rebuild : bool) (s : value) : result component :=
  bind (vget s "model_class") (fun name =>
  bind (load_class name) (fun cls =>
  bind (vmem s "load_dir") (fun given =>
  bind (if given then vget s "load_dir" else Ok VNone) (fun dir =>
  match dir with
  | VNone =>
      if negb allow_rebuild then Err ValueError
      else
        bind (vmem s "data_trafo_settings") (fun own =>
        bind (if own then bind (vget s "data_trafo_settings") (fun t => bind (vget t "model_dir") (load_at trafo_class))
              else Ok trafo) (fun data_trafo =>
        bind (vget s "config") (fun config =>
        make cls [("config", arg_of config); ("data_trafo", AComp data_trafo)])))
  | _ => load_at cls dir
  end)))).

Fixpoint build_bases (trafo : component) (allow_rebuild : bool) (l : dict value) : result (dict component) :=
  match l with
  | [] => Ok []
  | (name, s) :: rest =>
      bind (build_base trafo allow_rebuild s) (fun c =>
      bind (build_bases trafo allow_rebuild rest) (fun cs => Ok ((name, c) :: cs)))
  end.

(** [build_model] (l.78-150) *)
Definition build_model (config : value) (trafo : component) (allow_rebuild : bool) : result component :=
  bind (vget config "model_settings") (fun s =>
  bind (vmem s "multi_source_bases") (fun several =>
  bind (if several
        then bind (vget s "multi_source_bases") (fun b =>
             match b with VDict l => build_bases trafo allow_rebuild l | _ => Err AttributeError end)
        else Ok []) (fun bases =>
  bind (vget s "model_class") (fun name =>
  bind (load_class name) (fun cls =>
  bind (vget s "config") (fun c =>
  make cls ([("config", arg_of c); ("data_trafo", AComp trafo)]
            ++ match bases with
               | [] => []
               | _ => [("base_sources", ADict (map (fun kv => (fst kv, IComp (snd kv))) bases))]
               end))))))).

(** Properties [models], [data_handler] and [data_trafo] of a manager
    (manager/base.py l.23-54) *)
Definition models_held (m : component) : option (list component) := models_of (k_subs m).
Definition handler_held (m : component) : option component := dget "data_handler" (k_subs m).
Definition trafo_held (m : component) : option component :=
  match models_held m with
  | Some (x :: _) => dget "data_trafo" (k_subs x)
  | _ => None
  end.

(** [build_manager] (l.153-239) *)
Definition build_manager (config : value) (restore : bool) (data_handler data_transformer : option component)
    (models : option (list component)) (m : mods) (allow_rebuild : bool) : result (component * mods) :=
  bind (vget config "model_manager_settings") (fun s =>
  bind (vget s "config") (fun c =>
  bind (vget c "manager_dir") (fun dir =>
  bind (vget s "model_manager_class") (fun name =>
  bind (load_class name) (fun cls =>
  if restore
  then match dir with VStr d => load_with cls d m | _ => Err TypeError end
  else
    bind (match data_handler with Some h => Ok h | None => build_data_handler config end) (fun h =>
    bind (match data_transformer with
          | Some t => Ok t
          | None => bind (vget config "data_trafo_settings") (fun t => bind (vget t "model_dir") (load_at trafo_class))
          end) (fun t =>
    bind (match models with
          | Some l => Ok l
          | None => bind (build_model config t allow_rebuild) (fun x => Ok [x])
          end) (fun l =>
    bind (make cls [("config", arg_of c); ("data_handler", AComp h); ("models", ASeq false (map IComp l))]) (fun mg =>
    Ok (mg, m)))))))))).

(** ** The configurator *)

(** The argument [manager_dirs] *)
Inductive dirs := OneDir (d : string) | DirList (l : list string).

(** [module.configure(config_data=None, **settings)] *)
Definition make_module (cls : string) (settings : dict value) : result component :=
  if dmem "config_data" settings then Err TypeError
  else make cls (("config_data", AScalar VNone) :: keywords settings).

(** The module for seeds, if the stored one is not to be used (l.88-110) *)
Definition misc_replacement (config : dict value) (updates : dict value) : result (option component) :=
  bind (vget (VDict config) "reconstruction_settings") (fun r =>
  match dget "seed_names" updates with
  | Some names =>
      if veqb names (VList [VStr "x_parameters"]) then Ok None
      else
        bind (vget r "seed") (fun seed =>
        bind (vget r "seed_parameter_names") (fun pars =>
        bind (vget r "seed_float_precision") (fun prec =>
        bind (vget r "seed_missing_value") (fun miss =>
        bind (vget r "seed_missing_value_dict") (fun missd =>
        bind (make_module seed_class
          (dupdate [("seed_names", VList [seed]); ("seed_parameter_names", pars); ("float_precision", prec);
                    ("missing_value", miss); ("missing_value_dict", missd)] updates)) (fun c => Ok (Some c)))))))
  | None => Ok None
  end).

(** [self.config['data_handler_settings'][key].update(updates)]: the settings and
    the configuration afterwards.  The copy of l.119 and l.138 is shallow. *)
Definition update_settings (config : dict value) (key : string) (updates : dict value)
    : result (dict value * dict value) :=
  bind (vget (VDict config) "data_handler_settings") (fun h =>
  bind (vdict h) (fun hd =>
  bind (vget h key) (fun s =>
  match s with
  | VDict sd =>
      let new := dupdate sd updates in
      Ok (new, dset "data_handler_settings" (VDict (dset key (VDict new) hd)) config)
  | _ => Err AttributeError
  end))).

(** The module for labels (l.112-127) *)
Definition label_replacement (config : dict value) (load_labels : bool) (updates : dict value)
    : result (option component * dict value) :=
  if negb load_labels then
    bind (load_class_in "egenerator.data.modules.labels." (VStr "dummy.DummyLabelModule")) (fun cls =>
    bind (make_module cls []) (fun c => Ok (Some c, config)))
  else match updates with
       | [] => Ok (None, config)
       | _ =>
           bind (update_settings config "label_settings" updates) (fun nc =>
           bind (vget (VDict config) "data_handler_settings") (fun h =>
           bind (vget h "label_module") (fun name =>
           bind (load_class_in "egenerator.data.modules.labels." name) (fun cls =>
           bind (make_module cls (fst nc)) (fun c => Ok (Some c, snd nc))))))
       end.

(** The module for data (l.137-146) *)
Definition data_replacement (config : dict value) (updates : dict value) : result (option component * dict value) :=
  match updates with
  | [] => Ok (None, config)
  | _ =>
      bind (vget (VDict config) "data_handler_settings") (fun h =>
      bind (vdict h) (fun _ =>
      bind (vget h "data_module") (fun name =>
      bind (load_class_in "egenerator.data.modules.data." name) (fun cls =>
      bind (update_settings config "data_settings" updates) (fun nc =>
      bind (make_module cls (fst nc)) (fun c => Ok (Some c, snd nc)))))))
  end.

(** The nested dictionary of replacements (l.104-110, l.129-135, l.148-154) *)
Definition replacements (misc label data : option component) : mods :=
  let add key c (m : mods) :=
    match c with
    | None => m
    | Some c => match dget "data_handler" m with
                | Some (MDict d) => dset "data_handler" (MDict (dset key (MComp c) d)) m
                | _ => dset "data_handler" (MDict [(key, MComp c)]) m
                end
    end in
  add "data_module" data (add "label_module" label (add "misc_module" misc [])).

(** [config_i['model_manager_settings']['config']['manager_dir'] = dir]
    (l.165-168) *)
Definition with_manager_dir (config : dict value) (dir : string) : result value :=
  bind (vget (VDict config) "model_manager_settings") (fun s =>
  bind (vdict s) (fun sd =>
  bind (vget s "config") (fun c =>
  bind (vdict c) (fun cd =>
  Ok (VDict (dset "model_manager_settings"
               (VDict (dset "config" (VDict (dset "manager_dir" (VStr dir) cd)) sd)) config)))))).

(** The loop over the directories (l.161-177): the models so far and the manager
    that was loaded last *)
Fixpoint load_dirs (l : list string) (m : mods) (models : list component) (last : option component)
    : result (list component * option component) :=
  match l with
  | [] => Ok (models, last)
  | dir :: rest =>
      bind (read dir) (fun config =>
      bind (with_manager_dir config dir) (fun config_i =>
      bind (build_manager config_i true None None None m false) (fun mm =>
      match models_held (fst mm) with
      | None => Err TypeError
      | Some ms => load_dirs rest (snd mm) (models ++ ms) (Some (fst mm))
      end)))
  end.

Record configured := { b_manager : component; b_loss : component; b_config : dict value }.

(** [ManagerConfigurator.__init__] (l.13-189) *)
Definition manager_configurator (manager_dirs : dirs) (reco_config_dir : option string) (load_labels : bool)
    (misc_updates label_updates data_updates : dict value) : result configured :=
  let l := match manager_dirs with OneDir d => [d] | DirList l => l end in
  bind (match reco_config_dir with
        | Some d => Ok d
        | None => match l with [] => Err IndexError | d :: _ => Ok d end
        end) (fun reco =>
  bind (read reco) (fun config0 =>
  bind (vget (VDict config0) "data_handler_settings") (fun _ =>
  bind (build_loss_module (VDict config0)) (fun loss =>
  bind (misc_replacement config0 misc_updates) (fun misc =>
  bind (label_replacement config0 load_labels label_updates) (fun lc =>
  bind (data_replacement (snd lc) data_updates) (fun dc =>
  bind (load_dirs l (replacements misc (fst lc) (fst dc)) [] None) (fun ml =>
  match snd ml with
  | None => Err UnboundLocalError
  | Some last =>
      bind (build_manager (VDict (snd dc)) false (handler_held last) (trafo_held last) (Some (fst ml)) [] false) (fun mg =>
      Ok {| b_manager := fst mg; b_loss := loss; b_config := snd dc |})
  end)))))))).
End Build.
