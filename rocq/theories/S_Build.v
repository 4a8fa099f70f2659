(** Specification vocabulary for the building of components (C134-C138). *)
From Verif Require Import Py PyStr M_Config M_Component S_Component.

(** What is found by following keys through nested dictionaries *)
Fixpoint found (v : value) (keys : list string) : option value :=
  match keys with
  | [] => Some v
  | k :: ks => match v with
               | VDict d => match dget k d with Some x => found x ks | None => None end
               | _ => None
               end
  end.

(** The settings of [base] where [over] does not give another value *)
Definition override (over base : string -> option value) (k : string) : option value :=
  match over k with Some v => Some v | None => base k end.

Definition settings_at (config : dict value) (keys : list string) (k : string) : option value :=
  found (VDict config) (keys ++ [k]).

(** One setting *)
Definition only (key : string) (v : value) (k : string) : option value :=
  if String.eqb k key then Some v else None.

(** [c] is a new component of class [cls] configured with exactly these keyword
    arguments, all of them plain settings *)
Definition Made (h : hook) (cls : string) (settings : string -> option value) (c : component) : Prop :=
  exists kw, configure h kw (new_component cls) = (c, None) /\
    forall k, match dget k kw with
              | Some a => exists v, HasValue a v /\ settings k = Some v
              | None => settings k = None
              end.

(** A setting as an argument: containers are passed element by element *)
Definition passed (v : value) : arg :=
  match v with
  | VDict d => ADict (map (fun kv => (fst kv, IVal (snd kv))) d)
  | VList l => ASeq false (map IVal l)
  | VTuple l => ASeq true (map IVal l)
  | VNone => AScalar VNone
  | VBool b => AScalar (VBool b)
  | VInt z => AScalar (VInt z)
  | VStr x => AScalar (VStr x)
  end.

(** [c] is a new component of class [cls] configured with the settings [config] and
    with components as the other arguments *)
Definition MadeOf (h : hook) (cls : string) (config : value) (parts : dict arg) (c : component) : Prop :=
  configure h (("config", passed config) :: parts) (new_component cls) = (c, None).

Section Spec.
Variable hooks : string -> hook.
Variable known : string -> bool.

Definition misc_class : string := "egenerator.data.modules.misc.seed_loader.SeedLoaderMiscModule".
Definition label_class (name : string) : string := ("egenerator.data.modules.labels." ++ name)%string.
Definition data_class (name : string) : string := ("egenerator.data.modules.data." ++ name)%string.

(** Settings of the module for seeds that the configuration gives *)
Definition seed_defaults (config : dict value) (k : string) : option value :=
  let r x := found (VDict config) ["reconstruction_settings"; x] in
  if String.eqb k "seed_names" then option_map (fun v => VList [v]) (r "seed")
  else if String.eqb k "seed_parameter_names" then r "seed_parameter_names"
  else if String.eqb k "float_precision" then r "seed_float_precision"
  else if String.eqb k "missing_value" then r "seed_missing_value"
  else if String.eqb k "missing_value_dict" then r "seed_missing_value_dict"
  else None.

(** The modules that take the place of stored ones *)
Definition MiscModule (config updates : dict value) (x : option component) : Prop :=
  match dget "seed_names" updates with
  | None => x = None
  | Some names =>
      if veqb names (VList [VStr "x_parameters"]) then x = None
      else exists c, x = Some c /\
        Made (hooks misc_class) misc_class
          (override (only "config_data" VNone) (override (fun k => dget k updates) (seed_defaults config))) c
  end.

Definition LabelModule (config : dict value) (load_labels : bool) (updates : dict value) (x : option component) : Prop :=
  match load_labels, updates with
  | false, _ => exists c, x = Some c /\
      Made (hooks (label_class "dummy.DummyLabelModule")) (label_class "dummy.DummyLabelModule") (only "config_data" VNone) c
  | true, [] => x = None
  | true, _ => exists c name, x = Some c /\
      found (VDict config) ["data_handler_settings"; "label_module"] = Some (VStr name) /\
      Made (hooks (label_class name)) (label_class name)
        (override (only "config_data" VNone)
           (override (fun k => dget k updates) (settings_at config ["data_handler_settings"; "label_settings"]))) c
  end.

Definition DataModule (config updates : dict value) (x : option component) : Prop :=
  match updates with
  | [] => x = None
  | _ => exists c name, x = Some c /\
      found (VDict config) ["data_handler_settings"; "data_module"] = Some (VStr name) /\
      Made (hooks (data_class name)) (data_class name)
        (override (only "config_data" VNone)
           (override (fun k => dget k updates) (settings_at config ["data_handler_settings"; "data_settings"]))) c
  end.

(** The replacements that ask for these modules of the data handler *)
Definition requested (misc label data : option component) : dict modification :=
  (match misc with Some c => [("misc_module", MComp c)] | None => [] end
   ++ match label with Some c => [("label_module", MComp c)] | None => [] end
   ++ match data with Some c => [("data_module", MComp c)] | None => [] end)%list.

Definition request (misc label data : option component) : mods :=
  match requested misc label data with [] => [] | d => [("data_handler", MDict d)] end.

(** A loss module described by its settings *)
Definition LossFrom (s : value) (c : component) : Prop :=
  exists cls config, found s ["loss_module"] = Some (VStr cls) /\ known cls = true /\
    found s ["config"] = Some config /\ MadeOf (hooks cls) cls config [] c.

Definition sum_class : string := "egenerator.loss.multi_loss.MultiLossModule".

Definition SumOf (cs : list component) (c : component) : Prop :=
  configure (hooks sum_class) [("loss_modules", ASeq false (map IComp cs))] (new_component sum_class) = (c, None).

(** One description gives a loss module, several give the sum of theirs *)
Definition LossOf (config : value) (c : component) : Prop :=
  exists s, found config ["loss_module_settings"] = Some s /\
    match s with
    | VDict _ => LossFrom s c
    | VList l | VTuple l => exists cs, Forall2 LossFrom l cs /\ SumOf cs c
    | VStr "" => SumOf [] c
    | _ => False
    end.

Definition HandlerOf (config : value) (c : component) : Prop :=
  exists s name, found config ["data_handler_settings"] = Some s /\ found s ["data_handler"] = Some (VStr name) /\
    known ("egenerator.data.handler." ++ name) = true /\
    MadeOf (hooks ("egenerator.data.handler." ++ name)) ("egenerator.data.handler." ++ name) s [] c.

(** Loading of a component from a path, with replacements *)
Variable load : component -> path -> mods -> component * option exn * mods.
Variable parts : string -> path.

Definition LoadedFrom (cls : string) (dir : value) (m : mods) (c : component) : Prop :=
  exists d, dir = VStr d /\ load (new_component cls) (parts d) m = (c, None, []).

Definition TrafoFrom (s : value) (t : component) : Prop :=
  exists dir, found s ["data_trafo_settings"; "model_dir"] = Some dir /\
    LoadedFrom "egenerator.data.trafo.DataTransformer" dir [] t.

(** A source of a model of several sources *)
Definition BaseFrom (trafo : component) (allow : bool) (s : value) (c : component) : Prop :=
  exists cls, found s ["model_class"] = Some (VStr cls) /\ known cls = true /\
    match found s ["load_dir"] with
    | Some VNone | None =>
        allow = true /\
        exists config t, found s ["config"] = Some config /\
          match found s ["data_trafo_settings"] with Some _ => TrafoFrom s t | None => t = trafo end /\
          MadeOf (hooks cls) cls config [("data_trafo", AComp t)] c
    | Some dir => LoadedFrom cls dir [] c
    end.

Definition ModelOf (config : value) (trafo : component) (allow : bool) (c : component) : Prop :=
  exists cls s bases, found config ["model_settings"; "model_class"] = Some (VStr cls) /\ known cls = true /\
    found config ["model_settings"; "config"] = Some s /\
    match found config ["model_settings"; "multi_source_bases"] with
    | None => bases = []
    | Some (VDict l) => Forall2 (fun described held => fst held = fst described /\
                                   BaseFrom trafo allow (snd described) (snd held)) l bases
    | Some _ => False
    end /\
    MadeOf (hooks cls) cls s
      (("data_trafo", AComp trafo)
       :: match bases with
          | [] => []
          | _ => [("base_sources", ADict (map (fun kv => (fst kv, IComp (snd kv))) bases))]
          end) c.

(** The manager a configuration describes, where the parts given are used *)
Definition ManagerOf (config : value) (handler trafo : option component) (models : option (list component))
    (allow : bool) (c : component) : Prop :=
  exists cls s dir h t l,
    found config ["model_manager_settings"; "model_manager_class"] = Some (VStr cls) /\ known cls = true /\
    found config ["model_manager_settings"; "config"] = Some s /\ found s ["manager_dir"] = Some dir /\
    match handler with Some h0 => h = h0 | None => HandlerOf config h end /\
    match trafo with Some t0 => t = t0 | None => TrafoFrom config t end /\
    match models with Some l0 => l = l0 | None => exists x, ModelOf config t allow x /\ l = [x] end /\
    MadeOf (hooks cls) cls s [("data_handler", AComp h); ("models", ASeq false (map IComp l))] c.

(** The manager that was stored in a directory, loaded with replacements *)
Variable read : string -> result (dict value).

Definition StoredIn (dir : string) (m : mods) (c : component) : Prop :=
  exists config cls, read dir = Ok config /\
    found (VDict config) ["model_manager_settings"; "model_manager_class"] = Some (VStr cls) /\ known cls = true /\
    LoadedFrom cls (VStr dir) m c.
End Spec.

(** The transformation [t] does the same as [t0] *)
Definition SameTrafo (rv : string) (t0 t : component) : Prop :=
  exists c0 c1 d0 d1, conf_dict t0 = Ok c0 /\ conf_dict t = Ok c1 /\ is_compatible rv c0 c1 = Ok true /\
    k_data t0 = VDict d0 /\ k_data t = VDict d1 /\
    (forall k, In k (dkeys d0) <-> In k (dkeys d1)) /\
    forall k, In k (dkeys d0) -> exists a b, dget k d0 = Some a /\ dget k d1 = Some b /\ veqb a b = true.

(** Models that can be used together: the first has a transformation, and all of
    them its parameters and a transformation that does the same *)
Definition Together (rv : string) (names : component -> list string) (models : list component) : Prop :=
  match models with
  | [] => False
  | m0 :: _ => exists t0, dget "data_trafo" (k_subs m0) = Some t0 /\
      forall m, In m models -> names m = names m0 /\
        exists t, dget "data_trafo" (k_subs m) = Some t /\ SameTrafo rv t0 t
  end.
