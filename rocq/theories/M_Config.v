(** Model of class [Configuration]
    (/repo/egenerator/manager/component.py, lines 17-377). *)
From Verif Require Import Py.

(** The attribute [_dict] of a [Configuration]
    (component.py l.186-202).  [sub_component_configurations] is a dictionary
    of nested [_dict]s.  The three git entries (l.188-191) are merged into one
    field [c_git]: they are only stored, never inspected. *)
Inductive config := mkConfig {
  c_version : string;                       (* event_generator_version *)
  c_git : value;                            (* git sha, origin, changes *)
  c_class : string;                         (* class_string *)
  c_check : dict value;                     (* check_values *)
  c_settings : dict value;                  (* settings *)
  c_mutable : dict value;                   (* mutable_settings *)
  c_subs : list (string * config);          (* sub_component_configurations *)
  c_dep : list string;                      (* dependent_sub_components *)
  c_mut_subs : list string                  (* mutable_sub_components *)
}.

(** A [Configuration] object: [_dict] and the derived attribute [_config]
    (component.py l.186-207). *)
Record conf := mkConf {
  co_dict : config;
  co_config : dict value                    (* _config *)
}.

(** [_check_dependent_names] (component.py l.227-241): every name must be a key
    of [sub_component_configurations]; KeyError otherwise. *)
Definition check_dependent_names (names : list string) (c : config)
  : option exn :=
  if forallb (fun n => dmem n (c_subs c)) names then None else Some KeyError.

(** [_combine_settings] (component.py l.251-274): ValueError if a key is in
    both dictionaries; otherwise [settings] updated by [mutable_settings]. *)
Definition combine_settings (c : config) : result (dict value) :=
  if existsb (fun k => dmem k (c_mutable c)) (dkeys (c_settings c))
  then Err ValueError
  else Ok (dupdate (c_settings c) (c_mutable c)).

(** [Configuration.__init__] (component.py l.117-207) applied to the fields of
    [c].  The argument [event_generator_version] is ignored in favour of the
    running version (l.187); the deep copies (l.193-201) are invisible because
    values are immutable here. *)
Definition configuration_init (running_version : string) (c : config)
  : result conf :=
  let d := mkConfig running_version (c_git c) (c_class c) (c_check c)
             (c_settings c) (c_mutable c) (c_subs c) (c_dep c) (c_mut_subs c) in
  match check_dependent_names (c_dep d) d with
  | Some e => Err e
  | None => match combine_settings d with
            | Err e => Err e
            | Ok cfg => Ok (mkConf d cfg)
            end
  end.

Definition set_mutable (m : dict value) (c : config) : config :=
  mkConfig (c_version c) (c_git c) (c_class c) (c_check c) (c_settings c) m
    (c_subs c) (c_dep c) (c_mut_subs c).

Definition set_subs (s : list (string * config)) (c : config) : config :=
  mkConfig (c_version c) (c_git c) (c_class c) (c_check c) (c_settings c)
    (c_mutable c) s (c_dep c) (c_mut_subs c).

Definition set_dep (l : list string) (c : config) : config :=
  mkConfig (c_version c) (c_git c) (c_class c) (c_check c) (c_settings c)
    (c_mutable c) (c_subs c) l (c_mut_subs c).

Definition set_mut_subs (l : list string) (c : config) : config :=
  mkConfig (c_version c) (c_git c) (c_class c) (c_check c) (c_settings c)
    (c_mutable c) (c_subs c) (c_dep c) l.

(** The loop of [update_mutable_settings] (component.py l.218-222): assigns
    entry by entry and raises KeyError at the first unknown key, keeping the
    assignments made so far. *)
Fixpoint update_loop (new : dict value) (m : dict value)
  : dict value * option exn :=
  match new with
  | [] => (m, None)
  | (k, v) :: rest =>
      if dmem k m then update_loop rest (dset k v m) else (m, Some KeyError)
  end.

(** [update_mutable_settings] (component.py l.209-225).  Returns the object
    after the call and the exception raised, if any. *)
Definition update_mutable_settings (new : dict value) (o : conf)
  : conf * option exn :=
  let (m, e) := update_loop new (c_mutable (co_dict o)) in
  let d := set_mutable m (co_dict o) in
  match e with
  | Some e => (mkConf d (co_config o), Some e)
  | None => match combine_settings d with
            | Ok cfg => (mkConf d cfg, None)
            | Err e => (mkConf d (co_config o), Some e)
            end
  end.

(** [add_dependent_sub_components] (component.py l.243-245). *)
Definition add_dependent_sub_components (names : list string) (o : conf)
  : conf * option exn :=
  match check_dependent_names names (co_dict o) with
  | Some e => (o, Some e)
  | None => (mkConf (set_dep (c_dep (co_dict o) ++ names) (co_dict o))
               (co_config o), None)
  end.

(** [add_mutable_sub_components] (component.py l.247-249). *)
Definition add_mutable_sub_components (names : list string) (o : conf)
  : conf * option exn :=
  match check_dependent_names names (co_dict o) with
  | Some e => (o, Some e)
  | None => (mkConf (set_mut_subs (c_mut_subs (co_dict o) ++ names) (co_dict o))
               (co_config o), None)
  end.

(** [Configuration.is_compatible] (component.py l.322-377).  For every pair of
    sub-components fresh [Configuration] objects are created (l.348-350), which
    may raise.  The final loop (l.360-375) only logs changed mutable settings
    and is omitted. *)
Fixpoint is_compatible (rv : string) (a b : config) {struct a} : result bool :=
  if negb (deqb (c_settings a) (c_settings b))
     || negb (deqb (c_check a) (c_check b))
     || negb (String.eqb (c_class a) (c_class b))
  then Ok false
  else if negb (same_names (dkeys (c_subs a)) (dkeys (c_subs b)))
  then Ok false
  else
    (fix go (subs : list (string * config)) : result bool :=
       match subs with
       | [] => Ok true
       | (name, sa) :: rest =>
           match configuration_init rv sa with
           | Err e => Err e
           | Ok _ =>
               match dget name (c_subs b) with
               | None => Err KeyError
               | Some sb =>
                   match configuration_init rv sb with
                   | Err e => Err e
                   | Ok _ =>
                       match is_compatible rv sa sb with
                       | Err e => Err e
                       | Ok true => go rest
                       | Ok false => if smem name (c_mut_subs a)
                                     then go rest else Ok false
                       end
                   end
               end
           end
       end) (c_subs a).
