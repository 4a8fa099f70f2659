(** Model of class [BaseComponent]
    (/repo/egenerator/manager/component.py, lines 380-1063): configure, save,
    load, and the two overrides of [_update_sub_components]. *)
From Verif Require Import Py PyStr M_Config.

(** A component object (component.py l.497-511).
    [k_class]: the full class string of its Python type (misc.py l.31-60);
    [k_untracked]: the attribute names reported by
    [_get_untracked_member_attributes] (l.513-561).
    [_untracked_data] is never saved or compared and is omitted. *)
Inductive component := mkComp {
  k_class : string;
  k_untracked : list string;
  k_configured : bool;                      (* _is_configured *)
  k_conf : option conf;                     (* _configuration *)
  k_data : value;                           (* _data *)
  k_subs : list (string * component)        (* _sub_components *)
}.

(** A freshly instantiated component, [BaseComponent.__init__] (l.497-511).
    Constructors of derived classes do not add attributes. *)
Definition new_component (cls : string) : component :=
  mkComp cls [] false None VNone [].

Definition with_conf (c : component) (cf : conf) : component :=
  mkComp (k_class c) (k_untracked c) (k_configured c) (Some cf) (k_data c) (k_subs c).
Definition with_data (c : component) (v : value) : component :=
  mkComp (k_class c) (k_untracked c) (k_configured c) (k_conf c) v (k_subs c).
Definition with_sub (c : component) (n : string) (s : component) : component :=
  mkComp (k_class c) (k_untracked c) (k_configured c) (k_conf c) (k_data c)
    (dset n s (k_subs c)).
Definition set_configured (c : component) : component :=
  mkComp (k_class c) (k_untracked c) true (k_conf c) (k_data c) (k_subs c).

(** [component.configuration.dict] (l.93-95): a deep copy, i.e. a snapshot;
    AttributeError on an unconfigured component whose configuration is None. *)
Definition conf_dict (c : component) : result config :=
  match k_conf c with Some cf => Ok (co_dict cf) | None => Err AttributeError end.

(** ** Configuration methods which take components *)

(** [Configuration.add_sub_components] (l.276-296).  The type check cannot fail
    because only components are passed.  Entries preceding the failing one stay
    recorded. *)
Fixpoint add_sub_components (subs : list (string * component)) (cf : conf)
  : conf * option exn :=
  match subs with
  | [] => (cf, None)
  | (name, c) :: rest =>
      if dmem name (c_subs (co_dict cf)) then (cf, Some KeyError)
      else if negb (k_configured c) then (cf, Some ValueError)
      else match conf_dict c with
           | Err e => (cf, Some e)
           | Ok d => add_sub_components rest
                       (mkConf (set_subs (dset name d (c_subs (co_dict cf))) (co_dict cf))
                               (co_config cf))
           end
  end.

(** [Configuration.replace_sub_components({name: c})] (l.298-320). *)
Definition replace_sub_component (name : string) (c : component) (cf : conf)
  : result conf :=
  if negb (dmem name (c_subs (co_dict cf))) then Err KeyError
  else if negb (k_configured c) then Err ValueError
  else match conf_dict c with
       | Err e => Err e
       | Ok d => Ok (mkConf (set_subs (dset name d (c_subs (co_dict cf))) (co_dict cf))
                            (co_config cf))
       end.

(** ** configure *)

(** Keyword arguments.  [AScalar] stands for every value which is neither a
    component nor a dict, list or tuple. *)
Inductive item := IComp (c : component) | IVal (v : value).
Inductive arg :=
| AComp (c : component)
| AScalar (v : value)
| ADict (items : list (string * item))
| ASeq (is_tuple : bool) (items : list item).

(** The plain value of an argument; None if a component occurs in it.
    (A component inside a container never equals its deep copy stored in a
    configuration, because components are compared by identity.) *)
Fixpoint item_values (l : list item) : option (list value) :=
  match l with
  | [] => Some []
  | IVal v :: l' => option_map (cons v) (item_values l')
  | IComp _ :: _ => None
  end.

Definition arg_value (a : arg) : option value :=
  match a with
  | AComp _ => None
  | AScalar v => Some v
  | ADict items =>
      option_map (fun vs => VDict (combine (map fst items) vs))
        (item_values (map snd items))
  | ASeq t items =>
      option_map (fun vs => if t then VTuple vs else VList vs) (item_values items)
  end.

(** The loop over the items of one container (l.625-636 and l.645-657): collects
    components, raises ValueError for an unconfigured one, and reports whether
    all items are components. *)
Fixpoint collect_items (items : list (string * item)) (params : dict component)
  : result (bool * dict component) :=
  match items with
  | [] => Ok (true, params)
  | (name, IComp c) :: rest =>
      if k_configured c then collect_items rest (dset name c params)
      else Err ValueError
  | (name, IVal _) :: rest =>
      match collect_items rest params with
      | Ok (_, params') => Ok (false, params')
      | Err e => Err e
      end
  end.

(** Names of list elements: [key + '_{:04d}'.format(i)] (l.646). *)
Fixpoint seq_names (key : string) (i : nat) (l : list item) : list (string * item) :=
  match l with
  | [] => []
  | x :: l' => ((key ++ "_" ++ fmt04 i)%string, x) :: seq_names key (S i) l'
  end.

(** The loop over keyword arguments (l.608-662): returns the settings which must
    be found in the configuration and the components found. *)
Fixpoint collect (kwargs : dict arg) (missing : dict arg) (params : dict component)
  : result (dict arg * dict component) :=
  match kwargs with
  | [] => Ok (missing, params)
  | (key, a) :: rest =>
      match a with
      | AComp c =>
          if k_configured c then collect rest missing (dset key c params)
          else Err ValueError
      | ADict items =>
          match collect_items items params with
          | Err e => Err e
          | Ok (all, params') =>
              collect rest (if all then missing else dset key a missing) params'
          end
      | ASeq _ l =>
          match collect_items (seq_names key 0 l) params with
          | Err e => Err e
          | Ok (all, params') =>
              collect rest (if all then missing else dset key a missing) params'
          end
      | AScalar _ => collect rest (dset key a missing) params
      end
  end.

(** What the component specific hook [_configure] returns (l.712-757): a
    configuration, data, and dependent sub-components (None, a dictionary, or
    something else), together with the attributes it left on the object. *)
Inductive hook_subs := HNone | HDict (d : dict component) | HOther.
Record hook_out := mkHook {
  h_conf : conf; h_data : value; h_subs : hook_subs; h_untracked : list string }.
Definition hook := dict arg -> result hook_out.

Definition is_dict (v : value) : bool :=
  match v with VDict _ => true | _ => false end.

(** The final loop (l.696-708). *)
Fixpoint check_settings (missing : dict arg) (config : dict value) : option exn :=
  match missing with
  | [] => None
  | (key, a) :: rest =>
      match dget key config with
      | None => Some ValueError
      | Some v => match arg_value a with
                  | Some w => if veqb w v then check_settings rest config
                              else Some ValueError
                  | None => Some ValueError
                  end
      end
  end.

(** [BaseComponent.configure] (l.581-710).  Returns the object after the call
    and the exception raised, if any.  If the hook returns sub-components which
    are not a dictionary, the model keeps no sub-components on the object. *)
Definition configure (h : hook) (kwargs : dict arg) (self : component)
  : component * option exn :=
  if k_configured self then (self, Some ValueError)
  else if negb (Nat.eqb (length (k_untracked self)) 0) then (self, Some ValueError)
  else
    match collect kwargs [] [] with
    | Err e => (self, Some e)
    | Ok (missing, params) =>
        match h kwargs with
        | Err e => (self, Some e)
        | Ok out =>
            let data := match h_data out with VNone => VDict [] | v => v end in
            let subs := match h_subs out with HDict d => d | _ => [] end in
            let obj cf b :=
              mkComp (k_class self) (h_untracked out) b (Some cf) data subs in
            match h_subs out with
            | HOther => (obj (h_conf out) false, Some TypeError)
            | _ =>
                let (cf1, e1) := add_sub_components params (h_conf out) in
                match e1 with
                | Some e => (obj cf1 false, Some e)
                | None =>
                    let (cf2, e2) := add_dependent_sub_components (dkeys subs) cf1 in
                    match e2 with
                    | Some e => (obj cf2 false, Some e)
                    | None =>
                        match check_dependent_names (c_mut_subs (co_dict cf2)) (co_dict cf2) with
                        | Some e => (obj cf2 false, Some e)
                        | None =>
                            if negb (is_dict data) then (obj cf2 false, Some TypeError)
                            else match check_settings missing (co_config cf2) with
                                 | Some e => (obj cf2 false, Some e)
                                 | None => (obj cf2 true, None)
                                 end
                        end
                    end
                end
            end
        end
    end.

(** [BaseComponent.is_compatible] (l.760-778). *)
Definition component_compatible (rv : string) (a b : component) : result bool :=
  if negb (String.eqb (k_class a) (k_class b)) then Ok false
  else match conf_dict a, conf_dict b with
       | Ok da, Ok db => is_compatible rv da db
       | Err e, _ => Err e
       | _, Err e => Err e
       end.

(** ** The file system *)

(** The two files of a component directory (l.827-828). *)
Inductive file := FConf | FData.

(** Contents: the YAML dump of a configuration, the pickle of the data, or
    something that neither reader accepts.  YAML and pickle are assumed to
    round trip the stored values. *)
Inductive content := CConf (c : config) | CData (v : value) | CGarbage.

(** Directories exist implicitly.  Names of sub-components contain no slash,
    so [os.path.join(dir, name)] appends one element; sub-component
    directories never coincide with the two file names. *)
Definition fsys := path -> file -> option content.

Definition path_eqb (p q : path) : bool := list_eqb String.eqb p q.
Definition file_eqb (f g : file) : bool :=
  match f, g with FConf, FConf => true | FData, FData => true | _, _ => false end.

Definition fs_write (p : path) (f : file) (x : content) (fs : fsys) : fsys :=
  fun q g => if path_eqb p q && file_eqb f g then Some x else fs q g.

(** One file being written completely. *)
Record op := mkOp { o_path : path; o_file : file; o_content : content }.

Definition apply_op (o : op) (fs : fsys) : fsys :=
  fs_write (o_path o) (o_file o) (o_content o) fs.

Definition fs_exists (fs : fsys) (p : path) (f : file) : bool :=
  match fs p f with Some _ => true | None => false end.

(** ** save *)

(** [BaseComponent.save] (l.780-859).  Returns the operations performed, the
    file system afterwards and the exception raised.  The virtual [_save] does
    nothing here. *)
Fixpoint save (overwrite allow : bool) (c : component) (p : path) (fs : fsys)
  {struct c} : list op * fsys * option exn :=
  if negb (k_configured c) then ([], fs, Some ValueError)
  else if negb allow && negb (Nat.eqb (length (k_untracked c)) 0)
  then ([], fs, Some AttributeError)
  else
    let d := splitext_path p in
    if (fs_exists fs d FConf || fs_exists fs d FData) && negb overwrite
    then ([], fs, Some IOError)
    else
      match k_conf c with
      | None => ([], fs, Some AttributeError)
      | Some cf =>
          let o1 := mkOp d FConf (CConf (co_dict cf)) in
          let o2 := mkOp d FData (CData (k_data c)) in
          let '(ops, fs', e) :=
            (fix go (l : list (string * component)) (fs : fsys)
               : list op * fsys * option exn :=
               match l with
               | [] => ([], fs, None)
               | (name, s) :: rest =>
                   let '(ops1, fs1, e1) := save overwrite allow s (d ++ [name]) fs in
                   match e1 with
                   | Some e => (ops1, fs1, Some e)
                   | None =>
                       let '(ops2, fs2, e2) := go rest fs1 in
                       (ops1 ++ ops2, fs2, e2)
                   end
               end) (k_subs c) (apply_op o2 (apply_op o1 fs)) in
          (o1 :: o2 :: ops, fs', e)
      end.

(** ** load *)

(** The argument [modified_sub_components] (l.861-874). *)
Inductive modification :=
| MComp (c : component)
| MDict (d : list (string * modification)).
Definition mods := dict modification.

Section Load.

(** [egenerator.__version__]. *)
Variable rv : string.
(** Classes that [misc.load_class] (misc.py l.5-28) can import. *)
Variable known_class : string -> bool.
(** Which override of [_update_sub_components] a class has. *)
Inductive kind := KBase | KHandler | KManager.
Variable kind_of : string -> kind.
(** [DataTensorList(data + label + weight + misc tensors)]
    (modular.py l.281-285) on the updated data; may raise. *)
Variable rebuild_tensors : dict value -> result value.

(** [name.replace('module', 'settings')] for the five module names
    (modular.py l.273). *)
Definition settings_name (name : string) : option string :=
  if String.eqb name "data_module" then Some "data_settings"
  else if String.eqb name "label_module" then Some "label_settings"
  else if String.eqb name "weight_module" then Some "weight_settings"
  else if String.eqb name "misc_module" then Some "misc_settings"
  else if String.eqb name "filter_module" then Some "filter_settings"
  else None.

(** One iteration of the loop of the data handler's
    [_update_sub_components] (data/handler/modular.py l.260-279). *)
Definition handler_update_one (name : string) (self : component) : component * option exn :=
  match settings_name name with
  | None => (self, Some ValueError)
  | Some sname =>
      match dget name (k_subs self) with
      | None => (self, Some KeyError)
      | Some sub =>
          match k_data self, k_data sub with
          | VDict dd, VDict ds =>
              let self1 := with_data self (VDict (dupdate dd ds)) in
              match k_conf self1, k_conf sub with
              | Some cf, Some cfs =>
                  match dget "config" (c_mutable (co_dict cf)) with
                  | None => (self1, Some KeyError)
                  | Some (VDict cd) =>
                      let cd' := dset sname (VDict (co_config cfs))
                                   (dset name (VStr (k_class sub)) cd) in
                      let (cf1, e) := update_mutable_settings
                        (dset "config" (VDict cd') (c_mutable (co_dict cf))) cf in
                      match e with
                      | Some e => (with_conf self1 cf1, Some e)
                      | None =>
                          match replace_sub_component name sub cf1 with
                          | Err e => (with_conf self1 cf1, Some e)
                          | Ok cf2 => (with_conf self1 cf2, None)
                          end
                      end
                  | Some _ => (self1, Some TypeError)
                  end
              | _, _ => (self1, Some AttributeError)
              end
          | VDict _, _ => (self, Some TypeError)
          | _, _ => (self, Some AttributeError)
          end
      end
  end.

Fixpoint handler_update_loop (names : list string) (self : component)
  : component * option exn :=
  match names with
  | [] => (self, None)
  | n :: rest =>
      let (self1, e) := handler_update_one n self in
      match e with
      | Some e => (self1, Some e)
      | None => handler_update_loop rest self1
      end
  end.

(** [ModuleDataHandler._update_sub_components] (modular.py l.232-285). *)
Definition handler_update (names : list string) (self : component)
  : component * option exn :=
  let (self1, e) := handler_update_loop names self in
  match e with
  | Some e => (self1, Some e)
  | None =>
      match k_data self1 with
      | VDict d =>
          match rebuild_tensors d with
          | Err e => (self1, Some e)
          | Ok t => (with_data self1 (VDict (dset "tensors" t d)), None)
          end
      | _ => (self1, Some TypeError)
      end
  end.

(** [BaseModelManager._check_sub_component_compatibility]
    (manager/base.py l.185-225): every model's recorded data handler must be
    compatible with the data handler. *)
Fixpoint manager_check (subs all : list (string * component)) : option exn :=
  match subs with
  | [] => None
  | (name, m) :: rest =>
      if String.eqb name "data_handler" then manager_check rest all
      else
        match conf_dict m with
        | Err e => Some e
        | Ok mc =>
            match dget "data_trafo" (c_subs mc) with
            | None => Some KeyError
            | Some tc =>
                match configuration_init rv tc with
                | Err e => Some e
                | Ok tcf =>
                    match dget "data_handler" (c_subs (co_dict tcf)) with
                    | None => Some KeyError
                    | Some hc =>
                        match configuration_init rv hc with
                        | Err e => Some e
                        | Ok hcf =>
                            match dget "data_handler" all with
                            | None => Some KeyError
                            | Some h =>
                                match conf_dict h with
                                | Err e => Some e
                                | Ok hd =>
                                    match is_compatible rv hd (co_dict hcf) with
                                    | Err e => Some e
                                    | Ok false => Some ValueError
                                    | Ok true => manager_check rest all
                                    end
                                end
                            end
                        end
                    end
                end
            end
        end
  end.

(** [BaseModelManager._update_sub_components] (manager/base.py l.227-258). *)
Definition manager_update (names : list string) (self : component)
  : component * option exn :=
  if forallb (String.eqb "data_handler") names
  then (self, manager_check (k_subs self) (k_subs self))
  else (self, Some ValueError).

(** Dispatch over the class; the base class raises (component.py l.1027). *)
Definition update_sub_components (names : list string) (self : component)
  : component * option exn :=
  match kind_of (k_class self) with
  | KBase => (self, Some NotImplementedError)
  | KHandler => handler_update names self
  | KManager => manager_update names self
  end.

(** State of the loop over dependent sub-components: the object, the remaining
    modifications and the updated names. *)
Definition lstate := (component * mods * list string)%type.

(** The loop of [load] (component.py l.940-986); [sub_load] is the recursive
    call. *)
Fixpoint load_loop
  (sub_load : component -> path -> mods -> component * option exn * mods)
  (d : path) (names : list string) (st : lstate) : lstate * option exn :=
  match names with
  | [] => (st, None)
  | name :: rest =>
      let '(self, m, upd) := st in
      (* l.943-949 *)
      let '(nested, m, upd) :=
        match dget name m with
        | Some (MDict nd) => (nd, ddel name m, upd ++ [name])
        | _ => ([], m, upd)
        end in
      match k_conf self with
      | None => ((self, m, upd), Some AttributeError)
      | Some cf =>
          (* l.951-955 *)
          match dget name (c_subs (co_dict cf)) with
          | None => ((self, m, upd), Some KeyError)
          | Some sc =>
              if negb (known_class (c_class sc)) then ((self, m, upd), Some AttributeError)
              else
                (* l.956-959 *)
                let '(sub, e, _) := sub_load (new_component (c_class sc)) (d ++ [name]) nested in
                match e with
                | Some e => ((self, m, upd), Some e)
                | None =>
                    (* l.960-963 *)
                    let self1 := with_sub self name sub in
                    match (if smem name upd then replace_sub_component name sub cf else Ok cf) with
                    | Err e => ((self1, m, upd), Some e)
                    | Ok cf1 =>
                        let self2 := with_conf self1 cf1 in
                        (* l.967-986 *)
                        match dget name m with
                        | None => load_loop sub_load d rest (self2, m, upd)
                        | Some (MDict _) => ((self2, ddel name m, upd), Some AttributeError)
                        | Some (MComp r) =>
                            let m1 := ddel name m in
                            if negb (k_configured r) then ((self2, m1, upd), Some ValueError)
                            else
                              match (if smem name (c_mut_subs (co_dict cf1)) then Ok true
                                     else component_compatible rv sub r) with
                              | Err e => ((self2, m1, upd), Some e)
                              | Ok false => ((self2, m1, upd), Some ValueError)
                              | Ok true =>
                                  let self3 := with_sub self2 name r in
                                  match replace_sub_component name r cf1 with
                                  | Err e => ((self3, m1, upd), Some e)
                                  | Ok cf2 =>
                                      load_loop sub_load d rest
                                        (with_conf self3 cf2, m1, upd ++ [name])
                                  end
                              end
                        end
                    end
                end
          end
      end
  end.

(** [BaseComponent.load] (component.py l.861-999).  [fuel] is the remaining
    recursion depth of the interpreter.  Returns the object, the exception
    raised, and the caller's dictionary after the call.  The virtual [_load]
    does nothing here. *)
Fixpoint load (fuel : nat) (fs : fsys) (self : component) (p : path) (m : mods)
  : component * option exn * mods :=
  match fuel with
  | 0 => (self, Some RecursionError, m)
  | S fuel' =>
      if k_configured self then (self, Some ValueError, m)
      else if negb (Nat.eqb (length (k_untracked self)) 0) then (self, Some ValueError, m)
      else
        let d := splitext_path p in
        match fs d FConf with
        | None => (self, Some IOError, m)
        | Some (CConf cfg) =>
            match fs d FData with
            | None => (self, Some IOError, m)
            | Some (CData v) =>
                match configuration_init rv cfg with
                | Err e => (self, Some e, m)
                | Ok cf =>
                    let self1 := with_conf self cf in
                    (* l.915-921: self.logger does not exist *)
                    if negb (String.eqb (c_version cfg) rv)
                    then (self1, Some AttributeError, m)
                    else if negb (String.eqb (c_class (co_dict cf)) (k_class self))
                    then (self1, Some TypeError, m)
                    else
                      let self2 := with_data self1 v in
                      if negb (match v with VNone | VDict _ => true | _ => false end)
                      then (self2, Some ValueError, m)
                      else
                        let '((self3, m3, upd), e) :=
                          load_loop (load fuel' fs) d (c_dep (co_dict cf)) (self2, m, []) in
                        match e with
                        | Some e => (self3, Some e, m3)
                        | None =>
                            let (self4, e4) :=
                              match upd with
                              | [] => (self3, None)
                              | _ => update_sub_components upd self3
                              end in
                            match e4 with
                            | Some e => (self4, Some e, m3)
                            | None =>
                                match m3 with
                                | [] => (set_configured self4, None, m3)
                                | _ => (self4, Some ValueError, m3)
                                end
                            end
                        end
                end
            | Some _ => (self, Some ValueError, m)
            end
        | Some _ =>
            match fs d FData with
            | None => (self, Some IOError, m)
            | Some _ => (self, Some TypeError, m)
            end
        end
  end.

(** Loading several exported managers with one dictionary of modifications
    (utils/configurator.py l.161-177): the same dictionary object is passed to
    every call; the data handler used afterwards is the one of the manager
    loaded last.  Stops at the first exception. *)
Fixpoint load_ensemble (fuel : nat) (fs : fsys) (cls : string) (dirs : list path) (m : mods)
  : list component * option exn * mods :=
  match dirs with
  | [] => ([], None, m)
  | p :: rest =>
      let '(c, e, m1) := load fuel fs (new_component cls) p m in
      match e with
      | Some e => ([], Some e, m1)
      | None =>
          let '(cs, e2, m2) := load_ensemble fuel fs cls rest m1 in
          (c :: cs, e2, m2)
      end
  end.

End Load.
