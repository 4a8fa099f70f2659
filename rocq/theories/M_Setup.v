(** Model of the setup manager, which combines configuration files
    (egenerator/settings/setup_manager.py).

    Not modelled: the contents of the yaml parser (a file is what the parser
    returns for it), the import of [tfscripts] and the logger.  Keys are
    strings (yaml allows others at nested levels; at top level they make
    [value.format( **expand_config)] raise). *)
From Verif Require Import Py.

(** ** Python strings *)

(** [os.path.basename]: everything after the last slash. *)
Fixpoint after_slash (s : string) : option string :=
  match s with
  | EmptyString => None
  | String c r =>
      match after_slash r with
      | Some t => Some t
      | None => if Ascii.eqb c "/" then Some r else None
      end
  end.

Definition basename (s : string) : string :=
  match after_slash s with Some t => t | None => s end.

(** [s.replace('.yaml', '')]: all occurrences, from left to right. *)
Fixpoint drop_yaml (s : string) : string :=
  match s with
  | String "."
      (String "y" (String "a" (String "m" (String "l" r)))) => drop_yaml r
  | String c r => String c (drop_yaml r)
  | EmptyString => EmptyString
  end.

Definition is_digit (c : ascii) : bool :=
  Nat.leb 48 (nat_of_ascii c) && Nat.leb (nat_of_ascii c) 57.

Fixpoint all_digits (s : string) : bool :=
  match s with
  | EmptyString => true
  | String c r => is_digit c && all_digits r
  end.

Section Setup.

  (** What the yaml loader returns for a path, or the exception of [open] or
      of the parser. *)
  Variable load : string -> result value.
  (** [str(v)] for values which are not strings. *)
  Variable show : value -> string.
  (** [getattr(tf, name)] and [getattr(np, name)]. *)
  Variable tf_attr np_attr : string -> option value.
  (** The attributes of egenerator/settings/version_control.py, computed at
      import time from the git repository of the working directory. *)
  Variable short_sha sha origin : string.
  Variable uncommitted : bool.
  Variable packages : value.
  (** [os.path.join(os.path.dirname(__file__), '../..')] *)
  Variable egenerator_dir : string.

  (** One replacement field of [str.format( **config)]: an empty or numeric
      field name refers to positional arguments, of which there are none.
      Simplification: attribute access, indices, conversions and format
      specifications inside a field are not interpreted; such fields are
      treated as the name of a key. *)
  Definition field (cfg : dict value) (name : string) : result string :=
    if all_digits name then Err IndexError
    else match dget name cfg with
         | Some (VStr s) => Ok s
         | Some v => Ok (show v)
         | None => Err KeyError
         end.

  (** [s.format( **cfg)] as used in setup_manager.py l.149.  [open] is the
      name of the replacement field being read. *)
  Fixpoint format (cfg : dict value) (open : option string) (s : string)
    : result string :=
    match open with
    | None =>
        match s with
        | EmptyString => Ok EmptyString
        | String c r =>
            if Ascii.eqb c "{" then
              match r with
              | String "{" r' =>
                  bind (format cfg None r') (fun t => Ok (String "{" t))
              | _ => format cfg (Some EmptyString) r
              end
            else if Ascii.eqb c "}" then
              match r with
              | String "}" r' =>
                  bind (format cfg None r') (fun t => Ok (String "}" t))
              | _ => Err ValueError
              end
            else bind (format cfg None r) (fun t => Ok (String c t))
        end
    | Some name =>
        match s with
        | EmptyString => Err ValueError
        | String c r =>
            if Ascii.eqb c "}" then
              bind (field cfg name) (fun v =>
              bind (format cfg None r) (fun t => Ok (v ++ t)%string))
            else if Ascii.eqb c "{" then Err ValueError
            else format cfg (Some (name ++ String c EmptyString)%string) r
        end
    end.

  (** Assignment into nested dictionaries: [top[k1][k2]... = v]. *)
  Fixpoint set_path (path : list string) (v : value) (top : dict value)
    : dict value :=
    match path with
    | [] => top
    | [k] => dset k v top
    | k :: path' =>
        match dget k top with
        | Some (VDict d) => dset k (VDict (set_path path' v d)) top
        | _ => top
        end
    end.

  (** [expand_strings] (setup_manager.py l.132-152) of the value stored at
      [path].  The dictionary handed in as [expand_config] is the one which
      is being changed (l.128), so every string is formatted with the state
      reached so far.  Strings inside lists are left alone. *)
  Fixpoint expand (v : value) (path : list string) (top : dict value)
    : result (dict value) :=
    match v with
    | VStr s =>
        bind (format top None s) (fun s' => Ok (set_path path (VStr s') top))
    | VDict d =>
        (fix go (d : list (string * value)) (top : dict value)
           : result (dict value) :=
           match d with
           | [] => Ok top
           | (k, w) :: d' =>
               bind (expand w (path ++ [k]) top) (fun top' => go d' top')
           end) d top
    | _ => Ok top
    end.

  (** setup_manager.py l.78-102: the combination of all files and the name
      of the combination.  [config_update.keys()] raises for files which do
      not hold a mapping (for example empty files). *)
  Fixpoint combine_files (files : list string) (cfg : dict value)
    (name : option string) : result (dict value * option string) :=
    match files with
    | [] => Ok (cfg, name)
    | f :: files' =>
        let base := drop_yaml (basename f) in
        let name' := match name with
                     | None => base
                     | Some n => (n ++ "__" ++ base)%string
                     end in
        bind (load f) (fun u =>
        match u with
        | VDict upd =>
            if existsb (fun k => dmem k upd) (dkeys cfg) then Err ValueError
            else combine_files files' (dupdate cfg upd) (Some name')
        | _ => Err AttributeError
        end)
    end.

  Definition default_config : dict value :=
    [("float_precision", VStr "float32")].

  (** [getattr(module, config['float_precision'])] (l.107-108) *)
  Definition precision (attr : string -> option value) (cfg : dict value)
    : result value :=
    match dget "float_precision" cfg with
    | Some (VStr p) =>
        match attr p with Some v => Ok v | None => Err AttributeError end
    | Some _ => Err TypeError
    | None => Err KeyError
    end.

  (** [str(config_name)] (l.125) *)
  Definition name_str (name : option string) : string :=
    match name with Some n => n | None => "None" end.

  (** l.103-127: the configuration before placeholders are expanded. *)
  Definition raw_config (new : dict value) (name : option string)
    : result (dict value) :=
    let c := dupdate default_config new in
    bind (precision tf_attr c) (fun tfp =>
    let c := dset "tf_float_precision" tfp c in
    bind (precision np_attr c) (fun npp =>
    let c := dset "np_float_precision" npp c in
    let c := dset "git_short_sha" (VStr short_sha) c in
    let c := dset "git_sha" (VStr sha) c in
    let c := dset "git_origin" (VStr origin) c in
    let c := dset "git_uncommited_changes" (VBool uncommitted) c in
    let c := dset "pip_installed_packages" packages c in
    let c := dset "config_name" (VStr (name_str name)) c in
    Ok (dset "egenerator_dir" (VStr egenerator_dir) c))).

  (** What is passed as [config_files]. *)
  Inductive config_files :=
  | Files (l : list string)
  | NotAList.

  (** [SetupManager(config_files).config] (l.40-130) *)
  Definition setup (cf : config_files) : result (dict value) :=
    match cf with
    | NotAList => Err ValueError
    | Files [] => Err ValueError
    | Files fs =>
        bind (combine_files fs [] None) (fun cn =>
        bind (raw_config (fst cn) (snd cn)) (fun c => expand (VDict c) [] c))
    end.

End Setup.

(** ** Copies handed out by [get_config]

    Dictionaries as objects in memory: an object is a list of entries, which
    are plain values or references to other objects. *)

Inductive cell :=
| Plain (v : value)
| Ref (a : nat).

Definition heap := list (dict cell).

(** [deepcopy] of the object at address [a] (setup_manager.py l.162).
    Simplification: objects which are referenced twice are copied twice. *)
Fixpoint deepcopy (n : nat) (h : heap) (a : nat) : option (heap * nat) :=
  match n with
  | 0 => None
  | S n' =>
      match nth_error h a with
      | None => None
      | Some d =>
          let fix go (d : dict cell) (h : heap) : option (heap * dict cell) :=
            match d with
            | [] => Some (h, [])
            | (k, Plain v) :: d' =>
                match go d' h with
                | Some (h', e) => Some (h', (k, Plain v) :: e)
                | None => None
                end
            | (k, Ref b) :: d' =>
                match deepcopy n' h b with
                | Some (h1, b') =>
                    match go d' h1 with
                    | Some (h2, e) => Some (h2, (k, Ref b') :: e)
                    | None => None
                    end
                | None => None
                end
            end in
          match go d h with
          | Some (h', e) => Some (h' ++ [e], length h')
          | None => None
          end
      end
  end.

(** [get_config] (setup_manager.py l.154-162): [dict(deepcopy(config))]
    creates one more object with the entries of the copied dictionary. *)
Definition get_config (n : nat) (h : heap) (a : nat) : option (heap * nat) :=
  match deepcopy n h a with
  | Some (h', b) =>
      match nth_error h' b with
      | Some d => Some (h' ++ [d], length h')
      | None => None
      end
  | None => None
  end.
