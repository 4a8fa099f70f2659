(** Model of [ReconstructionTray] and [FunctionCache]
    (egenerator/manager/reconstruction/tray.py).

    Modules are functions from the data batch and the results of earlier
    modules to their result; that a module may write into the dictionary of
    earlier results, which is passed to it by reference, is not modelled (no
    module of the repository does so).  Times are given from outside. *)
From Verif Require Import Py PyStr.

Section Tray.

  (** Values stored in results, data batches *)
  Variables V D : Type.
  (** Functions of the cache with their [__name__], settings with [==] *)
  Variables F S : Type.
  Variable fname : F -> string.
  Variable seqb : S -> S -> bool.
  (** Running time of the module at a position (l.116, 118) *)
  Variable clock : nat -> V.

  (** ** FunctionCache (l.130-209) *)

  Definition cache := dict (list (S * F)).

  (** [add] (l.155-183): the cache afterwards and the outcome *)
  Definition cache_add (f : F) (s : S) (c : cache) : cache * result Datatypes.unit :=
    match dget (fname f) c with
    | Some entries =>
        if existsb (fun e => seqb s (fst e)) entries then (c, Err KeyError)
        else (dset (fname f) (entries ++ [(s, f)]) c, Ok tt)
    | None => (dset (fname f) [(s, f)] c, Ok tt)
    end.

  (** [get] (l.185-209) *)
  Definition cache_get (name : string) (s : S) (c : cache) : option F :=
    match dget name c with
    | Some entries =>
        match find (fun e => seqb s (fst e)) entries with
        | Some e => Some (snd e)
        | None => None
        end
    | None => None
    end.

  (** The way modules use the cache, for example
      modules/reconstruction.py l.113-119: a function is made and added if it
      is not found. *)
  Definition fetch (name : string) (s : S) (make : S -> F) (c : cache)
    : cache * result F :=
    match cache_get name s c with
    | Some f => (c, Ok f)
    | None => let '(c', r) := cache_add (make s) s c in
              (c', bind r (fun _ => Ok (make s)))
    end.

  (** ** ReconstructionTray (l.6-127) *)

  Definition results := dict (dict V).
  Definition module := D -> results -> result (dict V).

  Record tray := mk_tray {
    t_modules : list module; t_names : list string; t_cache : cache }.

  (** [__init__] (l.39-58) *)
  Definition new_tray : tray := mk_tray [] [] [].

  (** A module class: constructing it may add functions to the cache even if
      it raises. *)
  Definition module_class := cache -> cache * result module.

  Definition default_name (t : tray) : string :=
    ("module_" ++ fmt04 (length (t_names t)))%string.

  (** [add_module] (l.60-98); [cls] is the result of loading the class *)
  Definition add_module (cls : result module_class) (name : option string)
    (t : tray) : tray * result Datatypes.unit :=
    match cls with
    | Err e => (t, Err e)
    | Ok make =>
        let name := match name with Some n => n | None => default_name t end in
        if existsb (String.eqb name) (t_names t) then (t, Err ValueError)
        else
          let '(c, r) := make (t_cache t) in
          match r with
          | Err e => (mk_tray (t_modules t) (t_names t) c, Err e)
          | Ok m => (mk_tray (t_modules t ++ [m]) (t_names t ++ [name]) c, Ok tt)
          end
    end.

  (** The loop of [execute] (l.113-125) *)
  Fixpoint run (k : nat) (l : list (string * module)) (d : D) (res : results)
    : result results :=
    match l with
    | [] => Ok res
    | (name, m) :: l' =>
        bind (m d res) (fun r =>
        if dmem "runtime" r then Err ValueError
        else run (Datatypes.S k) l' d (dset name (dset "runtime" (clock k) r) res))
    end.

  (** [execute] (l.100-127) *)
  Definition execute (t : tray) (d : D) : result results :=
    run 0 (combine (t_names t) (t_modules t)) d [].

End Tray.
