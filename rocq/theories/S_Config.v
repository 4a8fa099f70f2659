(** Specification vocabulary for configurations, independent of the way
    [M_Config.v] computes. *)
From Verif Require Import Py M_Config.

(** A configuration as the public interface can produce it: dictionaries have
    unique keys, no key is both immutable and mutable setting, dependent names
    are names of sub-components, recursively. *)
Inductive wf : config -> Prop :=
| wf_intro c :
    dvwf (c_settings c) -> dvwf (c_check c) -> dvwf (c_mutable c) ->
    (forall k, In k (dkeys (c_settings c)) -> ~ In k (dkeys (c_mutable c))) ->
    dwf (c_subs c) ->
    (forall n, In n (c_dep c) -> In n (dkeys (c_subs c))) ->
    Forall (fun s => wf (snd s)) (c_subs c) ->
    wf c.

(** The documented meaning of "a is compatible with b". *)
Inductive Compat : config -> config -> Prop :=
| Compat_intro a b :
    c_class a = c_class b ->
    deqb (c_settings a) (c_settings b) = true ->
    deqb (c_check a) (c_check b) = true ->
    (forall n, In n (dkeys (c_subs a)) <-> In n (dkeys (c_subs b))) ->
    (forall n sa sb, dget n (c_subs a) = Some sa -> dget n (c_subs b) = Some sb ->
       In n (c_mut_subs a) \/ Compat sa sb) ->
    Compat a b.

(** [a] and [a'] differ at most in mutable settings, versions, git information
    and lists of dependent sub-components (at any depth). *)
Inductive SameCore : config -> config -> Prop :=
| SameCore_intro a a' :
    c_class a = c_class a' -> c_check a = c_check a' ->
    c_settings a = c_settings a' -> c_mut_subs a = c_mut_subs a' ->
    Forall2 (fun x y => fst x = fst y /\ SameCore (snd x) (snd y))
      (c_subs a) (c_subs a') ->
    SameCore a a'.

(** Nothing is declared mutable, at any depth. *)
Inductive NoMutableSubs : config -> Prop :=
| NoMutableSubs_intro a :
    c_mut_subs a = [] ->
    Forall (fun s => NoMutableSubs (snd s)) (c_subs a) ->
    NoMutableSubs a.

(** [eff] is [settings] overlaid with [mut]. *)
Definition overlay (settings mut eff : dict value) : Prop :=
  forall k, dget k eff =
    match dget k mut with Some v => Some v | None => dget k settings end.

(** The value of setting [k] after a history of update calls: the value in the
    most recent call which mentions [k], otherwise the initial one. *)
Fixpoint latest (k : string) (calls : list (dict value)) (initial : option value)
  : option value :=
  match calls with
  | [] => initial
  | c :: rest =>
      latest k rest (match dget k c with Some v => Some v | None => initial end)
  end.

(** Running a history of update calls, remembering the exceptions raised. *)
Fixpoint run_updates (calls : list (dict value)) (o : conf)
  : conf * list (option exn) :=
  match calls with
  | [] => (o, [])
  | c :: rest =>
      let (o1, e) := update_mutable_settings c o in
      let (o2, es) := run_updates rest o1 in
      (o2, e :: es)
  end.

(** Two configurations which differ at most in the lists of dependent and of
    mutable sub-components. *)
Definition SameButDeclarations (c c' : config) : Prop :=
  c_version c' = c_version c /\ c_git c' = c_git c /\ c_class c' = c_class c /\
  c_check c' = c_check c /\ c_settings c' = c_settings c /\
  c_mutable c' = c_mutable c /\ c_subs c' = c_subs c.
