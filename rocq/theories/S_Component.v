(** Specification vocabulary for components. *)
From Verif Require Import Py PyStr M_Config M_Component.

(** ** Arguments of configure *)

(** An argument which is a plain setting: a scalar, or a container with at
    least one element that is not a component. *)
Inductive Plain : arg -> Prop :=
| Plain_scalar v : Plain (AScalar v)
| Plain_dict items k v : In (k, IVal v) items -> Plain (ADict items)
| Plain_seq t items v : In (IVal v) items -> Plain (ASeq t items).

(** The argument contains no component and its value is [v]. *)
Inductive HasValue : arg -> value -> Prop :=
| HasValue_scalar v : HasValue (AScalar v) v
| HasValue_dict d :
    HasValue (ADict (map (fun kv => (fst kv, IVal (snd kv))) d)) (VDict d)
| HasValue_list l : HasValue (ASeq false (map IVal l)) (VList l)
| HasValue_tuple l : HasValue (ASeq true (map IVal l)) (VTuple l).

(** Component [c] is passed under [name] by the argument [key = a]. *)
Inductive PassedAs (key : string) : arg -> string -> component -> Prop :=
| PassedAs_direct c : PassedAs key (AComp c) key c
| PassedAs_dict items name c :
    In (name, IComp c) items -> PassedAs key (ADict items) name c
| PassedAs_seq t items i c :
    nth_error items i = Some (IComp c) ->
    PassedAs key (ASeq t items) (key ++ "_" ++ fmt04 i)%string c.

(** ** Histories of calls on one component object *)

Inductive call :=
| CallConfigure (h : hook) (kwargs : dict arg)
| CallLoad (fuel : nat) (fs : fsys) (p : path) (m : mods)
| CallSave (overwrite allow : bool) (p : path) (fs : fsys).

(** ** Crashes *)

(** A process executing the write operations [ops] on [fs] may die at any
    point, leaving [fs'].  A configuration file being written may contain
    anything; a pickle file being written is unreadable (pickles end with a
    mandatory stop code). *)
Inductive Crash : list op -> fsys -> fsys -> Prop :=
| Crash_here ops fs : Crash ops fs fs
| Crash_conf p x ops fs y :
    Crash (mkOp p FConf x :: ops) fs (fs_write p FConf y fs)
| Crash_data p x ops fs :
    Crash (mkOp p FData x :: ops) fs (fs_write p FData CGarbage fs)
| Crash_later o ops fs fs' :
    Crash ops (apply_op o fs) fs' -> Crash (o :: ops) fs fs'.

(** ** Component trees as configure produces them *)

Section Consistent.
Variable rv : string.
Variable known_class : string -> bool.

(** Configured, nothing untracked, configuration in sync and created by the
    running version, dependent names = names of the sub-components held, their
    classes recorded and importable, and (relevant for storage) names which
    stay different when an extension is split off. *)
Inductive Consistent : component -> Prop :=
| Consistent_intro cls cf data subs :
    configuration_init rv (co_dict cf) = Ok cf ->
    c_class (co_dict cf) = cls ->
    (data = VNone \/ is_dict data = true) ->
    c_dep (co_dict cf) = dkeys subs ->
    NoDup (map splitext_root (dkeys subs)) ->
    (forall n s, In (n, s) subs ->
       exists sc, dget n (c_subs (co_dict cf)) = Some sc /\
         c_class sc = k_class s /\ known_class (k_class s) = true) ->
    Forall (fun s => Consistent (snd s)) subs ->
    Consistent (mkComp cls [] true (Some cf) data subs).
End Consistent.

(** Nesting depth: recursion depth needed to load the tree. *)
Fixpoint depth (c : component) : nat :=
  S ((fix go (l : list (string * component)) : nat :=
        match l with
        | [] => 0
        | s :: l' => Nat.max (depth (snd s)) (go l')
        end) (k_subs c)).

(** No file exists in the directory or below. *)
Definition fresh_dir (fs : fsys) (d : path) : Prop :=
  forall q f, fs (d ++ q) f = None.

(** ** Replacing sub-components on load *)

(** A component may take the place of another one: same class and a compatible
    configuration (what that means is property C01). *)
Definition MayReplace (rv : string) (s r : component) : Prop :=
  k_class s = k_class r /\
  exists ds dr, conf_dict s = Ok ds /\ conf_dict r = Ok dr /\ is_compatible rv ds dr = Ok true.

(** How sub-component [n] of a component stored in directory [d] comes out of
    a load, depending on the modification requested for [n]:
    [recorded] is the configuration stored in the parent's file, [final] the
    sub-component held afterwards, [recorded'] the one recorded afterwards. *)
Inductive Outcome (rv : string)
    (load_sub : component -> path -> mods -> component * option exn * mods)
    (d : path) (mutable : list string) (n : string)
  : option modification -> config -> component -> config -> Prop :=
| Outcome_stored recorded s m' :
    load_sub (new_component (c_class recorded)) (d ++ [n]) [] = (s, None, m') ->
    Outcome rv load_sub d mutable n None recorded s recorded
| Outcome_nested nd recorded s m' recorded' :
    load_sub (new_component (c_class recorded)) (d ++ [n]) nd = (s, None, m') ->
    conf_dict s = Ok recorded' ->
    Outcome rv load_sub d mutable n (Some (MDict nd)) recorded s recorded'
| Outcome_replaced r recorded s m' recorded' :
    load_sub (new_component (c_class recorded)) (d ++ [n]) [] = (s, None, m') ->
    k_configured r = true ->
    In n mutable \/ MayReplace rv s r ->
    conf_dict r = Ok recorded' ->
    Outcome rv load_sub d mutable n (Some (MComp r)) recorded r recorded'.

(** The modules of a data handler and the entries of its configuration which
    hold their settings. *)
Inductive ModuleSettings : string -> string -> Prop :=
| MS_data : ModuleSettings "data_module" "data_settings"
| MS_label : ModuleSettings "label_module" "label_settings"
| MS_weight : ModuleSettings "weight_module" "weight_settings"
| MS_misc : ModuleSettings "misc_module" "misc_settings"
| MS_filter : ModuleSettings "filter_module" "filter_settings".

(** The configuration of a data handler describes module [s] held as [n]: its
    class and its settings in effect. *)
Definition HandlerDescribes (cf : conf) (n : string) (s : component) : Prop :=
  exists sn cd cfs, ModuleSettings n sn /\
    dget "config" (c_mutable (co_dict cf)) = Some (VDict cd) /\
    dget "config" (co_config cf) = Some (VDict cd) /\
    k_conf s = Some cfs /\ dget n cd = Some (VStr (k_class s)) /\
    dget sn cd = Some (VDict (co_config cfs)).

(** The data dictionary of the sub-component held as [n]. *)
Definition sub_data (c : component) (n : string) : dict value :=
  match dget n (k_subs c) with
  | Some s => match k_data s with VDict d => d | _ => [] end
  | None => []
  end.

(** A model was trained with a data handler that is compatible with [h], as
    recorded by the model's transformation. *)
Definition TrainedWith (rv : string) (h model : component) : Prop :=
  exists hd mc tc recorded, conf_dict h = Ok hd /\ conf_dict model = Ok mc /\
    dget "data_trafo" (c_subs mc) = Some tc /\
    dget "data_handler" (c_subs tc) = Some recorded /\
    is_compatible rv hd recorded = Ok true.

Section Histories.
Variable rv : string.
Variable known_class : string -> bool.
Variable kind_of : string -> kind.
Variable rebuild_tensors : dict value -> result value.

(** Effect of one call on the object and the exception raised. *)
Definition do_call (k : call) (c : component) : component * option exn :=
  match k with
  | CallConfigure h kwargs => configure h kwargs c
  | CallLoad fuel fs p m =>
      let '(c', e, _) := load rv known_class kind_of rebuild_tensors fuel fs c p m in (c', e)
  | CallSave ov al p fs => let '(_, _, e) := save ov al c p fs in (c, e)
  end.

Fixpoint run_calls (ks : list call) (c : component) : component :=
  match ks with
  | [] => c
  | k :: ks' => run_calls ks' (fst (do_call k c))
  end.

Definition is_setup (k : call) : bool :=
  match k with CallSave _ _ _ _ => false | _ => true end.
End Histories.
