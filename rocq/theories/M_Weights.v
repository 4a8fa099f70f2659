(** Model of the weights of models that are made of models
    (/repo/egenerator/model/base.py l.112-136, 288-296, 494-619,
    /repo/egenerator/model/multi_source/base.py l.425-599,
    /repo/egenerator/manager/base.py l.36-60, 260-430, 773-786,
    /repo/egenerator/manager/component.py l.780-859, 861-999).

    A single source keeps its weights in checkpoints as modelled in
    [M_Checkpoint]; every path has its own model directory.  Simplifications:
    configuration.yaml and data.pickle of the components are those of the model
    of components and left out, so that saving always overwrites; the variables
    of a source are one value of type [V] together with its step counter; a
    component that is not a Model contains no Model. *)
From Verif Require Import Py PyStr M_Checkpoint.
Open Scope py_scope.

(** * Trees of models *)

Section Weights.
Variable V : Type.
(** Order in which [glob] lists the two files of a checkpoint. *)
Variable data_first : nat -> bool.

(** What a checkpoint of a source holds: the variables of the module and the
    step counter (model/base.py l.117-119). *)
Notation W := (V * nat)%type.

(** A component: a single source, whose variables are ([ok]) or are not those
    recorded by its configuration; a MultiSource with its own step counter and
    its sub components; anything that is no Model (a data transformer or data
    handler). *)
Inductive comp :=
  | Source (ok : bool) (v : V) (step : nat)
  | Multi (step : nat) (subs : list (string * comp))
  | Other.

(** A model manager: its sub components (manager/base.py l.23-183). *)
Definition manager := list (string * comp).

(** Files: the model directory at every path. *)
Definition disk := path -> dir W.

Definition path_eqb (p q : path) : bool := if list_eq_dec string_dec p q then true else false.

(** Effects on the disk, in order; a crash leaves the effect of a prefix. *)
Definition trace := list (path * op W).

Definition step_disk (d : disk) (o : path * op W) : disk :=
  fun q => if path_eqb q (fst o) then apply (d q) (snd o) else d q.

Definition play (t : trace) (d : disk) : disk := fold_left step_disk t d.

Definition outcome := (trace * option exn)%type.

Definition at_path (p : path) (e : effect W) : outcome := (map (fun o => (p, o)) (fst e), snd e).

(** Run one effect after the other, unless the first one raised. *)
Definition andthen (a : disk -> outcome) (b : disk -> outcome) (d : disk) : outcome :=
  let '(t, e) := a d in
  match e with
  | Some _ => (t, e)
  | None => let '(t', e') := b (play t d) in (t ++ t', e')
  end.

(** Arguments of [save_weights]. *)
Record args := { a_keep : Z; a_prot : bool; a_desc : option string; a_steps : option nat }.

(** [save_weights] of a component at a path: [Model.save_weights] of a source
    (model/base.py l.230-378), [MultiSource.save_weights] (multi_source/base.py
    l.483-493), which passes its arguments to each sub component that is a
    Model, in its own sub directory. *)
Fixpoint save_weights (p : path) (a : args) (c : comp) (d : disk) : outcome :=
  match c with
  | Source ok v step =>
      at_path p (M_Checkpoint.save_weights data_first (d p) ok (a_keep a) (a_prot a) (a_desc a) (a_steps a) (v, step))
  | Multi _ subs =>
      (fix each (l : list (string * comp)) : disk -> outcome :=
         match l with
         | [] => fun _ => ([], None)
         | (n, s) :: l' => andthen (save_weights (p ++ [n]) a s) (each l')
         end) subs d
  | Other => ([], None)
  end.

(** [BaseModelManager.save_weights] (manager/base.py l.318-328). *)
Fixpoint manager_save_weights (p : path) (a : args) (m : manager) : disk -> outcome :=
  match m with
  | [] => fun _ => ([], None)
  | (n, s) :: m' => andthen (save_weights (p ++ [n]) a s) (manager_save_weights p a m')
  end.

(** [BaseComponent.save] (component.py l.780-859), of which only the extension
    that is split off (l.824), the sub components (l.851-856) and the calls of
    [_save] (l.859) are kept: [Model._save] (model/base.py l.528-533) for a
    source, nothing for a MultiSource (multi_source/base.py l.542).
    [training]: the components of the new training settings, with the exception
    their own [save] raises. *)
Definition training := option (list (string * option exn)).

Fixpoint save (p : path) (a : args) (t : training) (c : comp) (d : disk) : outcome :=
  match c with
  | Source ok v step =>
      let p := splitext_path p in
      at_path p (M_Checkpoint.save data_first (d p) ok (a_keep a) (a_prot a) (a_desc a) t (a_steps a) (v, step))
  | Multi _ subs =>
      let p := splitext_path p in
      (fix each (l : list (string * comp)) : disk -> outcome :=
         match l with
         | [] => fun _ => ([], None)
         | (n, s) :: l' => andthen (save (p ++ [n]) a t s) (each l')
         end) subs d
  | Other => ([], None)
  end.

(** The same for the manager (component.py l.824, 851-856; its own [_save],
    manager/base.py l.406, does nothing). *)
Fixpoint save_each (p : path) (a : args) (t : training) (m : manager) : disk -> outcome :=
  match m with
  | [] => fun _ => ([], None)
  | (n, s) :: m' => andthen (save (p ++ [n]) a t s) (save_each p a t m')
  end.
Definition manager_save (p : path) (a : args) (t : training) (m : manager) : disk -> outcome :=
  save_each (splitext_path p) a t m.

(** [BaseModelManager.save_training_settings] (manager/base.py l.348-357): a
    MultiSource does not override [Model.save_training_settings], so that the
    settings are written to its own directory. *)
Fixpoint manager_save_training (p : path) (t : list (string * option exn)) (m : manager) : disk -> outcome :=
  match m with
  | [] => fun _ => ([], None)
  | (n, Other) :: m' => manager_save_training p t m'
  | (n, _) :: m' =>
      andthen (fun d => at_path (p ++ [n]) (save_training_settings (d (p ++ [n])) t)) (manager_save_training p t m')
  end.

(** [load_weights] (model/base.py l.580-603; multi_source/base.py l.512-520)
    of a configured component: variables are assigned one model after the
    other, until one raises. *)
Fixpoint load_weights (p : path) (number : option nat) (c : comp) (d : disk) : comp * option exn :=
  match c with
  | Source ok v step =>
      match M_Checkpoint.load_weights (d p) number with
      | Ok (v', step') => (Source ok v' step', None)
      | Err e => (Source ok v step, Some e)
      end
  | Multi step subs =>
      let '(subs', e) :=
        (fix each (l : list (string * comp)) : list (string * comp) * option exn :=
           match l with
           | [] => ([], None)
           | (n, s) :: l' =>
               match load_weights (p ++ [n]) number s d with
               | (s', Some e) => ((n, s') :: l', Some e)
               | (s', None) => let '(r, e) := each l' in ((n, s') :: r, e)
               end
           end) subs in
      (Multi step subs', e)
  | Other => (Other, None)
  end.

(** [BaseModelManager.load_weights] (manager/base.py l.376-384). *)
Fixpoint manager_load_weights (p : path) (number : option nat) (m : manager) (d : disk) : manager * option exn :=
  match m with
  | [] => ([], None)
  | (n, s) :: m' =>
      match load_weights (p ++ [n]) number s d with
      | (s', Some e) => ((n, s') :: m', Some e)
      | (s', None) => let '(r, e) := manager_load_weights p number m' d in ((n, s') :: r, e)
      end
  end.

(** [BaseComponent.load] (component.py l.861-999) with the [_load] of the
    classes: a source rebuilds its graph with new variables and a step counter
    of one, then restores the checkpoint (model/base.py l.553-603, 617-619); a
    MultiSource loads its sub components, then rebuilds its graph
    (multi_source/base.py l.565-599) with a step counter of one
    (model/base.py l.117).  [c] gives the classes and names of the saved
    configuration. *)
Fixpoint load (p : path) (number : option nat) (c : comp) (d : disk) : result comp :=
  match c with
  | Source _ _ _ =>
      match M_Checkpoint.load_weights (d (splitext_path p)) number with
      | Ok (v, step) => Ok (Source true v step)
      | Err e => Err e
      end
  | Multi _ subs =>
      let p := splitext_path p in
      subs' <- (fix each (l : list (string * comp)) : result (list (string * comp)) :=
                  match l with
                  | [] => Ok []
                  | (n, s) :: l' => s' <- load (p ++ [n]) number s d ;; r <- each l' ;; Ok ((n, s') :: r)
                  end) subs ;;
      Ok (Multi 1 subs')
  | Other => Ok Other
  end.

Fixpoint load_each (p : path) (number : option nat) (m : manager) (d : disk) : result manager :=
  match m with
  | [] => Ok []
  | (n, s) :: m' => s' <- load (p ++ [n]) number s d ;; r <- load_each p number m' d ;; Ok ((n, s') :: r)
  end.
Definition manager_load (p : path) (number : option nat) (m : manager) (d : disk) : result manager :=
  load_each (splitext_path p) number m d.

(** One iteration of training (manager/base.py l.777-784): the step counter of
    every model of the manager is increased; the optimiser changes the variables
    of all sources, [update] by path. *)
Fixpoint assign (update : path -> V -> V) (p : path) (c : comp) : comp :=
  match c with
  | Source ok v step => Source ok (update p v) step
  | Multi step subs => Multi step (map (fun ns => (fst ns, assign update (p ++ [fst ns]) (snd ns))) subs)
  | Other => Other
  end.

Definition count (c : comp) : comp :=
  match c with
  | Source ok v step => Source ok v (S step)
  | Multi step subs => Multi (S step) subs
  | Other => Other
  end.

Definition iterate (update : path -> V -> V) (m : manager) : manager :=
  map (fun ns => (fst ns, assign update [fst ns] (count (snd ns)))) m.

End Weights.

Arguments Source {V} ok v step.
Arguments Multi {V} step subs.
Arguments Other {V}.
Arguments save_weights {V} data_first p a c d.
Arguments manager_save_weights {V} data_first p a m d.
Arguments save {V} data_first p a t c d.
Arguments save_each {V} data_first p a t m d.
Arguments manager_save {V} data_first p a t m d.
Arguments manager_save_training {V} p t m d.
Arguments load_weights {V} p number c d.
Arguments manager_load_weights {V} p number m d.
Arguments load {V} p number c d.
Arguments load_each {V} p number m d.
Arguments manager_load {V} p number m d.
Arguments iterate {V} update m.
Arguments assign {V} update p c.
Arguments count {V} c.
Arguments play {V} t d.
Arguments step_disk {V} d o.
Arguments at_path {V} p e.
Arguments andthen {V} a b d.

(** * Variables of a module *)

(** A variable of TensorFlow: an object and its name. *)
Record variable := { v_id : nat; v_name : string }.

(** A Model outside of MultiSource: the variables it creates, its step counter
    and its sub components, of which those that are a [tf.Module] have variables
    (l.123-126). *)
Inductive module := Module (own : list variable) (counter : variable) (subs : list (string * option module)).

(** Duplicates, compared by object, are dropped, keeping the first
    ([tf.Module.variables]; its order is irrelevant here since names are sorted
    before they are compared). *)
Fixpoint unique (l : list variable) : list variable :=
  match l with
  | [] => []
  | v :: l' => v :: filter (fun u => negb (Nat.eqb (v_id u) (v_id v))) (unique l')
  end.

(** [tf.Module.variables] of a module with all its attributes. *)
Fixpoint variables (m : module) : list variable :=
  match m with
  | Module own counter subs =>
      unique (own ++ [counter] ++
        (fix each (l : list (string * option module)) : list variable :=
           match l with
           | [] => []
           | (_, Some s) :: l' => variables s ++ each l'
           | (_, None) :: l' => each l'
           end) subs)
  end.

Definition sub_variables (subs : list (string * option module)) : list variable :=
  flat_map (fun ns => match snd ns with Some s => variables s | None => [] end) subs.

(** [_configure] (l.116-128): the variables of the module at that time and then
    those of the sub components.  [loading]: called by [load_weights]
    (l.565-566), when the sub components are already attributes of the module. *)
Definition recorded (loading : bool) (m : module) : list variable :=
  match m with
  | Module own counter subs =>
      (if loading then variables m else unique (own ++ [counter])) ++ sub_variables subs
  end.

(** The check of [save_weights] (l.290-296), comparing sorted names. *)
Fixpoint insert_name (x : string) (l : list string) : list string :=
  match l with
  | [] => [x]
  | y :: l' => if String.leb x y then x :: l else y :: insert_name x l'
  end.
Definition sort_names (l : list string) : list string := fold_right insert_name [] l.

Definition unchanged (loading : bool) (m : module) : bool :=
  if list_eq_dec string_dec (sort_names (map v_name (variables m))) (sort_names (map v_name (recorded loading m)))
  then true else false.
