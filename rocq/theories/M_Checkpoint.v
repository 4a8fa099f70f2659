(** Model of checkpoint saving and loading of [Model]
    (/repo/egenerator/model/base.py l.230-603).

    The directory is changed by a list of elementary operations, so that a crash
    leaves the effect of a prefix.  Simplifications: file names are identified
    with the number they contain ('model_checkpoint_{:08d}', 'step_{:04d}', both
    injective); a weight file consists of one data and one index file, written in
    this order by TensorFlow; a YAML file is truncated when opened and receives
    its content in one write when closed; dates and time stamps are left out; the
    rebuilding of the graph before loading (l.555-580) is left out. *)
From Verif Require Import Py.

Section Checkpoint.
(** Values of all variables. *)
Variable W : Type.

(** Entry of the records (l.332-337): 'file_basename' and 'description'. *)
Definition info := (nat * option string)%type.

(** Content of model_checkpoint.yaml (l.305-310). *)
Record meta := { m_latest : nat; m_unprot : list (nat * info); m_prot : list (nat * info) }.

(** Content of training_steps.yaml (l.445-448): number of steps by index. *)
Record tmeta := { t_latest : nat; t_steps : list (nat * nat) }.

(** The model directory; a YAML file is missing, empty or has content. *)
Record dir := {
  d_yaml : option (option meta);
  d_data : nat -> option W;
  d_index : nat -> bool;
  d_train : option (option tmeta);
  d_step : nat -> bool                (* training/step_N exists *)
}.

Definition empty_dir : dir :=
  {| d_yaml := None; d_data := fun _ => None; d_index := fun _ => false; d_train := None; d_step := fun _ => false |}.

(** Elementary operations on the directory. *)
Inductive op :=
  | WriteData (n : nat) (w : W)
  | WriteIndex (n : nat)
  | RemoveData (n : nat)
  | RemoveIndex (n : nat)
  | TruncYaml
  | DumpYaml (m : meta)
  | TruncTrain
  | DumpTrain (t : tmeta)
  | MakeStep (n : nat)
  | StepFile (n : nat) (name : string).   (* files inside a step directory *)

Definition apply (d : dir) (o : op) : dir :=
  match o with
  | WriteData n w => {| d_yaml := d_yaml d; d_data := fun k => if Nat.eqb k n then Some w else d_data d k;
                        d_index := d_index d; d_train := d_train d; d_step := d_step d |}
  | WriteIndex n => {| d_yaml := d_yaml d; d_data := d_data d;
                       d_index := fun k => if Nat.eqb k n then true else d_index d k; d_train := d_train d; d_step := d_step d |}
  | RemoveData n => {| d_yaml := d_yaml d; d_data := fun k => if Nat.eqb k n then None else d_data d k;
                       d_index := d_index d; d_train := d_train d; d_step := d_step d |}
  | RemoveIndex n => {| d_yaml := d_yaml d; d_data := d_data d;
                        d_index := fun k => if Nat.eqb k n then false else d_index d k; d_train := d_train d; d_step := d_step d |}
  | TruncYaml => {| d_yaml := Some None; d_data := d_data d; d_index := d_index d; d_train := d_train d; d_step := d_step d |}
  | DumpYaml m => {| d_yaml := Some (Some m); d_data := d_data d; d_index := d_index d; d_train := d_train d; d_step := d_step d |}
  | TruncTrain => {| d_yaml := d_yaml d; d_data := d_data d; d_index := d_index d; d_train := Some None; d_step := d_step d |}
  | DumpTrain t => {| d_yaml := d_yaml d; d_data := d_data d; d_index := d_index d; d_train := Some (Some t); d_step := d_step d |}
  | MakeStep n => {| d_yaml := d_yaml d; d_data := d_data d; d_index := d_index d; d_train := d_train d;
                     d_step := fun k => if Nat.eqb k n then true else d_step d k |}
  | StepFile _ _ => d
  end.

Definition run (ops : list op) (d : dir) : dir := fold_left apply ops d.

(** Dictionaries with integer keys. *)
Definition nget {A} (k : nat) (l : list (nat * A)) : option A :=
  match find (fun kv => Nat.eqb (fst kv) k) l with Some kv => Some (snd kv) | None => None end.
Fixpoint nset {A} (k : nat) (v : A) (l : list (nat * A)) : list (nat * A) :=
  match l with
  | [] => [(k, v)]
  | (k', v') :: l' => if Nat.eqb k' k then (k', v) :: l' else (k', v') :: nset k v l'
  end.
Definition ndel {A} (k : nat) (l : list (nat * A)) : list (nat * A) := filter (fun kv => negb (Nat.eqb (fst kv) k)) l.
Definition nkeys {A} (l : list (nat * A)) : list nat := map fst l.

(** [sorted] *)
Fixpoint insert (x : nat) (l : list nat) : list nat :=
  match l with [] => [x] | y :: l' => if Nat.leb x y then x :: l else y :: insert x l' end.
Definition nsort (l : list nat) : list nat := fold_right insert [] l.

(** [l[:-k]] *)
Definition drop_last {A} (k : Z) (l : list A) : list A :=
  if (k <? 0)%Z then firstn (Z.to_nat (- k)) l
  else if (k =? 0)%Z then []
  else firstn (length l - Z.to_nat k) l.

(** Result of a call: the operations done and possibly an exception. *)
Definition effect := (list op * option exn)%type.

(** [update_num_training_steps] (l.380-411). *)
Definition update_num_training_steps (d : dir) (steps : nat) : effect :=
  match d_train d with
  | None => ([], Some IOError)
  | Some None => ([], Some TypeError)
  | Some (Some t) =>
      match nget (t_latest t) (t_steps t) with
      | None => ([], Some KeyError)
      | Some _ => ([TruncTrain; DumpTrain {| t_latest := t_latest t; t_steps := nset (t_latest t) steps (t_steps t) |}], None)
      end
  end.

(** Order in which [glob] lists the two files of a checkpoint. *)
Variable data_first : nat -> bool.

(** The files removed for one old checkpoint (l.361-367). *)
Definition remove_files (d : dir) (base : nat) : list op :=
  let da := match d_data d base with Some _ => [RemoveData base] | None => [] end in
  let ix := if d_index d base then [RemoveIndex base] else [] in
  if data_first base then da ++ ix else ix ++ da.

(** The loop over the old checkpoints (l.355-367). *)
Fixpoint prune (d : dir) (numbers : list nat) (unprot : list (nat * info)) : result (list (nat * info) * list op) :=
  match numbers with
  | [] => Ok (unprot, [])
  | n :: ns =>
      match nget n unprot with
      | None => Err KeyError
      | Some i =>
          match prune d ns (ndel n unprot) with
          | Err e => Err e
          | Ok (u, ops) => Ok (u, remove_files d (fst i) ++ ops)
          end
      end
  end.

Definition has_key {A} (k : nat) (l : list (nat * A)) : bool :=
  match nget k l with Some _ => true | None => false end.

(** [save_weights] (l.230-378); [vars_ok]: the variables are those present
    after configuring, [w] their values. *)
Definition save_weights (d : dir) (vars_ok : bool) (max_keep : Z) (protected : bool) (desc : option string)
  (steps : option nat) (w : W) : effect :=
  if negb vars_ok then ([], Some ValueError)
  else match (match d_yaml d with
              | None => Some {| m_latest := 0; m_unprot := []; m_prot := [] |}
              | Some m => m
              end) with
  | None => ([], Some TypeError)
  | Some m =>
      let i := S (m_latest m) in
      if d_index d i then ([], Some IOError)
      else if has_key i (m_unprot m) || has_key i (m_prot m) then ([], Some KeyError)
      else
        let '(ops0, e) := match steps with None => ([], None) | Some s => update_num_training_steps d s end in
        match e with
        | Some _ => (ops0, e)
        | None =>
            let entry : info := (i, desc) in
            let prot := if protected then nset i entry (m_prot m) else m_prot m in
            let unprot := if protected then m_unprot m else nset i entry (m_unprot m) in
            let ops1 := ops0 ++ [WriteData i w; WriteIndex i] in
            match (if protected then Ok (unprot, [])
                   else
                     let old := nsort (nkeys unprot) in
                     if (max_keep <? Z.of_nat (length old))%Z
                     then prune (run ops1 d) (drop_last max_keep old) unprot
                     else Ok (unprot, [])) with
            | Err e => (ops1, Some e)
            | Ok (unprot', ops2) =>
                (ops1 ++ ops2 ++ [TruncYaml; DumpYaml {| m_latest := i; m_unprot := unprot'; m_prot := prot |}], None)
            end
        end
  end.

(** [save_training_settings] (l.413-492); [components]: for each component
    whether its [save] raises. *)
Fixpoint save_components (n : nat) (components : list (string * option exn)) : effect :=
  match components with
  | [] => ([], None)
  | (name, e) :: cs =>
      match e with
      | Some e => ([StepFile n name], Some e)
      | None => let '(ops, e') := save_components n cs in (StepFile n name :: ops, e')
      end
  end.

Definition save_training_settings (d : dir) (components : list (string * option exn)) : effect :=
  match (match d_train d with None => Some {| t_latest := 0; t_steps := [] |} | Some t => t end) with
  | None => ([], Some TypeError)
  | Some t =>
      let i := S (t_latest t) in
      if d_step d i then ([], Some IOError)
      else if has_key i (t_steps t) then ([MakeStep i], Some KeyError)
      else
        let '(ops, e) := save_components i components in
        let ops := MakeStep i :: StepFile i "training_config.yaml" :: ops in
        match e with
        | Some _ => (ops, e)
        | None => (ops ++ [TruncTrain; DumpTrain {| t_latest := i; t_steps := nset i 0 (t_steps t) |}], None)
        end
  end.

(** [_save] (l.494-533). *)
Definition save (d : dir) (vars_ok : bool) (max_keep : Z) (protected : bool) (desc : option string)
  (training : option (list (string * option exn))) (steps : option nat) (w : W) : effect :=
  let '(ops, e) := match training with None => ([], None) | Some cs => save_training_settings d cs end in
  match e with
  | Some _ => (ops, e)
  | None => let '(ops', e') := save_weights (run ops d) vars_ok max_keep protected desc steps w in (ops ++ ops', e')
  end.

(** Reading a weight file; TensorFlow raises (NotFoundError, here RuntimeError)
    if a file is missing. *)
Definition restore (d : dir) (base : nat) : result W :=
  if d_index d base then match d_data d base with Some w => Ok w | None => Err RuntimeError end
  else Err RuntimeError.

(** [load_weights] (l.535-603). *)
Definition load_weights (d : dir) (number : option nat) : result W :=
  match d_yaml d with
  | None => Err IOError
  | Some None => Err TypeError
  | Some (Some m) =>
      let n := match number with None => m_latest m | Some n => n end in
      match nget n (m_unprot m) with
      | Some i => restore d (fst i)
      | None => match nget n (m_prot m) with
                | Some i => restore d (fst i)
                | None => Err KeyError
                end
      end
  end.

End Checkpoint.

Arguments d_yaml {W} d.
Arguments d_data {W} d _.
Arguments d_index {W} d _.
Arguments d_train {W} d.
Arguments d_step {W} d _.
Arguments empty_dir {W}.
Arguments apply {W} d o.
Arguments run {W} ops d.
Arguments save_weights {W} data_first d vars_ok max_keep protected desc steps w.
Arguments save_training_settings {W} d components.
Arguments save {W} data_first d vars_ok max_keep protected desc training steps w.
Arguments restore {W} d base.
Arguments load_weights {W} d number.
Arguments WriteData {W} n w.
Arguments WriteIndex {W} n.
Arguments RemoveData {W} n.
Arguments RemoveIndex {W} n.
Arguments TruncYaml {W}.
Arguments DumpYaml {W} m.
Arguments TruncTrain {W}.
Arguments DumpTrain {W} t.
Arguments MakeStep {W} n.
Arguments StepFile {W} n name.
Arguments update_num_training_steps {W} d steps.
Arguments remove_files {W} data_first d base.
Arguments prune {W} data_first d numbers unprot.
Arguments save_components {W} n components.
