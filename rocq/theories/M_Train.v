(** Model of training: the loop of [BaseModelManager.train]
    (/repo/egenerator/manager/base.py l.634-865), one training step
    (l.537-608), the regularisation (l.432-456), the ensemble (l.38-54,
    l.67-134, l.260-330) and the piecewise learning rate
    (/repo/egenerator/utils/learning_rate.py l.10-88). *)
From Coq Require Import Reals.
From Verif Require Import Py PyStr RList M_Checkpoint.
Open Scope nat_scope.

Section Loop.
(** Batches of data. *)
Variable B : Type.

(** The entries of opt_config used by the loop and whether an evaluation module
    is given (frequencies as natural numbers). *)
Record topt := { o_val : nat; o_eval : nat; o_save : nat; o_module : bool }.

(** Observable effects of the loop, in order. *)
Inductive event :=
  | Start                       (* self.save(..., protected=True), l.706-711 *)
  | Inc                         (* model.step.assign_add(1), l.767-768 *)
  | Update (b : B)              (* perform_training_step, l.774 *)
  | LossTrain (b : B)           (* l.788 *)
  | LossVal (b : B)             (* l.794 *)
  | Evaluate (b : B) (step : nat) (* evaluation_module.evaluate, l.826-831 *)
  | Save (steps : nat) (final : bool). (* self.save_weights, l.840-841, l.862-865 *)

(** Whether the losses at a step are finite (l.797). *)
Variable nan : nat -> bool.

(** [next] of an iterator over a finite dataset. *)
Definition next (s : list B) : result (B * list B) :=
  match s with [] => Err StopIteration | b :: s' => Ok (b, s') end.

Definition step_result := (list event * result (list B * list B))%type.

(** [step % frequency == 0] *)
Definition divides (frequency step : nat) : result bool :=
  if Nat.eqb frequency 0 then Err ZeroDivisionError else Ok (Nat.eqb (step mod frequency) 0).

(** Sequencing: events of the first part are kept if the second raises. *)
Definition andthen (r : step_result) (f : list B * list B -> step_result) : step_result :=
  match r with
  | (tr, Err e) => (tr, Err e)
  | (tr, Ok s) => let '(tr', r') := f s in (tr ++ tr', r')
  end.

(** l.767-774 *)
Definition do_update (s : list B * list B) : step_result :=
  match next (fst s) with
  | Err e => ([Inc], Err e)
  | Ok (b, t) => ([Inc; Update b], Ok (t, snd s))
  end.

(** l.779-811 *)
Definition do_validate (o : topt) (step : nat) (s : list B * list B) : step_result :=
  match divides (o_val o) step with
  | Err e => ([], Err e)
  | Ok false => ([], Ok s)
  | Ok true =>
      match next (fst s) with
      | Err e => ([], Err e)
      | Ok (b, t) =>
          match next (snd s) with
          | Err e => ([LossTrain b], Err e)
          | Ok (b', v) => ([LossTrain b; LossVal b'], if nan step then Err ValueError else Ok (t, v))
          end
      end
  end.

(** l.816-834 *)
Definition do_evaluate (o : topt) (step : nat) (s : list B * list B) : step_result :=
  match divides (o_eval o) step with
  | Err e => ([], Err e)
  | Ok false => ([], Ok s)
  | Ok true =>
      if o_module o
      then match next (fst s) with
           | Err e => ([], Err e)
           | Ok (b, t) => ([Evaluate b step], Ok (t, snd s))
           end
      else ([], Ok s)
  end.

(** l.839-841 *)
Definition do_save (o : topt) (step : nat) (s : list B * list B) : step_result :=
  match divides (o_save o) step with
  | Err e => ([], Err e)
  | Ok d => ((if d && negb (Nat.eqb step 0) then [Save step false] else []), Ok s)
  end.

(** One pass of the loop body (l.762-841); profiling (l.846-852) is left out. *)
Definition body (o : topt) (step : nat) (s : list B * list B) : step_result :=
  andthen (do_update s) (fun s => andthen (do_validate o step s) (fun s =>
    andthen (do_evaluate o step s) (fun s => do_save o step s))).

Fixpoint loop (o : topt) (steps : list nat) (s : list B * list B) : step_result :=
  match steps with
  | [] => ([], Ok s)
  | step :: steps' => andthen (body o step s) (loop o steps')
  end.

(** [train] (l.706-865): [s] holds the training and the validation dataset.  After
    the loop the variable [step] is unbound if there was no iteration. *)
Definition train (o : topt) (n : nat) (s : list B * list B) : step_result :=
  andthen ([Start], Ok s) (fun s => andthen (loop o (seq 0 n) s) (fun s =>
    match n with
    | O => ([], Err UnboundLocalError)
    | S m => ([Save m true], Ok s)
    end)).

(** ** Effect on the directory of one model *)

Variable W : Type.
Variable df : nat -> bool.
(** Values of the variables after a number of updates. *)
Variable w : nat -> W.

(** Result of running the events: directory and number of updates so far.  The
    default of max_keep is three (l.260). *)
Definition on_event (components : list (string * option exn)) (st : result (dir W * nat)) (ev : event) : result (dir W * nat) :=
  match st with
  | Err e => Err e
  | Ok (d, k) =>
      let keep (r : effect W) := match r with (ops, None) => Ok (run ops d, k) | (_, Some e) => Err e end in
      match ev with
      | Start => keep (save df d true 3 true (Some "Starting Training") (Some components) None (w k))
      | Update _ => Ok (d, S k)
      | Save s fin => keep (save_weights df d true 3 fin (if fin then Some "End of training step" else None) (Some s) (w k))
      | _ => Ok (d, k)
      end
  end.

Definition execute components (tr : list event) (d : dir W) : result (dir W * nat) :=
  fold_left (on_event components) tr (Ok (d, 0)).

End Loop.

Arguments Start {B}.
Arguments Inc {B}.
Arguments Update {B} b.
Arguments LossTrain {B} b.
Arguments LossVal {B} b.
Arguments Evaluate {B} b step.
Arguments Save {B} steps final.
Arguments next {B} s.
Arguments andthen {B} r f.
Arguments do_update {B} s.
Arguments do_validate {B} nan o step s.
Arguments do_evaluate {B} o step s.
Arguments do_save {B} o step s.
Arguments body {B} nan o step s.
Arguments loop {B} nan o steps s.
Arguments train {B} nan o n s.
Arguments on_event {B W} df w components st ev.
Arguments execute {B W} df w components tr d.

(** ** One training step (l.564-606) *)
Section Gradients.
Variables G V : Type.
(** [tf.where(tf.is_nan(grad), zeros, grad)]; [tf.is_nan] does not exist in
    version 2 of TensorFlow, [has_is_nan] says whether it does. *)
Variable clean : G -> G.
Variable has_is_nan : bool.
(** [tf.clip_by_global_norm]: scales every gradient with a factor that depends on
    all of them and leaves missing ones. *)
Variable clip : list (option G) -> G -> G.
(** [tf.math.is_finite(tf.reduce_mean(gradient))] *)
Variable finite : G -> bool.

Definition is_some {A} (o : option A) : bool := match o with Some _ => true | None => false end.

(** Gradients as lists of optional values, [None] for a variable that does not
    influence the loss; result: the pairs of gradient and variable that are
    handed to the optimiser. *)
Definition training_step (remove_nan clip_gradients : bool) (gradients : list (option G)) (variables : list V)
  : result (list (G * V)) :=
  let gs := if remove_nan
            then if has_is_nan || negb (existsb is_some gradients)
                 then Ok (map (option_map clean) (filter is_some gradients))
                 else Err AttributeError
            else Ok gradients in
  match gs with
  | Err e => Err e
  | Ok gs =>
      let capped := if clip_gradients then map (option_map (clip gs)) gs else gs in
      if negb (forallb is_some capped) then Err ValueError      (* tf.reduce_mean(None) *)
      else if negb (forallb (fun g => match g with Some g => finite g | None => true end) capped) then Err RuntimeError
      else
        match combine (flat_map (fun g => match g with Some g => [g] | None => [] end) capped) variables with
        | [] => Err ValueError      (* no gradients provided for any variable *)
        | l => Ok l
        end
  end.
End Gradients.

Arguments training_step {G V} clean has_is_nan clip finite remove_nan clip_gradients gradients variables.

(** ** Ensemble *)
Section Ensemble.
Variable M : Type.

(** Names of the sub components (l.119-123). *)
Definition model_name (i : nat) : string := ("models_" ++ fmt04 i)%string.

Definition sub_components (handler : M) (models : list M) : dict M :=
  fold_left (fun d im => dset (model_name (fst im)) (snd im) d) (combine (seq 0 (length models)) models)
            [("data_handler", handler)].

(** [sorted] on strings: by code points. *)
Fixpoint sinsert (x : string) (l : list string) : list string :=
  match l with
  | [] => [x]
  | y :: l' => match String.compare x y with Gt => y :: sinsert x l' | _ => x :: l end
  end.
Definition ssort (l : list string) : list string := fold_right sinsert [] l.

(** Property [models] (l.38-54). *)
Definition models_of (subs : dict M) : option (list M) :=
  if dmem (model_name 0) subs
  then Some (flat_map (fun k => match dget k subs with Some m => [m] | None => [] end)
                      (ssort (filter (fun k => String.eqb (substring 0 7 k) "models_") (dkeys subs))))
  else None.
End Ensemble.

Arguments sub_components {M} handler models.
Arguments models_of {M} subs.

(** ** Regularisation (l.446-456) *)
Section Regularisation.
Local Open Scope R_scope.

(** [tf.add_n]: raises for an empty list. *)
Definition add_n (l : list R) : result R := match l with [] => Err ValueError | _ => Ok (Rsum l) end.

(** [variables]: the entries of every variable. *)
Definition regularization_loss (l1 l2 : R) (variables : list (list R)) : result R :=
  let r1 := if Rltb 0 l1 then add_n (map (fun v => Rsum (map Rabs v)) variables) else Ok 0 in
  let r2 := if Rltb 0 l2 then add_n (map (fun v => Rsum (map (fun x => x * x) v)) variables) else Ok 0 in
  match r1 with Err e => Err e | Ok a => match r2 with Err e => Err e | Ok b => Ok (a + b) end end.
End Regularisation.

(** ** Learning rate *)
Section LearningRate.
(** Type of learning rates. *)
Variable L : Type.

(** Constructor (learning_rate.py l.41-44). *)
Definition lr_init (boundaries : list Z) (schedulers : list (Z -> L)) : result (list Z * list (Z -> L)) :=
  if Nat.eqb (length boundaries) (length schedulers - 1) && negb (Nat.eqb (length schedulers) 0)
  then Ok (boundaries, schedulers) else Err ValueError.

(** Whether the lambdas (l.72, 76, 85) see the variables of the function as they
    are when they are called, after the loop, as in plain Python; otherwise every
    pass of the loop has its own variables, as in code converted by AutoGraph,
    where the body of a loop is a function and variables used in lambdas only
    are local to it.  The method is decorated with [tf.function] (l.61), so this
    depends on whether functions are run eagerly. *)
Variable late : bool.

(** Variables [low] and [scheduler] after the loop (l.79-81). *)
Definition loop_vars (boundaries : list Z) (schedulers : list (Z -> L)) : option (Z * (Z -> L)) :=
  fold_left (fun acc index =>
    match nth_error boundaries index, nth_error schedulers (S index) with
    | Some low, Some s => Some (low, s)
    | _, _ => acc
    end) (seq 0 (length schedulers - 2)) None.

(** The variables a lambda sees. *)
Definition bound (boundaries : list Z) (schedulers : list (Z -> L)) (index : nat) : option (Z * (Z -> L)) :=
  if late then loop_vars boundaries schedulers
  else match nth_error boundaries index, nth_error schedulers (S index) with
       | Some low, Some s => Some (low, s)
       | _, _ => None
       end.

(** [tf.case] with exclusive=True: exactly one predicate must hold. *)
Definition tf_case (pairs : list (bool * L)) : result L :=
  match filter fst pairs with [(_, v)] => Ok v | _ => Err RuntimeError end.

(** [__call__] (l.62-88). *)
Definition lr_call (bs : list Z * list (Z -> L)) (step : Z) : result L :=
  let '(boundaries, schedulers) := bs in
  match boundaries, rev boundaries, schedulers, rev schedulers with
  | b0 :: _, bl :: _, s0 :: _, sl :: _ =>
      let middle := flat_map (fun index =>
        match bound boundaries schedulers index with
        | None => []
        | Some (low, scheduler) =>
            [((nth index boundaries 0 <? step)%Z && (step <=? nth (S index) boundaries 0)%Z, scheduler (step - low)%Z)]
        end) (seq 0 (length schedulers - 2)) in
      tf_case (((step <=? b0)%Z, s0 step) :: ((bl <? step)%Z, sl (step - bl)%Z) :: middle)
  | _, _, _, _ => Err IndexError
  end.
End LearningRate.

Arguments lr_init {L} boundaries schedulers.
Arguments lr_call {L} late bs step.
Arguments bound {L} late boundaries schedulers index.
Arguments loop_vars {L} boundaries schedulers.
Arguments tf_case {L} pairs.
