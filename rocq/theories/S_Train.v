(** Specification for training. *)
From Verif Require Import Py M_Train.

Section Spec.
Variable B : Type.
Implicit Types tr : list (event B).

(** Number of updates. *)
Definition updates tr : nat := length (filter (fun e => match e with Update _ => true | _ => false end) tr).
Definition increments tr : nat := length (filter (fun e => match e with Inc => true | _ => false end) tr).

(** All batches used, in order, except for the validation loss. *)
Definition other_batches tr : list B :=
  flat_map (fun e => match e with Update b => [b] | LossTrain b => [b] | Evaluate b _ => [b] | _ => [] end) tr.
(** Batches used for the validation loss. *)
Definition val_batches tr : list B := flat_map (fun e => match e with LossVal b => [b] | _ => [] end) tr.
(** Batches handed to the evaluation module. *)
Definition eval_batches tr : list B := flat_map (fun e => match e with Evaluate b _ => [b] | _ => [] end) tr.

(** Smallest integer not below [n / f]. *)
Definition ceil_div (n f : nat) : nat := (n + f - 1) / f.

End Spec.

Arguments updates {B} tr.
Arguments increments {B} tr.
Arguments other_batches {B} tr.
Arguments val_batches {B} tr.
Arguments eval_batches {B} tr.

(** Number of missing entries before a position. *)
Definition missing {A} (l : list (option A)) (j : nat) : nat :=
  length (filter (fun x => match x with None => true | _ => false end) (firstn j l)).

(** The interval number [i] contains the step, and its start. *)
Definition InInterval (b : list Z) (i : nat) (start step : Z) : Prop :=
  (match i with O => start = 0%Z | S j => nth_error b j = Some start /\ (start < step)%Z end) /\
  match nth_error b i with Some hi => (step <= hi)%Z | None => i = length b end.
