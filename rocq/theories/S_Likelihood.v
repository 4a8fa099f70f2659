(** Likelihoods of a batch, as products over DOMs, pulses and events.  Only the
    data types of the model (batches, results, settings) are used. *)
From Verif Require Import Py RList M_Loss S_Loss.

(** Products over indices and over pulses. *)
Fixpoint iprod (n : nat) (f : nat -> R) : R :=
  match n with 0%nat => 1 | S n' => iprod n' f * f n' end.
Definition iprod3 (n ns nd : nat) (t : tensor3) : R :=
  iprod n (fun e => iprod ns (fun s => iprod nd (fun d => t e s d))).
Definition lprod {A} (f : A -> R) (l : list A) : R :=
  fold_right (fun x y => f x * y) 1 l.

(** The DOM is not excluded. *)
Definition used (b : batch) (e s d : nat) : bool :=
  match b_mask b with Some m => m e s d | None => true end.

(** Product over the used DOMs, over all DOMs, over pulses and events. *)
Definition over_used (b : batch) (t : tensor3) : R :=
  iprod3 (b_n b) (b_strings b) (b_doms b)
    (fun e s d => if used b e s d then t e s d else 1).
Definition over_doms (b : batch) (t : tensor3) : R :=
  iprod3 (b_n b) (b_strings b) (b_doms b) t.
Definition over_pulses (b : batch) (f : pulse -> R) : R := lprod f (b_pulses b).
Definition over_events (b : batch) (f : nat -> R) : R := iprod (b_n b) f.

(** Sum over the used DOMs of an event. *)
Definition event_sum (b : batch) (t : tensor3) (e : nat) : R :=
  isum (b_strings b) (fun s => isum (b_doms b) (fun d =>
    if used b e s d then t e s d else 0)).

(** Densities: Poisson without the factorial, normal distribution, negative
    binomial distribution without the factorial. *)
Definition poisson (lambda n : R) : R :=
  exp (- lambda) * Rpower (lambda + 1 / 10000000) n.
Definition normal (x mu var : R) : R :=
  exp (- (x - mu) ^ 2 / (2 * var)) / sqrt (2 * PI * var).
Definition neg_binomial (Gam : R -> R) (x mu alpha : R) : R :=
  Gam (x + 1 / alpha) / Gam (1 / alpha) *
  Rpower (1 / (1 + alpha * mu)) (1 / alpha) *
  Rpower (alpha * mu / (1 + alpha * mu)) x.

(** The density of the times of a pulse, to the power of its charge. *)
Definition pulse_density (p : pulse) : R :=
  Rpower (p_pdf p + 1 / 10000000) (p_charge p).

(** [Gam] is the gamma function as far as it is used: positive, with the
    factorials as its values at the positive integers. *)
Definition gamma_like (Gam : R -> R) : Prop :=
  (forall x, 0 < x -> 0 < Gam x) /\
  forall n, Gam (INR (S n)) = INR (fact n).
Definition log_of (Gam lgamma : R -> R) : Prop :=
  forall x, 0 < x -> lgamma x = ln (Gam x).

(** What the normalisation divides by for a charge [x]. *)
Definition faculty (Gam : R -> R) (x : R) : R := Gam (Rmax (x + 1) 2).
