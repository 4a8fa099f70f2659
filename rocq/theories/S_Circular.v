(** What is expected of the circularised uncertainty. *)
From Coq Require Import Reals List.
Import ListNotations.
Open Scope R_scope.

(** Smallest value of a function at a number other than zero *)
Definition MinimumAt (f : R -> R) (s : R) : Prop := s <> 0 /\ forall s', s' <> 0 -> f s <= f s'.

(** The share of events within the angle [d] for a circular normal distribution
    of width [s] on a plane *)
Definition within (d s : R) : R := 1 - exp (- (d * d) / (2 * (s * s))).

(** The points agree with widths between [lo] and [hi]: the probability [p] of each
    point at an angle is that of such a width (points at angle zero say nothing) *)
Definition WidthsBetween (lo hi : R) (angles probabilities : list R) : Prop :=
  Forall2 (fun d p => d = 0 \/ exists s, lo <= s <= hi /\ p = within d s) angles probabilities.

(** Distribution function of a positive variable *)
Definition Cdf (F : R -> R) : Prop := (forall x, x <= 0 -> F x = 0) /\ (forall x, 0 < x -> 0 < F x < 1).
