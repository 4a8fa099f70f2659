(** Specification of what the goodness-of-fit module compares. *)
From Coq Require Import ZArith Reals.
From Verif Require Import Py RList M_Trafo M_Reco M_Basis M_Gof.
Open Scope R_scope.

(** Sum over all DOMs. *)
Definition dom_sum (f : nat -> nat -> R) : R :=
  Rsum (map (fun s => Rsum (map (f s) (seq 0 60))) (seq 0 86)).

(** The batch differs from the observed one in the pulses and their ids. *)
Definition WithPulses (st : gsettings) (batch : list value) (rows : list prow) (ids : list pid)
  (batch' : list value) : Prop :=
  length batch' = length batch /\
  nth_error batch' (g_ids st) = Some (VIds ids) /\
  (g_pulses st <> g_ids st -> nth_error batch' (g_pulses st) = Some (VPulses rows)) /\
  forall k, k <> g_pulses st -> k <> g_ids st -> nth_error batch' k = nth_error batch k.

(** The loss of an event and of its DOMs. *)
Definition LossOf (st : gsettings) (v : loss_value) (x : R) (dom : nat -> nat -> R) : Prop :=
  (g_per_dom st = true /\ exists scalar event, v = Sorted scalar event dom /\
     x = scalar + event + dom_sum dom) \/
  (g_per_dom st = false /\ v = Scalar x).

Definition scaled (st : gsettings) (charge y : R) : R :=
  if g_normalise st then y / (charge + 1) else y.

(** [h'] is [h] with the logarithm taken of the selected parameters of one plus
    their value. *)
Definition Logs (flags : list bool) (h h' : list R) : Prop :=
  length h' = length h /\
  forall i, (i < length h)%nat ->
    nth i h' 0 = if nth i flags false then ln (1 + nth i h 0) else nth i h 0.
Definition Exps (flags : list bool) (h h' : list R) : Prop :=
  length h' = length h /\
  forall i, (i < length h)%nat ->
    nth i h' 0 = if nth i flags false then exp (nth i h 0) - 1 else nth i h 0.
