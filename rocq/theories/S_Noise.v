(** Specification for the noise source: live time as the length of the set of
    times at which a DOM is read out. *)
From Coq Require Import Reals.
From Verif Require Import Py RList M_Source S_Basis M_Noise.
Open Scope R_scope.

(** The time [t] lies in an excluded window of a DOM in an event. *)
Definition Excluded (xs : list exclusion) (e : nat) (c : cell) (t : R) : Prop :=
  exists x, In x xs /\ x_event x = e /\ x_cell x = c /\ x_start x <= t < x_stop x.

(** The function is one where the DOM is read out and zero where it is not. *)
Definition ReadOut (xs : list exclusion) (e : nat) (c : cell) (f : R -> R) : Prop :=
  forall t, (Excluded xs e c t -> f t = 0) /\ (~ Excluded xs e c t -> f t = 1).

(** The DOM is read out for the time [v] between [a] and [b]. *)
Definition LiveTime (xs : list exclusion) (e : nat) (c : cell) (a b v : R) : Prop :=
  exists f, ReadOut xs e c f /\ Integrates f a b v.

(** Length of the part of an excluded window inside the read-out window [w]. *)
Definition Overlap (w : R * R) (x : exclusion) : R :=
  Rmax 0 (Rmin (x_stop x) (snd w) - Rmax (x_start x) (fst w)).
Definition At (e : nat) (c : cell) (x : exclusion) : bool :=
  Nat.eqb (x_event x) e && Nat.eqb (fst (x_cell x)) (fst c) && Nat.eqb (snd (x_cell x)) (snd c).
Definition TotalOverlap (w : R * R) (xs : list exclusion) (e : nat) (c : cell) : R :=
  Rsum (map (Overlap w) (filter (At e c) xs)).

(** Windows are not reversed; those of the same DOM and event have at most
    end points in common. *)
Definition Ordered (xs : list exclusion) : Prop := Forall (fun x => x_start x <= x_stop x) xs.
Definition Apart (x y : exclusion) : Prop :=
  x_event x = x_event y -> x_cell x = x_cell y -> x_stop x <= x_start y \/ x_stop y <= x_start x.
Definition Separate (xs : list exclusion) : Prop := ForallOrdPairs Apart xs.

(** DOMs of the detector and events of the batch. *)
Definition InDetector (c : cell) : Prop := (fst c < 86)%nat /\ (snd c < 60)%nat.
Definition ValidIds (n : nat) (ids : list (nat * cell)) : Prop :=
  Forall (fun i => (fst i < n)%nat /\ InDetector (snd i)) ids.
Definition ValidWindows (n : nat) (xs : list exclusion) : Prop :=
  Forall (fun x => (x_event x < n)%nat /\ InDetector (x_cell x)) xs.

(** Read-out windows of positive length. *)
Definition Open (windows : list (R * R)) : Prop := Forall (fun w => fst w < snd w) windows.
