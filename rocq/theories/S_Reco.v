(** Specification vocabulary for the reconstruction. *)
From Verif Require Import RList M_Trafo S_Trafo.

(** Entry [i] of row [k]. *)
Definition cell (a : array) (k i : nat) : R := nth i (nth k (ar_rows a) []) 0.

(** An array with [b] rows of [n] numbers. *)
Definition Table (a : array) (n b : nat) : Prop :=
  ar_shape a = [n] /\ length (ar_rows a) = b /\ Forall (fun r => length r = n) (ar_rows a).

(** Number of fitted parameters before parameter [i]. *)
Fixpoint fitted_before (fit : list bool) (i : nat) : nat :=
  match i, fit with
  | S i', b :: fit' => (if b then 1 else 0) + fitted_before fit' i'
  | _, _ => 0
  end.

Definition Fitted (fit : list bool) (i : nat) : Prop := nth_error fit i = Some true.
Definition Held (fit : list bool) (i : nat) : Prop := nth_error fit i = Some false.

(** [full] has the values of [fitted] for the fitted parameters and those of
    [held] for the others. *)
Definition Combined (fit : list bool) (fitted held full : array) (b : nat) : Prop :=
  Table full (length fit) b /\
  forall k i, (k < b)%nat ->
    (Fitted fit i -> cell full k i = cell fitted k (fitted_before fit i)) /\
    (Held fit i -> cell full k i = cell held k i).

(** The logarithm applies to some but not to all parameters. *)
Definition Mixed (t : tinfo) : Prop := exists flags, ti_log t = Some flags /\ In false flags.

(** Every value to which the logarithm applies is larger than minus one. *)
Definition LogDomain (t : tinfo) (a : array) : Prop :=
  forall e i x, In e (ar_rows a) -> nth_error e i = Some x -> Logged t i -> -1 < x.

(** No value reaches the limits to which TensorFlow clips exponents. *)
Definition Unclipped (t : tinfo) (a : array) : Prop :=
  Mixed t -> forall e i x, In e (ar_rows a) -> nth_error e i = Some x -> Logged t i ->
    -60 <= ln (1 + x) <= 60.

(** A minimiser never returns a point worse than its starting point. *)
Definition Descends {B} (minimise : (list R -> result R) -> list R -> B -> result (list R))
  : Prop :=
  forall f x0 b x v0, minimise f x0 b = Ok x -> f x0 = Ok v0 ->
    exists v, f x = Ok v /\ v <= v0.

(** It returns as many numbers as it starts from. *)
Definition KeepsLength {B} (minimise : (list R -> result R) -> list R -> B -> result (list R))
  : Prop :=
  forall f x0 b x, minimise f x0 b = Ok x -> length x = length x0.

(** [x] lies within optional bounds. *)
Definition Within (lo hi : option R) (x : R) : Prop :=
  (forall l, lo = Some l -> l <= x) /\ (forall h, hi = Some h -> x <= h).
