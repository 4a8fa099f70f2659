(** Specification for the data transformation, independent of the model's
    algorithms. *)
From Verif Require Import RList M_Trafo.

(** Arithmetic mean and population standard deviation. *)
Definition pop_mean (l : list R) : R := Rsum l / INR (length l).
Definition pop_std (l : list R) : R :=
  sqrt (Rsum (map (fun x => (x - pop_mean l) * (x - pop_mean l)) l) / INR (length l)).

(** Number of elements of a shape. *)
Fixpoint volume (sh : list nat) : nat := match sh with [] => 1 | d :: ds => d * volume ds end%nat.

(** The element at position [i] of the flattened array has coordinates [c]. *)
Inductive Coords : list nat -> nat -> list nat -> Prop :=
  | co_nil : Coords [] 0 []
  | co_cons d ds k i c : (k < d)%nat -> Coords ds i c -> Coords (d :: ds) (k * volume ds + i) (k :: c).

(** Elements sharing all coordinates outside the reduced axes. *)
Definition Cell (sh : list nat) (axes : option (list nat)) (i j : nat) : Prop :=
  exists ci cj, Coords sh i ci /\ Coords sh j cj /\
    match axes with
    | None => True
    | Some ax => forall k, ~ In k ax -> nth_error ci k = nth_error cj k
    end.

(** The logarithm applies to element [i]: all flags are set, or the flag of its
    last coordinate. *)
Definition Logged (t : tinfo) (i : nat) : Prop :=
  match ti_log t with
  | None => False
  | Some flags => (forall b, In b flags -> b = true) \/
                  exists c k, Coords (ti_shape t) i (c ++ [k]) /\ nth_error flags k = Some true
  end.

(** [v] is the value of element [i] as it enters the statistics. *)
Definition Seen (t : tinfo) (i : nat) (x v : R) : Prop :=
  (Logged t i -> v = ln (1 + x)) /\ (~ Logged t i -> v = x).

(** Events of the tensor at position [idx] in a sequence of batches. *)
Definition events_of (idx : nat) (bs : list batch) : list event :=
  concat (map (fun b => match nth idx b None with Some es => es | None => [] end) bs).

(** Square matrix, symmetric and positive semi-definite. *)
Definition Sym (n : nat) (A : mat) : Prop := forall i j, (i < n)%nat -> (j < n)%nat -> A i j = A j i.
Definition quad (n : nat) (A : mat) (v : nat -> R) : R :=
  Rsum (map (fun i => Rsum (map (fun j => v i * A i j * v j) (seq 0 n))) (seq 0 n)).
Definition Psd (n : nat) (A : mat) : Prop := forall v, 0 <= quad n A v.
