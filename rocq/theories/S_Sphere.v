(** Specification vocabulary for spherical geometry and replacement of
    values. *)
From Coq Require Import Sorting.Sorted.
From Verif Require Import Py RList.
From Verif Require Import M_Sphere.

(** ** Vectors *)

Definition vec := (R * R * R)%type.
Definition dot (a b : vec) : R :=
  let '(x, y, z) := a in let '(x', y', z') := b in x * x' + y * y' + z * z'.
Definition scale (k : R) (a : vec) : vec :=
  let '(x, y, z) := a in (k * x, k * y, k * z).
Definition vsub (a b : vec) : vec :=
  let '(x, y, z) := a in let '(x', y', z') := b in (x - x', y - y', z - z').
Definition vadd (a b : vec) : vec :=
  let '(x, y, z) := a in let '(x', y', z') := b in (x + x', y + y', z + z').
Definition unit (a : vec) : Prop := dot a a = 1.

Definition xyz (s : spher) : vec := (sx s, sy s, sz s).

(** The direction with the given angles. *)
Definition direction (zenith azimuth : R) : vec :=
  (sin zenith * cos azimuth, sin zenith * sin azimuth, cos zenith).

(** All fields of an entry belong to one direction. *)
Definition coherent (s : spher) : Prop :=
  sinzen s = sin (zen s) /\ coszen s = cos (zen s) /\
  sinaz s = sin (az s) /\ cosaz s = cos (az s) /\
  xyz s = direction (zen s) (az s).

(** The angles are in their standard ranges. *)
Definition standard (s : spher) : Prop :=
  0 <= zen s <= PI /\ 0 <= az s < 2 * PI.

(** Reflection of [v] at the axis through the unit vector [c]: the component
    along [c] is kept, the orthogonal one changes its sign. *)
Definition point_reflection (v c : vec) : vec :=
  vsub (scale (2 * dot c v) c) v.

(** ** Values and indices *)

(** Distinct indices into [vals] in order of increasing values. *)
Definition sorted_by (vals : list R) (idx : list nat) : Prop :=
  NoDup idx /\ (forall i, In i idx -> (i < length vals)%nat) /\
  StronglySorted (fun i j => nth i vals 0 <= nth j vals 0) idx.

(** A way to replace old by new values such that every value gets smaller:
    pairs of (old index, new index) without repetition. *)
Definition improving (old new : list R) (olds news : list nat)
  (l : list (nat * nat)) : Prop :=
  NoDup (map fst l) /\ NoDup (map snd l) /\
  forall i j, In (i, j) l ->
    In i olds /\ In j news /\ nth j new 0 < nth i old 0.

(** Number of values at most [t]. *)
Definition count_le (t : R) (l : list R) : nat :=
  length (filter (fun x => Rleb x t) l).
