(** Specification vocabulary for the tables of the detector. *)
From Coq Require Import ZArith.
From Verif Require Import Py M_DetectorData.
Open Scope Z_scope.

(** The coordinates of a DOM, counted from zero, in the list of coordinates. *)
Definition DomAt (s om : nat) (x y z : Z) : Prop :=
  let l := concat x_coords_flat_lines in
  let k := (3 * (60 * s + om))%nat in
  (s < 86)%nat /\ (om < 60)%nat /\ nth_error l k = Some x /\ nth_error l (k + 1) = Some y /\ nth_error l (k + 2) = Some z.

(** The coordinates of a place of the square grid. *)
Definition CellAt (a b d : nat) (x y z : Z) : Prop :=
  let l := concat X_IC79_coords_flat_lines in
  let k := (3 * (60 * (10 * a + b) + d))%nat in
  (a < 10)%nat /\ (b < 10)%nat /\ (d < 60)%nat /\
  nth_error l k = Some x /\ nth_error l (k + 1) = Some y /\ nth_error l (k + 2) = Some z.

(** [r] is the integer nearest to [c] hundredths, the even one of two. *)
Definition Rounded (c r : Z) : Prop :=
  Z.abs (100 * r - c) <= 50 /\ (Z.abs (100 * r - c) = 50 -> Z.Even r).

(** Entry of a table of shape [86, 60]. *)
Definition At {A} (t : list (list A)) (s om : nat) (x : A) : Prop :=
  exists row, nth_error t s = Some row /\ nth_error row om = Some x.

(** Entries of a dictionary. *)
Definition Entry {K A} (d : list (K * A)) (k : K) (v : A) : Prop := In (k, v) d.
