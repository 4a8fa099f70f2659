(** What is expected of covariances of several models. *)
From Coq Require Import Reals List.
From Verif Require Import Py RList M_Trafo M_Ensemble.
Import ListNotations.
Open Scope R_scope.

(** Inverse of an n x n matrix, written with sums *)
Definition delta (i j : nat) : R := if Nat.eqb i j then 1 else 0.
Definition InverseOf (n : nat) (A B : mat) : Prop :=
  forall i j, (i < n)%nat -> (j < n)%nat ->
    Rsum (map (fun k => A i k * B k j) (seq 0 n)) = delta i j /\ Rsum (map (fun k => B i k * A k j) (seq 0 n)) = delta i j.

(** Number [q] of term [p] *)
Definition number (m : list term) (p q : nat) : jet := nth q (nth p m []) jet_zero.

(** Two models have terms of the same shapes *)
Definition same_layout (a b : list term) : Prop := map (@length jet) a = map (@length jet) b.
