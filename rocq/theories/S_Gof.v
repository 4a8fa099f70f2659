(** Specification vocabulary for the goodness-of-fit module. *)
From Coq Require Import ZArith Reals Sorting.Permutation Sorting.Sorted.
From Verif Require Import Py RList M_Gof.
Open Scope R_scope.

(** Numbers of samples below a value and not below it *)
Definition below (l : list R) (v : R) : nat := length (filter (fun x => Rltb x v) l).
Definition not_below (l : list R) (v : R) : nat := length (filter (fun x => negb (Rltb x v)) l).

(** What [np.argsort] promises *)
Definition IsArgsort (argsort : list R -> list nat) : Prop :=
  forall l, Permutation (argsort l) (seq 0 (length l)) /\
            StronglySorted (fun i j => nth i l 0 <= nth j l 0) (argsort l).

(** What the generator of uniform numbers promises: as many as asked for,
    charges from 1/4 to 7/4 and numbers from 0 to 1, without 1. *)
Definition UniformCharges (draw : nat -> nat -> nat -> list R) : Prop :=
  forall s o n, length (draw s o n) = n /\ Forall (fun c => 1 / 4 <= c <= 7 / 4) (draw s o n).
Definition UniformPairs (draw : nat -> nat -> nat -> list (R * R)) : Prop :=
  forall s o n, length (draw s o n) = n /\
    Forall (fun u => 0 <= fst u < 1 /\ 0 <= snd u < 1) (draw s o n).

(** The rows whose identifier is that of the DOM *)
Definition pulses_of (s o : nat) (ids : list pid) (rows : list prow) : list prow :=
  map snd (filter (fun x =>
    let '(e, s', o') := fst x in
    (Z.eqb e 0 && Z.eqb s' (Z.of_nat s) && Z.eqb o' (Z.of_nat o))%bool) (combine ids rows)).

Definition charges (rows : list prow) : list R := map M_Pulse.r_charge rows.
Definition times (rows : list prow) : list R := map M_Pulse.r_time rows.

(** The charge of every DOM in the batch is the sum of the charges of its
    pulses. *)
Definition Consistent (st : gsettings) (batch : list value) : Prop :=
  exists rows ids q,
    nth_error batch (g_pulses st) = Some (VPulses rows) /\
    nth_error batch (g_ids st) = Some (VIds ids) /\
    nth_error batch (g_charge st) = Some (VCharge q) /\
    forall s o, (s < 86)%nat -> (o < 60)%nat -> Rsum (charges (pulses_of s o ids rows)) = q s o.

(** The indices of the tensors are different positions of the batch. *)
Definition Indices (st : gsettings) (batch : list value) : Prop :=
  (g_pulses st < length batch)%nat /\ (g_ids st < length batch)%nat /\
  (g_charge st < length batch)%nat /\
  g_pulses st <> g_ids st /\ g_pulses st <> g_charge st /\ g_ids st <> g_charge st.
