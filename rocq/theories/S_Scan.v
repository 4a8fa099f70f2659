(** Specification vocabulary for likelihood scans. *)
From Verif Require Import RList M_Trafo S_Trafo S_Reco.

(** [row'] is [row] with the value [x] of parameter [i]. *)
Definition Replaced (row : list R) (i : nat) (x : R) (row' : list R) : Prop :=
  length row' = length row /\ nth_error row' i = Some x /\
  forall j, j <> i -> nth_error row' j = nth_error row j.

(** [z] is the value [x] of parameter [i] in units of the standard deviation of
    the training data, measured from their mean. *)
Definition Scaled (tr : trafo) (name : string) (i : nat) (x z : R) : Prop :=
  exists t s m d y, dget name (tr_tensors tr) = Some t /\ dget name (tr_data tr) = Some s /\
    nth_error (st_mean s) i = Some m /\ nth_error (st_std s) i = Some d /\
    Seen t i x y /\ z * (tr_norm tr + d) = y - m.

(** One event. *)
Definition single (row : list R) : array := {| ar_shape := [length row]; ar_rows := [row] |}.

(** The sum of the losses of all models at the parameters [row]. *)
Definition LossAt (losses : list (array -> result R)) (row : list R) (l : R) : Prop :=
  losses <> [] /\ exists vs, Forall2 (fun m v => m (single row) = Ok v) losses vs /\ l = Rsum vs.

(** Values TensorFlow does not clip. *)
Definition Inside (t : tinfo) (row : list R) : Prop :=
  Mixed t -> forall j x, nth_error row j = Some x -> Logged t j -> -60 <= ln (1 + x) <= 60.

(** What a figure shows: lines at the values of truth and best fit, levels at
    their losses, and for a thousand values of parameter [i] from one standard
    deviation below the truth to one above it the losses at the truth and at the
    best fit with that value instead of theirs. *)
Definition Shows (tr : trafo) (name : string) (t : tinfo) (losses : list (array -> result R)) (truth best : list R) (i : nat)
  (points : list (R * R * R)) (level_truth level_best line_truth line_best : R) : Prop :=
  nth_error truth i = Some line_truth /\ nth_error best i = Some line_best /\ (Logged t i -> -1 < line_best) /\
  (Inside t truth -> LossAt losses truth level_truth) /\ (Inside t best -> LossAt losses best level_best) /\
  INR (length points) = 1000 /\
  exists z0, Scaled tr name i line_truth z0 /\
    forall k x lt lb, nth_error points k = Some (x, lt, lb) ->
      Scaled tr name i x (z0 - 1 + INR k * 2 / 999) /\ (Logged t i -> -1 < x) /\
      (forall row, Replaced truth i x row -> Inside t row -> LossAt losses row lt) /\
      (forall row, Replaced best i x row -> Inside t row -> LossAt losses row lb).

(** What a figure shows if the settings ask for fits in the original space: the
    losses take the values [ztruth] in units of the standard deviation for
    parameters, and the scan replaces one parameter of the best fit [best] by such
    a value. *)
Definition ShowsUntransformed (tr : trafo) (name : string) (losses : list (array -> result R)) (truth ztruth best : list R) (i : nat)
  (points : list (R * R * R)) (level_truth level_best line_truth : R) : Prop :=
  nth_error truth i = Some line_truth /\ length ztruth = length truth /\
  (forall j x z, nth_error truth j = Some x -> nth_error ztruth j = Some z -> Scaled tr name j x z) /\
  LossAt losses ztruth level_truth /\ LossAt losses best level_best /\
  INR (length points) = 1000 /\
  exists z0, nth_error ztruth i = Some z0 /\
    forall k x lt lb, nth_error points k = Some (x, lt, lb) ->
      let v := z0 - 1 + INR k * 2 / 999 in
      Scaled tr name i x v /\
      (forall row, Replaced ztruth i v row -> LossAt losses row lt) /\
      (forall row, Replaced best i v row -> LossAt losses row lb).

(** The value of parameter [i] at the points of a figure. *)
Definition PointAt (points : list (R * R * R)) (k : nat) (x : R) : Prop :=
  exists lt lb, nth_error points k = Some (x, lt, lb).
