(** Specification for combined sources. *)
From Coq Require Import Reals.
From Verif Require Import Py RList M_Source.
Open Scope R_scope.

(** Total expected charge of several sources at a DOM. *)
Definition total (rs : list tensors) (c : cell) : R := Rsum (map (fun r => t_charges r c) rs).

(** Density of source [r] at pulse [j]. *)
Definition density (r : tensors) (j : nat) : R := nth j (t_pdf r) 0.

(** The sources give one density per pulse. *)
Definition Shaped (ids : list cell) (r : tensors) : Prop := length (t_pdf r) = length ids.

(** Physically sensible results. *)
Definition Sensible (r : tensors) : Prop := (forall c, 0 <= t_charges r c) /\ forall p, In p (t_pdf r) -> 0 <= p.

(** The combination of results: sums of charges and variances; averages of the excluded fractions and densities, weighted by charge. *)
Definition Combination (ids : list cell) (rs : list tensors) (c : combined) : Prop :=
  (forall x, c_charges c x = total rs x) /\ (forall x, c_var c x = Rsum (map (fun r => t_var r x) rs)) /\
  (forall x, total rs x = 0 -> c_excl c x = None) /\
  (forall x, total rs x <> 0 -> c_excl c x = Some (Rsum (map (fun r => t_excl r x * t_charges r x) rs) / total rs x)) /\
  (Forall (Shaped ids) rs -> length (c_pdf c) = length ids /\
   forall j x, nth_error ids j = Some x -> nth j (c_pdf c) 0 = Rsum (map (fun r => density r j * t_charges r x) rs) / (total rs x + 1 / 1000000)).

(** Source [base] of [subs] evaluated with the parameters of [name]. *)
Definition Evaluated (subs : dict source) (params : dict (list R)) (base name : string) (r : tensors) : Prop :=
  exists sub row, dget base subs = Some sub /\ dget name params = Some row /\ s_eval sub row = Ok r.

(** Two results agree. *)
Definition Same (a b : combined) : Prop :=
  (forall c, c_charges a c = c_charges b c) /\ (forall c, c_var a c = c_var b c) /\
  (forall c, c_excl a c = c_excl b c) /\ c_pdf a = c_pdf b.

(** Points and times. *)
Definition point := (R * R * R)%type.
Definition dot (u v : point) : R := let '(a, b, c) := u in let '(d, e, f) := v in a * d + b * e + c * f.
Definition minus (u v : point) : point := let '(a, b, c) := u in let '(d, e, f) := v in (a - d, b - e, c - f).
Definition scale (s : R) (u : point) : point := let '(a, b, c) := u in (s * a, s * b, s * c).
Definition norm2 (u : point) : R := dot u u.

(** The vector that points from a particle to where it comes from. *)
Definition origin (zenith azimuth : R) : point := (sin zenith * cos azimuth, sin zenith * sin azimuth, cos zenith).

(** [q] at time [t'] is reached from [p] at time [t] by flying the signed
    distance [s] at the speed of light, away from the origin. *)
Definition Flight (p : point) (t : R) (q : point) (t' : R) (zenith azimuth s : R) : Prop :=
  minus p q = scale s (origin zenith azimuth) /\ (t' - t) * (299792458 / 1000000000) = s.

(** No underscore. *)
Fixpoint plain (s : string) : Prop :=
  match s with EmptyString => True | String c r => c <> "_"%char /\ plain r end.
