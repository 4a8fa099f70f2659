(** Model of [get_circularized_estimate] in
    egenerator/manager/reconstruction/modules/opening_angle.py l.327-356. *)
From Coq Require Import Reals List.
From Verif Require Import Py RList M_Basis M_Angles.
Import ListNotations.
Open Scope R_scope.

Section Circular.
(** [chi2(ddof).cdf] of scipy for the degrees of freedom of the call *)
Variable chi2_cdf : R -> R.

(** [cdf_values] (l.345-346) *)
Definition cdf_values (delta_loss : list R) : list R := map (fun l => chi2_cdf (2 * l)) delta_loss.

(** The function of sigma that is given to [optimize.minimize] (l.348-354).
    Simplification: for sigma = 0 numpy divides by zero, so values are of
    interest for other sigma only.  The minimiser of scipy itself is not
    modelled: theorems describe the minima of this function. *)
Definition objective (delta_psi delta_loss : list R) (sigma : R) : R := loss_cdf sigma delta_psi (cdf_values delta_loss).
End Circular.
