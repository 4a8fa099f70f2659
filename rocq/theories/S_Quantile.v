(** Specification for the cascade source for charge quantiles. *)
From Coq Require Import Reals.
From Verif Require Import Py RList M_Source M_Noise S_Noise M_Cascade S_Cascade M_Quantile.
Open Scope R_scope.

(** The number of parameters *)
Definition quantile_parameters (z : quantile_config) : nat :=
  (7 + match g_snowstorm (z_base z) with Some l => list_sum (map snd l) | None => 0 end)%nat.

(** Parameters, learned variables and layers of the documented sizes *)
Definition QFits (local_vars : cell -> list R) (net : list (list (list R)) -> nat -> cell -> list R)
    (fcnet : list (list R) -> nat -> list R) (z : quantile_config) (rows : list (list R)) : Prop :=
  Forall (fun row => length row = quantile_parameters z) rows /\
  (forall c, length (local_vars c) = g_local (z_base z)) /\
  (forall inputs e c, length (net inputs e c) = g_filters (z_base z)) /\
  (forall inputs j, length (fcnet inputs j) = z_fc_filters z).

Definition QValid (n : nat) (ps : list qpulse) : Prop :=
  Forall (fun p => (h_event p < n)%nat /\ InDetector (h_cell p)) ps.

(** The pulses with another time for one of them *)
Definition at_time (t : R) (p : qpulse) : qpulse :=
  {| h_event := h_event p; h_cell := h_cell p; h_charge := h_charge p; h_time := t; h_quantile := h_quantile p |}.
Definition Retimed (j : nat) (t : R) (ps ps' : list qpulse) : Prop :=
  length ps' = length ps /\
  forall i p, nth_error ps i = Some p -> nth_error ps' i = Some (if Nat.eqb i j then at_time t p else p).
Definition shift_qpulse (d : nat -> R) (p : qpulse) : qpulse := at_time (h_time p + d (h_event p)) p.

(** What the second network is told of a pulse: quantile, charge of the DOM, share
    of the pulse, the latent variables of the DOM and, if wanted, the expected
    charge and the ratio to it *)
Definition QTold (z : quantile_config) (latent : list R) (q true_q : R) (p : qpulse) (v : list R) : Prop :=
  exists rest, v = ln (h_quantile p) :: ln (1 + true_q) / 10 :: ln (h_charge p / true_q) :: rest /\
  rest = if z_predicted z then app latent [ln (1 + q) / 10; ln (h_charge p / q)] else latent.

(** Light from the vertex reaches the DOM after [t] nanoseconds. *)
Definition Arrives (dom : R * R * R) (row : list R) (t : R) : Prop :=
  0 <= t /\
  (22103046286329384 / 10 ^ 17 * t) ^ 2
  = (fst (fst dom) - nth 0 row 0) ^ 2 + (snd (fst dom) - nth 1 row 0) ^ 2 + (snd dom - nth 2 row 0) ^ 2.

(** The options of the charge and of the inputs are those of a default cascade. *)
Definition SameOptions (g g' : cascade_config) : Prop :=
  g_labels g' = None /\ g_snowstorm g' = g_snowstorm g /\ g_opening g' = g_opening g /\
  g_coordinates g' = g_coordinates g /\ g_local g' = g_local g /\ g_charge g' = g_charge g /\
  g_scale g' = g_scale g /\ g_relative g' = g_relative g /\ g_global g' = g_global g.

(** Two results agree for the events of a batch of [n]. *)
Definition SameQuantiles (n : nat) (a b : result quantile_tensors) : Prop :=
  match a, b with
  | Ok a, Ok b =>
      Agrees n (w_charges a) (w_charges b) /\ Agrees n (w_unc a) (w_unc b) /\ Agrees n (w_var a) (w_var b) /\
      AgreesO n (w_llh a) (w_llh b) /\ (forall j, w_comps a j = w_comps b j) /\ w_pdf a = w_pdf b
  | Err x, Err y => x = y
  | _, _ => False
  end.
