(** Specification for the cascade source. *)
From Coq Require Import Reals.
From Verif Require Import Py RList M_Source S_Basis M_Noise S_Noise M_Cascade.
Open Scope R_scope.

(** The integral of [f] over all times is [v]. *)
Definition TotalMass (f : R -> R) (v : R) : Prop :=
  forall eps, 0 < eps -> exists m, forall a b, a < - m -> m < b ->
  exists u, Integrates f a b u /\ Rabs (u - v) < eps.

(** [f] is the density a source gives to pulses of a DOM in an event, as a function
    of the time of the pulse; [call] evaluates the source for given pulses. *)
Definition IsDensity (call : list cpulse -> result cascade_tensors) (e : nat) (c : cell) (f : R -> R) : Prop :=
  forall t, exists r, call [{| u_event := e; u_cell := c; u_time := t |}] = Ok r /\ a_pdf r = [f t].

(** Pulses, rows of parameters *)
Definition ValidPulses (n : nat) (ps : list cpulse) : Prop :=
  Forall (fun p => (u_event p < n)%nat /\ InDetector (u_cell p)) ps.

(** The parameters of an event with the time shifted by [d] *)
Definition Shifted (d : R) (row row' : list R) : Prop :=
  length row' = length row /\
  forall i, (i < length row)%nat -> nth i row' 0 = nth i row 0 + (if Nat.eqb i 6 then d else 0).

(** The parameters of an event with other angles for the same direction *)
Definition Turned (row row' : list R) : Prop :=
  length row' = length row /\
  (forall i, i <> 3%nat -> i <> 4%nat -> nth i row' 0 = nth i row 0) /\
  sin (nth 3 row' 0) * cos (nth 4 row' 0) = sin (nth 3 row 0) * cos (nth 4 row 0) /\
  sin (nth 3 row' 0) * sin (nth 4 row' 0) = sin (nth 3 row 0) * sin (nth 4 row 0) /\
  cos (nth 3 row' 0) = cos (nth 3 row 0).

(** Two results agree for the events of a batch of [n]. *)
Definition Agrees {A} (n : nat) (f g : nat -> cell -> A) : Prop :=
  forall e c, (e < n)%nat -> f e c = g e c.
Definition AgreesO {A} (n : nat) (f g : option (nat -> cell -> A)) : Prop :=
  match f, g with Some f, Some g => Agrees n f g | None, None => True | _, _ => False end.
Definition SameTensors (n : nat) (a b : result cascade_tensors) : Prop :=
  match a, b with
  | Ok a, Ok b =>
      Agrees n (a_comps a) (a_comps b) /\ AgreesO n (a_excl a) (a_excl b) /\
      AgreesO n (a_excl_sum a) (a_excl_sum b) /\ Agrees n (a_charges a) (a_charges b) /\
      Agrees n (a_unc a) (a_unc b) /\ Agrees n (a_var a) (a_var b) /\ AgreesO n (a_llh a) (a_llh b) /\
      a_pdf a = a_pdf b
  | Err x, Err y => x = y
  | _, _ => False
  end.

(** A mixture: the weights are positive and add up to one, the widths are
    positive. *)
Definition Mixture (ks : list comp) : Prop :=
  Forall (fun k => 0 < k_scale k /\ 1 / 1000 < k_sigma k /\ 1 / 1000 < k_r k) ks /\
  Rsum (map k_scale ks) = 1.

(** Windows and pulses with the times of event [e] shifted by [d e] *)
Definition shift_window (d : nat -> R) (x : exclusion) : exclusion :=
  {| x_event := x_event x; x_cell := x_cell x; x_start := x_start x + d (x_event x);
     x_stop := x_stop x + d (x_event x) |}.
Definition shift_pulse (d : nat -> R) (p : cpulse) : cpulse :=
  {| u_event := u_event p; u_cell := u_cell p; u_time := u_time p + d (u_event p) |}.

(** The number of parameters of the source *)
Definition num_parameters (g : cascade_config) : nat :=
  (7 + match g_labels g with Some l => length l | None => 0 end
   + match g_snowstorm g with Some l => list_sum (map snd l) | None => 0 end)%nat.

(** [g] with the option 'prevent_mixture_component_swapping' *)
Definition with_sort (b : bool) (g : cascade_config) : cascade_config :=
  {| g_labels := g_labels g; g_snowstorm := g_snowstorm g; g_opening := g_opening g;
     g_coordinates := g_coordinates g; g_local := g_local g; g_filters := g_filters g; g_models := g_models g;
     g_charge := g_charge g; g_sort := b; g_scale := g_scale g; g_relative := g_relative g; g_global := g_global g |}.

(** The exponential linear unit *)
Definition bend (x : R) : R := if Rlt_dec x 0 then exp x - 1 else x.
