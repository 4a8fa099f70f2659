(** Model of the cascade source
    (/repo/egenerator/model/source/cascade/default.py l.28-699).

    Simplifications: numbers are exact reals and the vertex is not at the
    position of a DOM (l.216-218 divide by the distance); the assertions let
    numbers through that are not finite, which do not occur here.  The network
    is an arbitrary function of the inputs of the whole batch.
    [InvalidArgumentError] of TensorFlow is [IndexError] for indices out of range
    (as on a CPU) and [AssertionError] for [tf.debugging.Assert]. *)
From Coq Require Import Reals.
From Verif Require Import Py PyStr RList M_Source M_Noise M_Basis.
From Verif Require M_Gof M_Angles.
Open Scope R_scope.

Record cascade_config := {
  g_labels : option (list string);             (* 'additional_label_names' *)
  g_snowstorm : option (list (string * nat));  (* 'snowstorm_parameter_names' *)
  g_opening : bool;                            (* 'add_opening_angle' *)
  g_coordinates : bool;                        (* 'add_dom_coordinates' *)
  g_local : nat;                               (* 'num_local_vars' *)
  g_filters : nat;                             (* 'num_filters_list'[-1] *)
  g_models : nat;                              (* 'num_latent_models' *)
  g_charge : value;                            (* 'estimate_charge_distribution' *)
  g_sort : bool;                               (* 'prevent_mixture_component_swapping' *)
  g_scale : bool;                              (* 'scale_charge' *)
  g_relative : bool;                           (* 'scale_charge_by_relative_dom_efficiency' *)
  g_global : bool                              (* 'scale_charge_by_global_dom_efficiency' *)
}.

Section Cascade.
(** [param_name.format(i)] *)
Variable format : string -> nat -> string.

(** [_build_architecture] (l.54-67): names of the parameters *)
Definition cascade_names (g : cascade_config) : list string :=
  ["x"; "y"; "z"; "zenith"; "azimuth"; "energy"; "time"]
  ++ match g_labels g with Some l => l | None => [] end
  ++ match g_snowstorm g with
     | Some l => flat_map (fun p => map (format (fst p)) (seq 0 (snd p))) l
     | None => []
     end.

(** Number of input channels (l.56-81) *)
Definition num_inputs (g : cascade_config) : nat :=
  let num_add := match g_labels g with Some l => length l | None => 0%nat end in
  let num_snow := match g_snowstorm g with
                  | Some l => fold_left (fun n p => (n + snd p)%nat) l 0%nat
                  | None => 0%nat end in
  (11 + num_add + num_snow + (if g_opening g then 1 else 0) + (if g_coordinates g then 3 else 0) + g_local g)%nat.

(** The data transformer acts on every column by itself (data/trafo.py); its
    means and standard deviations and its small constant (l.238-240). *)
Variable trafo : nat -> R -> R.
Variables mean std : nat -> R.
Variable norm_const : R.

(** [detector.x_coords] *)
Variable coords : cell -> R * R * R.
(** Learned variables of the DOMs (l.77-81) *)
Variable local_vars : cell -> list R.

(** Input of the network for one event and DOM (l.185-291) *)
Definition dom_input (g : cascade_config) (row : list R) (c : cell) : list R :=
  let p i := nth i row 0 in
  let '(x, y, z) := coords c in
  let dx := x - p 0%nat in
  let dy := y - p 1%nat in
  let dz := z - p 2%nat in
  let distance := sqrt (dx ^ 2 + dy ^ 2 + dz ^ 2) in
  let n := (dx / distance, dy / distance, dz / distance) in
  let '(ux, uy, uz) := direction (p 3%nat) (p 4%nat) in
  let opening_angle := M_Angles.get_angle (ux, uy, uz) n in
  let distance' := distance / (sqrt (std 0 ^ 2 + std 1 ^ 2 + std 2 ^ 2) + norm_const) in
  let opening_traf := (opening_angle - mean 3) / (norm_const + std 3) in
  let t i := trafo i (p i) in
  let modified := [t 0%nat; t 1%nat; t 2%nat; ux; uy; uz; t 5%nat]
                  ++ map t (seq 7 (length row - 7)) in
  modified ++ [fst (fst n); snd (fst n); snd n; distance']
  ++ (if g_opening g then [opening_traf] else [])
  ++ (if g_coordinates g then [x / 284; y / 284; z / 284] else [])
  ++ local_vars c.

Definition event_input (g : cascade_config) (row : list R) : list (list R) :=
  map (dom_input g row) detector_cells.

(** Number of latent variables of the charge (l.336-341) *)
Inductive charge_mode := Asymmetric | NegativeBinomial | Poisson.
Definition mode (g : cascade_config) : charge_mode :=
  match g_charge g with
  | VBool true => Asymmetric
  | VStr s => if String.eqb s "negative_binomial" then NegativeBinomial else Poisson
  | _ => Poisson
  end.
Definition n_charge (m : charge_mode) : nat :=
  match m with Asymmetric => 3 | NegativeBinomial => 2 | Poisson => 1 end.

(** A component of the mixture of the pulse times *)
Record comp := { k_mu : R; k_sigma : R; k_r : R; k_scale : R }.

Definition slice (from len : nat) (l : list R) : list R := firstn len (skipn from l).

(** Latent variables of a DOM (l.354-400) *)
Definition components (g : cascade_config) (out : list R) : list comp :=
  let nc := n_charge (mode g) in
  let n := g_models g in
  let mu := map (fun v => 1 + 1 * v) (slice (nc + 0 * n) n out) in
  let sigma := map (fun v => elu (2 + 1 * v) + 1001 / 1000) (slice (nc + 1 * n) n out) in
  let r := map (fun v => elu (1 + 1 * v) + 1001 / 1000) (slice (nc + 2 * n) n out) in
  let scale := map (fun v => elu (1 + 1 * v) + 100001 / 100000) (slice (nc + 3 * n) n out) in
  let total := Rsum scale in
  let scale := map (fun s => s / total) scale in
  let mu := if g_sort g then M_Gof.sort mu else mu in
  map (fun i => {| k_mu := nth i mu 0; k_sigma := nth i sigma 0; k_r := nth i r 0; k_scale := nth i scale 0 |})
    (seq 0 n).

(** The error function *)
Variable erf : R -> R.

(** Excluded fraction of a component (l.311-331, l.405-426); [tc]: time of the
    cascade *)
Definition tw_cdf (tc : R) (k : comp) (x : exclusion) : R :=
  asymmetric_gauss_cdf erf ((x_stop x - tc) * (1 / 1000)) (k_mu k) (k_sigma k) (k_r k)
  - asymmetric_gauss_cdf erf ((x_start x - tc) * (1 / 1000)) (k_mu k) (k_sigma k) (k_r k).

(** Names of the model to indices of the parameters (model/source/base.py
    l.209-210): of equal names the last *)
Definition name_index (names : list string) (k : string) : result nat :=
  lookup k (fold_left (fun d nv => dset (fst nv) (snd nv) d) (combine names (seq 0 (length names))) []).

Record cascade_tensors := {
  a_comps : nat -> cell -> list comp;
  a_excl : option (nat -> cell -> list R);      (* per component *)
  a_excl_sum : option (nat -> cell -> R);
  a_charges : nat -> cell -> R;
  a_unc : nat -> cell -> R;
  a_var : nat -> cell -> R;
  a_llh : option (nat -> cell -> ext);
  a_pdf : list R }.

(** A pulse: event, DOM and time *)
Record cpulse := { u_event : nat; u_cell : cell; u_time : R }.

Variable lgamma : R -> R.
(** [detector.rel_dom_eff] *)
Variable rel_eff : cell -> R.
(** The layers of the network *)
Variable net : list (list (list R)) -> nat -> cell -> list R.

(** The windows of a DOM *)
Definition at_dom (e : nat) (c : cell) (x : exclusion) : bool :=
  Nat.eqb (x_event x) e && Nat.eqb (fst (x_cell x)) (fst c) && Nat.eqb (snd (x_cell x)) (snd c).

(** [dom_cdf_exclusion] and its weighted sum (l.405-511); [time e] is the time
    of the cascade. *)
Definition cascade_exclusion (n : nat) (time : nat -> R) (comps : nat -> cell -> list comp)
    (xs : list exclusion) : result ((nat -> cell -> list R) * (nat -> cell -> R)) :=
  if negb (forallb (fun x => in_range n (x_event x) (x_cell x)) xs) then Err IndexError
  else if negb (forallb (fun x => forallb (fun k => checked (tw_cdf (time (x_event x)) k x))
                           (comps (x_event x) (x_cell x))) xs) then Err AssertionError
  else
    let sums e c := map (fun k => Rsum (map (fun x => clip (tw_cdf (time e) k x) 0 1)
                                         (filter (at_dom e c) xs))) (comps e c) in
    if negb (forallb (fun e => forallb (fun c => forallb checked (sums e c)) detector_cells) (seq 0 n))
    then Err AssertionError
    else
      let excl e c := map (fun v => clip v 0 1) (sums e c) in
      let total e c := Rsum (zipw (fun v k => v * k_scale k) (excl e c) (comps e c)) in
      if negb (forallb (fun e => forallb (fun c => checked (total e c)) detector_cells) (seq 0 n))
      then Err AssertionError
      else Ok (excl, fun e c => clip (total e c) 0 1).

(** Expected charge before the excluded windows (l.517-536) *)
Definition raw_charge (g : cascade_config) (row : list R) (out : list R) (c : cell) (eff : R) : R :=
  let q := exp (nth 0 out 0) in
  let q := if g_scale g then q * (nth 5 row 0 / 10000) else q in
  let q := if g_relative g then q * rel_eff c else q in
  if g_global g then q * eff else q.

(** Distribution of the charge (l.550-658): uncertainty, variance, logarithm of
    the likelihood of the observed charge *)
Definition sigma_scale (v : R) : R := elu (1 / 10 * v - 2) + 19 / 10.
Definition charge_r (v : R) : R := elu (1 / 100 * v - 2) + 19 / 10.
Definition charge_alpha (v : R) : R := elu (v - 5) + 1000001 / 1000000.
Definition charge_terms (g : cascade_config) (out : list R) (q true_q : R) : R * R * option ext :=
  let eps := 1 / 10000000 in
  match mode g with
  | Asymmetric =>
      let s := sqrt (Rmax q (1 / 10000)) * sigma_scale (nth 1 out 0) in
      let r := charge_r (nth 2 out 0) in
      let unc := if Rltb 5 true_q then s * ((1 + r) / 2) else sqrt (q + eps) in
      let llh := if Rltb 5 true_q then elog (asymmetric_gauss true_q q s r + eps)
                 else eadd (escale true_q (elog (q + eps))) (Fin (- q)) in
      (unc, unc ^ 2, Some llh)
  | NegativeBinomial =>
      let alpha := charge_alpha (nth 1 out 0) in
      let var := q + alpha * q ^ 2 in
      (sqrt var, var, Some (log_negative_binomial lgamma true_q q alpha false))
  | Poisson => (sqrt q, q, None)
  end.

(** Density of a pulse (l.306-329, l.664-695); [excl]: excluded fractions of the
    components *)
Definition pulse_density (comps : list comp) (excl : option (list R)) (tc t : R) : R :=
  let x := (t - tc) * (1 / 1000) in
  let scales := map k_scale comps in
  let scales := match excl with
                | None => scales
                | Some l => zipw (fun s v => s / (1 - v + 1 / 1000)) scales l
                end in
  Rsum (zipw (fun k s => asymmetric_gauss x (k_mu k) (k_sigma k) (k_r k) * s) comps scales).

Fixpoint pulse_densities (n : nat) (f : nat -> cell -> R -> R) (pulses : list cpulse) : result (list R) :=
  match pulses with
  | [] => Ok []
  | p :: rest =>
      if in_range n (u_event p) (u_cell p)
      then bind (pulse_densities n f rest) (fun l => Ok (f (u_event p) (u_cell p) (u_time p) :: l))
      else Err IndexError
  end.

(** [get_tensors] (l.107-699); [rows]: parameters of the events, [charges]:
    observed charges, [exclusions]: [None] if the tensor does not exist. *)
Definition cascade_get_tensors (g : cascade_config) (rows : list (list R)) (charges : nat -> cell -> R)
    (exclusions : option (list exclusion)) (pulses : list cpulse) : result cascade_tensors :=
  let n := length rows in
  if existsb (fun row => Nat.ltb (length row) 7) rows then Err IndexError
  else
    let inputs := map (event_input g) rows in
    if existsb (fun l => existsb (fun v => negb (Nat.eqb (length v) (num_inputs g))) l) inputs
    then Err ValueError
    else
      let out e c := net inputs e c in
      if negb (Nat.eqb (g_models g * 4 + n_charge (mode g)) (g_filters g)) then Err ValueError
      else if Nat.leb (g_models g) 1 then Err ValueError
      else
        let comps e c := components g (out e c) in
        let time e := nth 6 (nth e rows []) 0 in
        bind (match exclusions with
              | None => Ok None
              | Some xs => bind (cascade_exclusion n time comps xs) (fun f => Ok (Some f))
              end) (fun excl =>
        bind (if g_global g then name_index (cascade_names g) "DOMEfficiency" else Ok 0%nat) (fun i_eff =>
        let q e c :=
          let row := nth e rows [] in
          let q := raw_charge g row (out e c) c (nth i_eff row 0) in
          let q := match excl with None => q | Some f => q * (1 - snd f e c + 1 / 1000) end in
          q + 1 / 10000000 in
        let terms e c := charge_terms g (out e c) (q e c) (charges e c) in
        bind (pulse_densities n (fun e c t =>
                pulse_density (comps e c) (match excl with None => None | Some f => Some (fst f e c) end)
                  (time e) t) pulses) (fun pdf =>
        Ok {| a_comps := comps;
              a_excl := option_map fst excl; a_excl_sum := option_map snd excl;
              a_charges := q;
              a_unc := fun e c => fst (fst (terms e c)); a_var := fun e c => snd (fst (terms e c));
              a_llh := match mode g with
                       | Poisson => None
                       | _ => Some (fun e c => match snd (terms e c) with Some v => v | None => NaN end)
                       end;
              a_pdf := pdf |}))).
End Cascade.
