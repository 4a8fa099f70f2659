(** Model of the cascade source for charge quantiles
    (/repo/egenerator/model/source/cascade/charge_quantiles.py l.15-652).

    Simplifications: as in M_Cascade (exact reals, the vertex not at the position
    of a DOM, the layers arbitrary functions of the inputs of the whole batch).
    The logarithms of the inputs are taken of positive numbers.  Indices of pulses
    out of range are reported after the errors of the configuration, which occur
    when the function is traced.  The prints (also those of the values for small
    quantiles, l.615-635) are left out. *)
From Coq Require Import Reals.
From Verif Require Import Py PyStr RList M_Source M_Noise M_Basis M_Cascade.
Open Scope R_scope.

(** Of the options shared with the default cascade, [g_labels] and [g_sort] are
    not read. *)
Record quantile_config := {
  z_base : cascade_config;
  z_fc_filters : nat;          (* 'fc_num_filters_list'[-1] *)
  z_predicted : bool           (* 'add_predicted_charge_to_latent_vars' *)
}.

(** A pulse: event, DOM, charge, time and quantile (l.189-192) *)
Record qpulse := { h_event : nat; h_cell : cell; h_charge : R; h_time : R; h_quantile : R }.

Record quantile_tensors := {
  w_charges : nat -> cell -> R;              (* 'dom_charges' *)
  w_unc : nat -> cell -> R;                  (* 'dom_charges_unc' *)
  w_var : nat -> cell -> R;                  (* 'dom_charges_variance' *)
  w_llh : option (nat -> cell -> ext);       (* 'dom_charges_log_pdf_values' *)
  w_comps : nat -> list comp;                (* 'quantile_latent_var_*', of a pulse *)
  w_pdf : list R                             (* 'pulse_quantile_pdf' *)
}.

(** The options of the default cascade that the source reads *)
Definition plain (z : quantile_config) : cascade_config :=
  let g := z_base z in
  {| g_labels := None; g_snowstorm := g_snowstorm g; g_opening := g_opening g; g_coordinates := g_coordinates g;
     g_local := g_local g; g_filters := g_filters g; g_models := g_models g; g_charge := g_charge g;
     g_sort := false; g_scale := g_scale g; g_relative := g_relative g; g_global := g_global g |}.

Section Quantile.
Variable format : string -> nat -> string.

(** Names of the parameters (l.66-74) *)
Definition quantile_names (z : quantile_config) : list string := cascade_names format (plain z).

(** Inputs of the fully connected layers (l.118-125) *)
Definition num_fc_inputs (z : quantile_config) : nat :=
  let n := (g_filters (z_base z) - 1 + 3)%nat in
  let n := match mode (z_base z) with
           | Asymmetric => (n - 2)%nat
           | NegativeBinomial => (n - 1)%nat
           | Poisson => n
           end in
  if z_predicted z then (n + 2)%nat else n.

Variable trafo : nat -> R -> R.
Variables mean std : nat -> R.
Variable norm_const : R.
Variable coords : cell -> R * R * R.
Variable local_vars : cell -> list R.
Variable lgamma : R -> R.
Variable rel_eff : cell -> R.
(** The convolutional layers and the fully connected ones; the latter are applied
    to one row for each pulse. *)
Variable net : list (list (list R)) -> nat -> cell -> list R.
Variable fcnet : list (list R) -> nat -> list R.

(** Time of light from the vertex to the DOM, in nanoseconds (l.230-243) *)
Definition c_ice : R := 22103046286329384 / 100000000000000000.
Definition propagation (row : list R) (c : cell) : R :=
  let '(x, y, z) := coords c in
  let dx := x - nth 0 row 0 in
  let dy := y - nth 1 row 0 in
  let dz := z - nth 2 row 0 in
  sqrt (dx ^ 2 + dy ^ 2 + dz ^ 2) / c_ice.

(** Input of the fully connected layers for a pulse (l.493-529); [out]: output of
    the convolutional layers for the DOM, [q]: expected charge, [true_q]: observed
    charge *)
Definition fc_input (z : quantile_config) (out : list R) (q true_q : R) (p : qpulse) : list R :=
  [ln (h_quantile p); 1 / 10 * ln (true_q + 1); ln (h_charge p / true_q)]
  ++ skipn (n_charge (mode (z_base z))) out
  ++ (if z_predicted z then [1 / 10 * ln (q + 1); ln (h_charge p / q)] else []).

(** Components of a pulse (l.557-607); [light]: time of light in microseconds *)
Definition quantile_components (n : nat) (light : R) (out : list R) : list comp :=
  let mu := map (fun v => light + 1 / 10 + 1 / 10 * v) (slice (0 * n) n out) in
  let sigma := map (fun v => elu (3 / 10 + 1 / 10 * v) + 1001 / 1000) (slice (1 * n) n out) in
  let r := map (fun v => elu (1 / 1000 * v) + 1001 / 1000) (slice (2 * n) n out) in
  let scale := map (fun v => elu (1 + 1 * v) + 100001 / 100000) (slice (3 * n) n out) in
  let total := Rsum scale in
  let scale := map (fun s => s / total) scale in
  map (fun i => {| k_mu := nth i mu 0; k_sigma := nth i sigma 0; k_r := nth i r 0; k_scale := nth i scale 0 |})
    (seq 0 n).

(** [get_tensors] (l.136-652); [rows]: parameters of the events, [charges]:
    observed charges *)
Definition quantile_get_tensors (z : quantile_config) (rows : list (list R)) (charges : nat -> cell -> R)
    (pulses : list qpulse) : result quantile_tensors :=
  let g := plain z in
  let n := length rows in
  (* l.194-331 *)
  if existsb (fun row => Nat.ltb (length row) 7) rows then Err IndexError
  else
    let inputs := map (event_input trafo mean std norm_const coords local_vars g) rows in
    if existsb (fun l => existsb (fun v => negb (Nat.eqb (length v) (num_inputs g))) l) inputs
    then Err ValueError
    else
      let out e c := net inputs e c in
      let nc := n_charge (mode g) in
      (* channels that do not exist *)
      if Nat.ltb (g_filters g) nc then Err ValueError
      else
        (* l.334-366 *)
        bind (if g_global g then name_index (quantile_names z) "DOMEfficiency" else Ok 0%nat) (fun i_eff =>
        let q e c :=
          let row := nth e rows [] in
          raw_charge rel_eff g row (out e c) c (nth i_eff row 0) + 1 / 10000000 in
        (* l.368-485 *)
        let terms e c := charge_terms lgamma g (out e c) (q e c) (charges e c) in
        (* l.566-571 *)
        if negb (Nat.eqb (g_models g * 4) (z_fc_filters z)) then Err ValueError
        else if Nat.ltb (g_models g) 1 then Err ValueError
        else if negb (forallb (fun p => in_range n (h_event p) (h_cell p)) pulses) then Err IndexError
        else
          (* l.493-538 *)
          let fc := map (fun p => fc_input z (out (h_event p) (h_cell p)) (q (h_event p) (h_cell p))
                                    (charges (h_event p) (h_cell p)) p) pulses in
          if existsb (fun v => negb (Nat.eqb (length v) (num_fc_inputs z))) fc then Err ValueError
          else
            (* l.544-607 *)
            let comps j :=
              match nth_error pulses j with
              | Some p => quantile_components (g_models g)
                            (propagation (nth (h_event p) rows []) (h_cell p) * (1 / 1000)) (fcnet fc j)
              | None => []
              end in
            (* l.641-649 *)
            let pdf := map (fun jp => pulse_density (comps (fst jp)) None
                                        (nth 6 (nth (h_event (snd jp)) rows []) 0) (h_time (snd jp)))
                         (combine (seq 0 (length pulses)) pulses) in
            Ok {| w_charges := q; w_unc := fun e c => fst (fst (terms e c)); w_var := fun e c => snd (fst (terms e c));
                  w_llh := match mode g with
                           | Poisson => None
                           | _ => Some (fun e c => match snd (terms e c) with Some v => v | None => NaN end)
                           end;
                  w_comps := comps; w_pdf := pdf |}).
End Quantile.
