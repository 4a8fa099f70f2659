(** Model of the source for segments of stochastic tracks
    (/repo/egenerator/model/source/track/stochastic_segment.py l.15-783).

    Simplifications: numbers are exact reals with infinities and NaN where the code
    can produce them; the sum of the standard deviation of the energy and the
    constant of the normalisation is positive.  The network is an arbitrary
    function of the inputs of the whole batch.  Errors of Python, which are raised
    while the graph is built, come before failures of assertions in TensorFlow
    ([AssertionError]) and before indices out of range ([IndexError]).  The tensor
    of excluded time windows is never read by this source. *)
From Coq Require Import Reals.
From Verif Require Import Py PyStr RList M_Source M_Noise M_Basis M_Cascade.
From Verif Require M_Angles.
Open Scope R_scope.

Record segment_config := {
  h_snowstorm : option (list (string * nat));  (* 'snowstorm_parameter_names' *)
  h_opening : bool;                            (* 'add_opening_angle' *)
  h_coordinates : bool;                        (* 'add_dom_coordinates' *)
  h_local : nat;                               (* 'num_local_vars' *)
  h_filters : nat;                             (* 'num_filters_list'[-1] *)
  h_models : nat;                              (* 'num_latent_models' *)
  h_charge : value;                            (* 'estimate_charge_distribution' *)
  h_scale : bool;                              (* 'scale_charge' *)
  h_relative : bool;                           (* 'scale_charge_by_relative_dom_efficiency' *)
  h_global : bool                              (* 'scale_charge_by_global_dom_efficiency' *)
}.

(** The options that govern charges and times.  The code for them (l.516-671,
    l.702-768) is that of the cascade source (cascade/default.py l.336-400,
    l.517-658, l.664-695) without excluded windows and without the sorting of the
    components, so the definitions of [M_Cascade] are used. *)
Definition common (h : segment_config) : cascade_config :=
  {| g_labels := Some ["length"; "stochasticity"]%string; g_snowstorm := h_snowstorm h; g_opening := h_opening h;
     g_coordinates := h_coordinates h; g_local := h_local h; g_filters := h_filters h; g_models := h_models h;
     g_charge := h_charge h; g_sort := false; g_scale := h_scale h; g_relative := h_relative h;
     g_global := h_global h |}.

(** [tf.math.softplus] *)
Definition softplus (x : R) : R := ln (1 + exp x).

(** [shift_distance_on_track] (l.136-172) *)
Definition shift_on_track (track_length distance : R) : R :=
  distance + softplus (- distance) - softplus (distance - track_length).

(** [get_dep_energy] (l.102-134) for a track length that is not zero *)
Definition dep_energy (energy track_length d1 d2 : R) : R :=
  let d1_finite := shift_on_track track_length d1 in
  let d2_finite := shift_on_track track_length d2 in
  let rel_track_length := Rabs (d2_finite - d1_finite) / track_length in
  energy * rel_track_length.

(** [x / y], also by zero *)
Definition ediv (x y : R) : ext :=
  if Reqb y 0 then (if Rltb 0 x then PosInf else if Rltb x 0 then NegInf else NaN) else Fin (x / y).

(** [tf.math.tanh] *)
Definition tanh_ext (e : ext) : ext :=
  match e with Fin x => Fin (tanh x) | PosInf => Fin 1 | NegInf => Fin (-1) | NaN => NaN end.

(** [tf.math.is_finite] *)
Definition is_finite (e : ext) : bool := match e with Fin _ => true | _ => false end.

Section Segment.
(** [param_name.format(i)] *)
Variable format : string -> nat -> string.

(** [_build_architecture] (l.54-62): names of the parameters *)
Definition segment_names (h : segment_config) : list string :=
  ["x"; "y"; "z"; "zenith"; "azimuth"; "energy"; "time"; "length"; "stochasticity"]
  ++ match h_snowstorm h with
     | Some l => flat_map (fun p => map (format (fst p)) (seq 0 (snd p))) l
     | None => []
     end.

(** Number of input channels (l.57-76) *)
Definition segment_inputs (h : segment_config) : nat :=
  let num_snow := match h_snowstorm h with
                  | Some l => fold_left (fun n p => (n + snd p)%nat) l 0%nat
                  | None => 0%nat end in
  (16 + num_snow + (if h_opening h then 1 else 0) + (if h_coordinates h then 3 else 0) + h_local h)%nat.

(** The data transformer acts on every column by itself (data/trafo.py); its
    means and standard deviations and its small constant (l.398-401). *)
Variable trafo : nat -> R -> R.
Variables mean std : nat -> R.
Variable norm_const : R.

(** [detector.x_coords] *)
Variable coords : cell -> R * R * R.
(** Learned variables of the DOMs (l.72-76) *)
Variable local_vars : cell -> list R.

(** Scaled logarithm of a deposited energy (l.415-428); for a track length of zero
    the energy is NaN (l.132). *)
Definition energy_trafo (track_length e : R) : ext :=
  let l := if Reqb track_length 0 then NaN else elog (1 + e) in
  escale (1 / (std 5 + norm_const)) (eadd l (Fin (- mean 5))).

(** Input of the network for one event and DOM (l.268-481) *)
Definition segment_input (h : segment_config) (row : list R) (c : cell) : list ext :=
  let p i := nth i row 0 in
  let '(x, y, z) := coords c in
  let energy := p 5%nat + 1 / 10 in
  let track_length := p 7%nat + 1 in
  let '(ux, uy, uz) := direction (p 3%nat) (p 4%nat) in
  let h_x := x - p 0%nat in
  let h_y := y - p 1%nat in
  let h_z := z - p 2%nat in
  let infinite := ux * h_x + uy * h_y + uz * h_z in
  let rel_infinite := ediv infinite track_length in
  let rel_infinite_trafo := tanh_ext (escale (1 / 10) rel_infinite) in
  let closest := shift_on_track track_length infinite in
  let rel_closest := ediv closest track_length in
  let delta := infinite - closest in
  let dx_inf := x - (p 0%nat + infinite * ux) in
  let dy_inf := y - (p 1%nat + infinite * uy) in
  let dz_inf := z - (p 2%nat + infinite * uz) in
  let distance_infinite := sqrt (dx_inf ^ 2 + dy_inf ^ 2 + dz_inf ^ 2) in
  let dx := x - (p 0%nat + closest * ux) in
  let dy := y - (p 1%nat + closest * uy) in
  let dz := z - (p 2%nat + closest * uz) in
  let distance := sqrt (dx ^ 2 + dy ^ 2 + dz ^ 2) + 1 / 10 in
  let cherenkov_angle := acos (1 / (13195 / 10000)) in
  let cherenkov := infinite - distance_infinite / tan cherenkov_angle in
  let energy_before := dep_energy energy track_length (closest - 100) closest in
  let energy_after := dep_energy energy track_length closest (closest + 100) in
  let energy_cherenkov := dep_energy energy track_length cherenkov infinite in
  let n := (dx / distance, dy / distance, dz / distance) in
  let opening_angle := M_Angles.get_angle (ux, uy, uz) n in
  let size := sqrt (std 0 ^ 2 + std 1 ^ 2 + std 2 ^ 2) + norm_const in
  let opening_traf := (opening_angle - mean 3) / (norm_const + std 3) in
  let t i := trafo i (p i) in
  let modified := [ux; uy; uz; t 5%nat] ++ map t (seq 7 (length row - 7)) in
  map Fin modified
  ++ [Fin (fst (fst n)); Fin (snd (fst n)); Fin (snd n); Fin (distance / size); Fin (delta / size);
      energy_trafo track_length energy_before; energy_trafo track_length energy_after;
      energy_trafo track_length energy_cherenkov; rel_closest; rel_infinite_trafo]
  ++ (if h_opening h then [Fin opening_traf] else [])
  ++ (if h_coordinates h then [Fin (x / 284); Fin (y / 284); Fin (z / 284)] else [])
  ++ map Fin (local_vars c).

Definition segment_event (h : segment_config) (row : list R) : list (list ext) :=
  map (segment_input h row) detector_cells.

Variable lgamma : R -> R.
(** [detector.rel_dom_eff] *)
Variable rel_eff : cell -> R.
(** The layers of the network *)
Variable net : list (list (list ext)) -> nat -> cell -> list R.

(** The charge [q] of a DOM, its uncertainty and its likelihood are finite
    (l.769-779; the other tensors always are). *)
Definition finite_terms (g : cascade_config) (q true_q : R) (t : R * R * option ext) : bool :=
  match mode g with
  | Asymmetric => Rltb 5 true_q || Rleb 0 (q + 1 / 10000000)
  | NegativeBinomial => Rleb 0 (snd (fst t))
  | Poisson => Rleb 0 q
  end && match snd t with Some e => is_finite e | None => true end.

(** [get_tensors] (l.174-783); [trafo_log]: the flags of the parameters,
    [None] if they are not a list. *)
Definition segment_get_tensors (h : segment_config) (trafo_log : option (list bool)) (is_training : bool)
    (rows : list (list R)) (charges : nat -> cell -> R) (pulses : list cpulse) : result cascade_tensors :=
  let n := length rows in
  let g := common h in
  if existsb (fun row => Nat.ltb (length row) 9) rows then Err IndexError
  else
    bind (match trafo_log with
          | None => Err TypeError
          | Some l => match nth_error l 5 with
                      | None => Err IndexError
                      | Some true => Ok tt
                      | Some false => Err UnboundLocalError
                      end
          end) (fun _ =>
    let inputs := map (segment_event h) rows in
    if existsb (fun l => existsb (fun v => negb (Nat.eqb (length v) (segment_inputs h))) l) inputs
    then Err ValueError
    else
      let out e c := net inputs e c in
      bind (if h_global h then name_index (segment_names h) "DOMEfficiency" else Ok 0%nat) (fun i_eff =>
      let q e c :=
        let row := nth e rows [] in
        raw_charge rel_eff g row (out e c) c (nth i_eff row 0) + 1 / 10000000 in
      let terms e c := charge_terms lgamma g (out e c) (q e c) (charges e c) in
      if negb (Nat.eqb (h_models h * 4 + n_charge (mode g)) (h_filters h)) then Err ValueError
      else if Nat.leb (h_models h) 1 then Err ValueError
      else if is_training && existsb (fun row => Rltb (nth 5 row 0) (- (1 / 1000))
                                                 || Rltb (nth 7 row 0) (- 1000)) rows
      then Err AssertionError
      (* the mean of an empty tensor is NaN *)
      else if is_training && (Nat.eqb n 0 || negb (forallb (forallb (forallb is_finite)) inputs))
      then Err AssertionError
      else if is_training && negb (forallb (fun e => forallb (fun c =>
                finite_terms g (q e c) (charges e c) (terms e c)) detector_cells) (seq 0 n))
      then Err AssertionError
      else
        let comps e c := components g (out e c) in
        let time e := nth 6 (nth e rows []) 0 in
        bind (pulse_densities n (fun e c t => pulse_density (comps e c) None (time e) t) pulses) (fun pdf =>
        Ok {| a_comps := comps; a_excl := None; a_excl_sum := None; a_charges := q;
              a_unc := fun e c => fst (fst (terms e c)); a_var := fun e c => snd (fst (terms e c));
              a_llh := match mode g with
                       | Poisson => None
                       | _ => Some (fun e c => match snd (terms e c) with Some v => v | None => NaN end)
                       end;
              a_pdf := pdf |}))).
End Segment.
