(** Model of the simulation module (/repo/egenerator/ic3/simulation.py l.94-506).

    Simplifications: numbers are exact reals, except that the length of a
    particle may be NaN ([None]).  The tree of particles is a list of trees.
    Timing and printing are left out.  Random numbers are functions of the
    cascade and the DOM they are drawn for.  The frame maps keys to trees and
    pulse maps. *)
From Coq Require Import Reals.
From Verif Require Import Py PyStr RList M_Basis M_Source M_Noise M_Cascade.
From Verif Require M_Gof.
Open Scope R_scope.

(** ** Particles and light sources *)

(** Types of particles that the module names (l.182-219), and all others *)
Inductive ptype :=
| NuE | NuMu | NuTau | NuEBar | NuMuBar | NuTauBar | Hadrons
| Pi0 | Gamma | PairProd | Brems | DeltaE | EMinus | EPlus
| Other (n : nat).

Record particle := mk_particle {
  i_type : ptype; i_energy : R; i_pos : R * R * R; i_zenith : R; i_azimuth : R; i_time : R;
  i_length : option R }.

(** [I3MCTree]: a particle with its daughters *)
Inductive tree := Node (p : particle) (daughters : list tree).

(** [self.allowed_parent_particles], [self.em_cascades], [self.tracks],
    [self.dark_particles] (l.182-219) *)
Definition allowed_parent (t : ptype) : bool :=
  match t with NuE | NuMu | NuTau | NuEBar | NuMuBar | NuTauBar | Hadrons => true | _ => false end.
Definition em_cascade (t : ptype) : bool :=
  match t with Pi0 | Gamma | PairProd | Brems | DeltaE | EMinus | EPlus => true | _ => false end.
Definition is_track (t : ptype) : bool := false.
Definition dark (t : ptype) : bool :=
  match t with NuE | NuMu | NuTau | NuEBar | NuMuBar | NuTauBar => true | _ => false end.

(** [pos.magnitude] *)
Definition magnitude (v : R * R * R) : R :=
  let '(x, y, z) := v in sqrt (x ^ 2 + y ^ 2 + z ^ 2).

(** The condition that stops the recursion (l.437-440); a comparison with NaN is
    false. *)
Definition skipped (emin dmax : R) (p : particle) : bool :=
  Rltb (i_energy p) emin
  || match i_length p with
     | None => false
     | Some l => Rltb dmax (magnitude (i_pos p) - l)
     end.

(** [_get_light_sources] (l.417-475) *)
Fixpoint light_sources_of (emin dmax : R) (t : tree) : result (list particle * list particle) :=
  match t with
  | Node p daughters =>
      if skipped emin dmax p then Ok ([], [])
      else if em_cascade (i_type p) then Ok ([p], [])
      else if is_track (i_type p) then Ok ([], [p])
      else if Nat.eqb (length daughters) 0 && negb (dark (i_type p)) then Err NotImplementedError
      else if Nat.ltb 0 (length daughters) && negb (allowed_parent (i_type p)) then Err ValueError
      else
        (fix go ds :=
           match ds with
           | [] => Ok ([], [])
           | d :: ds' =>
               bind (light_sources_of emin dmax d) (fun '(c, t) =>
               bind (go ds') (fun '(cs, ts) => Ok (c ++ cs, t ++ ts)))
           end) daughters
  end.

(** [get_light_sources] (l.477-506) *)
Fixpoint light_sources (emin dmax : R) (primaries : list tree) : result (list particle * list particle) :=
  match primaries with
  | [] => Ok ([], [])
  | t :: rest =>
      bind (light_sources_of emin dmax t) (fun '(c, t) =>
      bind (light_sources emin dmax rest) (fun '(cs, ts) => Ok (c ++ cs, t ++ ts)))
  end.

(** ** Configuration and hypotheses *)

(** A value of 'default_values': a number or the key of a number in the frame *)
Inductive default := DNumber (x : R) | DKey (k : string).

(** The settings of the module that matter here (l.94-103) *)
Record sim_settings := mk_sim_settings {
  s_defaults : dict default; s_tree : string; s_output : string; s_distance : R; s_energy : R }.

(** The attributes of the module after [Configure]; [m_dtype] is the attribute
    [param_dtype], [None] if it does not exist. *)
Record sim_module := mk_sim_module {
  m_settings : sim_settings; m_names : list string; m_param_names : list string; m_dtype : option string }.

(** The parameters that particles have (l.140-145) *)
Definition included_parameters : list string :=
  ["azimuth"; "energy"; "time"; "x"; "y"; "z"; "zenith"].

Section Simulation.
(** [sorted] of strings: the order has no effect *)
Variable sorted : list string -> list string.

(** [Configure] (l.91-219); [models]: the parameter names of the models of the
    loaded manager.  The assignment of [param_dtype] is commented out
    (l.147-168). *)
Definition sim_configure (st : sim_settings) (models : list (list string)) : result sim_module :=
  if Nat.ltb 1 (length models) then Err NotImplementedError
  else
    match models with
    | [] => Err IndexError
    | names :: _ =>
        let param_names := sorted (filter (fun n => negb (dmem n (s_defaults st))) names) in
        if negb (forallb (fun n => existsb (String.eqb n) included_parameters) param_names) then Err KeyError
        else Ok {| m_settings := st; m_names := names; m_param_names := param_names; m_dtype := None |}
    end.

(** [row[j] = v] and [parameters[:, j] = v] *)
Fixpoint set_nth (j : nat) (v : R) (row : list R) : list R :=
  match row, j with
  | [], _ => []
  | _ :: row', 0%nat => v :: row'
  | x :: row', S j' => x :: set_nth j' v row'
  end.
Definition set_column (j : nat) (v : R) (m : list (list R)) : list (list R) := map (set_nth j v) m.

(** Filling of the default values (l.388-396); the name [frame] is not defined
    in the method. *)
Fixpoint fill_defaults (names : list string) (ds : dict default) (m : list (list R)) : result (list (list R)) :=
  match ds with
  | [] => Ok m
  | (name, DKey _) :: _ => Err NameError
  | (name, DNumber v) :: rest =>
      bind (name_index names name) (fun j => fill_defaults names rest (set_column j v m))
  end.

(** The value of a parameter of a particle (l.401-406) *)
Definition attribute (p : particle) (name : string) : result R :=
  let '(x, y, z) := i_pos p in
  if String.eqb name "x" then Ok x
  else if String.eqb name "y" then Ok y
  else if String.eqb name "z" then Ok z
  else if String.eqb name "azimuth" then Ok (i_azimuth p)
  else if String.eqb name "zenith" then Ok (i_zenith p)
  else if String.eqb name "energy" then Ok (i_energy p)
  else if String.eqb name "time" then Ok (i_time p)
  else Err AttributeError.

Fixpoint fill_row (names ps : list string) (p : particle) (row : list R) : result (list R) :=
  match ps with
  | [] => Ok row
  | name :: rest =>
      bind (attribute p name) (fun v =>
      bind (name_index names name) (fun j => fill_row names rest p (set_nth j v row)))
  end.
Fixpoint fill_rows (names ps : list string) (cascades : list particle) (m : list (list R)) : result (list (list R)) :=
  match cascades, m with
  | p :: cascades', row :: m' =>
      bind (fill_row names ps p row) (fun row' =>
      bind (fill_rows names ps cascades' m') (fun rows => Ok (row' :: rows)))
  | _, _ => Ok []
  end.

(** [convert_cascades_to_tensor] (l.370-415); [junk] is what [np.empty] finds in
    memory. *)
Definition convert_cascades (o : sim_module) (junk : nat -> nat -> R) (cascades : list particle)
    : result (list (list R)) :=
  let names := m_names o in
  let empty := map (fun i => map (junk i) (seq 0 (length names))) (seq 0 (length cascades)) in
  bind (fill_defaults names (s_defaults (m_settings o)) empty) (fun m =>
  bind (fill_rows names (m_param_names o) cascades m) (fun rows =>
  match m_dtype o with
  | None => Err AttributeError
  | Some _ => Ok rows
  end)).

(** ** Sampling of pulses *)

(** Tensors of the model for one cascade: those of [M_Gof.latent]; a model that
    is not a single source has no latent variables. *)
Notation latent := M_Gof.latent.

Variable draw_charges : nat -> nat -> nat -> nat -> list R.
Variable draw_uniform : nat -> nat -> nat -> nat -> list (R * R).
Variable draw_count : nat -> nat -> nat -> R * R -> nat.
Variable erfinv : R -> R.
Variable argsort : list R -> list nat.

(** The sampled charges (l.280-285); the generator raises if it refuses one of
    the parameters. *)
Definition sample_counts (ls : list latent) : result (nat -> nat -> nat -> nat) :=
  let params i s o :=
    match nth_error ls i with
    | Some l => sample_parameters (M_Gof.l_charge l s o) (M_Gof.l_var l s o) false
    | None => Err IndexError
    end in
  if forallb (fun i => forallb (fun d => match params i (fst d) (snd d) with Ok _ => true | Err _ => false end)
                         detector_cells) (seq 0 (length ls))
  then Ok (fun i s o => match params i s o with Ok rp => draw_count i s o rp | Err _ => 0%nat end)
  else Err ValueError.

(** Charges and times of one cascade in a DOM (l.317-351) *)
Definition cascade_pulses (i s o : nat) (num_pe : nat) (l : latent) (t0 : R) : result (list R * list R) :=
  let drawn := draw_charges i s o num_pe in
  let charges := map (fun c => c * (INR num_pe / Rsum drawn)) drawn in
  bind (M_Gof.pulse_times erfinv (M_Gof.cum_scale (M_Gof.l_scale l s o)) (M_Gof.l_mu l s o)
          (M_Gof.l_sigma l s o) (M_Gof.l_r l s o) t0 (draw_uniform i s o num_pe)) (fun times =>
  Ok (charges, times)).

(** The loop over the cascades (l.314-351); [i]: number of the first of [ls] *)
Fixpoint collect (counts : nat -> nat -> nat -> nat) (i s o : nat) (ls : list (latent * R))
    : result (list R * list R) :=
  match ls with
  | [] => Ok ([], [])
  | (l, t0) :: rest =>
      bind (if Nat.eqb (counts i s o) 0 then Ok ([], []) else cascade_pulses i s o (counts i s o) l t0)
        (fun '(q, t) =>
      bind (collect counts (S i) s o rest) (fun '(qs, ts) => Ok (q ++ qs, t ++ ts)))
  end.

(** A pulse: charge and time *)
Definition pulse := (R * R)%type.
(** [OMKey] *)
Definition omkey := (nat * nat)%type.

(** The pulses of a DOM (l.307-366); [None]: no entry is made *)
Definition dom_series (counts : nat -> nat -> nat -> nat) (ls : list (latent * R)) (s o : nat)
    : result (option (list pulse)) :=
  if Nat.eqb (list_sum (map (fun i => counts i s o) (seq 0 (length ls)))) 0 then Ok None
  else
    bind (collect counts 0 s o ls) (fun '(charges, times) =>
    let sorted_indices := argsort times in
    let times := map (fun k => nth k times 0) sorted_indices in
    let charges := map (fun k => nth k charges 0) sorted_indices in
    Ok (Some (combine charges times))).

Fixpoint series_map (counts : nat -> nat -> nat -> nat) (ls : list (latent * R)) (cells : list cell)
    : result (list (omkey * list pulse)) :=
  match cells with
  | [] => Ok []
  | (s, o) :: rest =>
      bind (dom_series counts ls s o) (fun series =>
      bind (series_map counts ls rest) (fun m =>
      Ok (match series with None => m | Some l => ((s + 1, o + 1)%nat, l) :: m end)))
  end.

(** [sample_pulses] (l.262-368) *)
Definition sample_pulses (o : sim_module) (tensors : result (list latent)) (rows : list (list R))
    : result (list (omkey * list pulse)) :=
  bind tensors (fun ls =>
  bind (sample_counts ls) (fun counts =>
  bind (name_index (m_names o) "time") (fun j =>
  series_map counts (combine ls (map (fun row => nth j row 0) rows)) detector_cells))).

(** ** A frame *)

Inductive fvalue := FTree (t : list tree) | FPulses (m : list (omkey * list pulse)) | FOther (n : nat).

(** The concrete function [self.get_model_tensors] *)
Variable model_tensors : list (list R) -> result (list latent).

(** [DAQ] (l.221-260): the frame that is pushed *)
Definition daq (o : sim_module) (junk : nat -> nat -> R) (frame : dict fvalue) : result (dict fvalue) :=
  bind (lookup (s_tree (m_settings o)) frame) (fun v =>
  match v with
  | FTree primaries =>
      bind (light_sources (s_energy (m_settings o)) (s_distance (m_settings o)) primaries) (fun '(cascades, tracks) =>
      if Nat.ltb 0 (length tracks) then Err NotImplementedError
      else
        bind (convert_cascades o junk cascades) (fun rows =>
        bind (sample_pulses o (model_tensors rows) rows) (fun pulses =>
        Ok (dset (s_output (m_settings o)) (FPulses pulses) frame))))
  | _ => Err AttributeError
  end).
End Simulation.

(** ** [get_model_tensors_function] of a cascade model (manager/source.py
    l.480-543): a batch with one pulse at the first DOM and unit charges *)
Definition model_tensors_function format trafo mean std norm_const coords local_vars erf lgamma rel_eff net
    (g : cascade_config) (rows : list (list R)) : result cascade_tensors :=
  cascade_get_tensors format trafo mean std norm_const coords local_vars erf lgamma rel_eff net g rows
    (fun _ _ => 1) None [{| u_event := 0; u_cell := (0, 0)%nat; u_time := 1 |}].
