(** Specification for the IceTray module that reconstructs events. *)
From Coq Require Import Reals.
From Verif Require Import Py RList M_Frame.
Open Scope R_scope.

(** Keys of the map with the result *)
Definition result_keys (names modules : list string) (gof samples circ : bool) : list string :=
  names ++ map (fun n => ("runtime_" ++ n)%string) modules
  ++ ["minimization_success"; "loss_reco"; "loss_seed"]%string
  ++ (if gof then ["goodness_of_fit_1sided"; "goodness_of_fit_2sided"; "goodness_loss_sample_min"; "goodness_loss_sample_max";
                   "goodness_loss_sample_mean"; "goodness_loss_sample_median"; "goodness_loss_sample_std"; "goodness_loss_data_fit"]%string
                  ++ (if samples then map (fun n => (n ++ "_sample_reco_bias")%string) names else [])
      else [])
  ++ (if circ then ["circular_unc"; "runtime_circular_err"]%string else []).

(** Keys of the objects put into a frame *)
Definition object_keys (output : string) (covariances : list string) (samples doms particle : bool) : list string :=
  map (fun n => (output ++ "_cov_matrix_" ++ n)%string) covariances
  ++ (if samples then [(output ++ "_cov_matrix_goodness_of_fit")%string] else [])
  ++ (if doms then [(output ++ "_GoodnessOfFit_1sided")%string; (output ++ "_GoodnessOfFit_2sided")%string] else [])
  ++ [output] ++ (if particle then [(output ++ "_I3Particle")%string] else []).

(** Names of parameters in covariances *)
Definition axis (log : list bool) (i : nat) (name : string) : string :=
  if nth i log false then ("log_" ++ name)%string else name.
Definition axes (names : list string) (log : list bool) : list string :=
  map (fun p => axis log (fst p) (snd p)) (combine (seq 0 (length names)) names).
(** Keys of the upper triangle *)
Fixpoint triangle (l : list string) : list string :=
  match l with
  | [] => []
  | a :: rest => map (fun b => (a ++ "_" ++ b)%string) l ++ triangle rest
  end.
(** The map [d] has the upper triangle of [m]. *)
Definition Triangle (axes : list string) (m : nat -> nat -> R) (d : dict R) : Prop :=
  (forall i j a b, (i <= j)%nat -> nth_error axes i = Some a -> nth_error axes j = Some b ->
     dget (a ++ "_" ++ b)%string d = Some (m i j)) /\
  forall k, In k (map fst d) -> In k (triangle axes).

(** A switch of the settings of the goodness of fit: on unless it is switched off *)
Definition enabled (k : string) (settings : dict (option bool)) : bool :=
  match dget k settings with Some (Some false) => false | _ => true end.

(** A number in the results of a module *)
Definition number (results : dict (dict fval)) (m k : string) : option R :=
  match dget m results with
  | Some r => match dget k r with Some (VNum x) => Some x | _ => None end
  | None => None
  end.
(** [d] has that number under [key]. *)
Definition Reports (d : dict R) (key : string) (results : dict (dict fval)) (m k : string) : Prop :=
  exists x, number results m k = Some x /\ dget key d = Some x.

(** Numbers of the goodness of fit: key of the frame, key of the module *)
Definition goodness_numbers : list (string * string) :=
  [("goodness_of_fit_1sided", "event_p_value_1sided"); ("goodness_of_fit_2sided", "event_p_value_2sided");
   ("goodness_loss_sample_min", "loss_sample_min"); ("goodness_loss_sample_max", "loss_sample_max");
   ("goodness_loss_sample_mean", "loss_sample_mean"); ("goodness_loss_sample_median", "loss_sample_median");
   ("goodness_loss_sample_std", "loss_sample_std"); ("goodness_loss_data_fit", "loss_data_fit")]%string.

(** An attribute of a particle *)
Definition attribute (p : i3particle) (key : string) : option R :=
  if String.eqb key "x" then t_x p else if String.eqb key "y" then t_y p else if String.eqb key "z" then t_z p
  else if String.eqb key "zenith" then option_map fst (t_dir p)
  else if String.eqb key "azimuth" then option_map snd (t_dir p)
  else dget key (t_other p).

(** The directory [name], which may be absolute, in the directory [base] *)
Fixpoint slashed (s : string) : bool :=
  match s with
  | EmptyString => false
  | String c EmptyString => Ascii.eqb c "/"%char
  | String _ r => slashed r
  end.
Definition located (base name : string) : string :=
  if String.prefix "/" name then name
  else if String.eqb base "" || slashed base then (base ++ name)%string else (base ++ "/" ++ name)%string.

(** Settings of the goodness of fit that a user can give (modules/fit_quality.py) *)
Definition accepted_settings : list string :=
  ["add_per_dom_calculation"; "normalize_by_total_charge"; "num_samples"; "random_seed"; "reconstruct_samples";
   "scipy_optimizer_settings"]%string.
