(** Model of the reconstruction of events: the objective function and the
    interfaces to the minimisers (egenerator/manager/source.py), the module
    [Reconstruction] and the selection of the best result
    (egenerator/manager/reconstruction/modules/reconstruction.py), the merge
    of fitted and held parameters (modules/utils/trafo.py) and the covariance
    module (modules/covariance.py).

    Simplifications: numbers are exact reals; gradients and Hessians are not
    computed; the concrete TensorFlow functions are called with arguments of
    their signature; minimisers are given from outside.  Parameter arrays have
    one row per event. *)
From Verif Require Import RList M_Trafo M_Opt.

(** Setting with [np.all(fit_paramater_list)] and [np.sum(...)]. *)
Definition all_fitted (fit : list bool) : bool := forallb (fun b => b) fit.
Definition num_fitted (fit : list bool) : nat := length (filter (fun b => b) fit).

(** A parameter array of shape [[-1, n]]. *)
Definition table (n : nat) (rows : list event) : array := {| ar_shape := [n]; ar_rows := rows |}.

(** [a[:, c]] and the list of [tf.unstack(a, axis=1)] at [c] *)
Definition get_column (a : array) (c : nat) : result (list R) :=
  if Nat.ltb c (last (ar_shape a) 0%nat) then Ok (map (fun r => nth c r 0) (ar_rows a))
  else Err IndexError.

(** The loop over the parameters (modules/utils/trafo.py l.57-64; source.py
    l.110-119): columns of the fitted and of the held parameters. *)
Fixpoint merge_columns (fit : list bool) (i counter : nat) (params seed : array)
  : result (list (list R)) :=
  match fit with
  | [] => Ok []
  | true :: fit' =>
      bind (get_column params counter) (fun c =>
      bind (merge_columns fit' (S i) (S counter) params seed) (fun cs => Ok (c :: cs)))
  | false :: fit' =>
      bind (get_column seed i) (fun c =>
      bind (merge_columns fit' (S i) counter params seed) (fun cs => Ok (c :: cs)))
  end.

(** [np.array(columns).T] (modules/utils/trafo.py l.65) and
    [tf.stack(columns, axis=1)] (source.py l.121).  Columns of different
    lengths raise with TensorFlow; with numpy they give an array of objects
    which [inverse_transform] refuses. *)
Definition stack_columns (cols : list (list R)) : result array :=
  let n := length (hd [] cols) in
  if forallb (fun c => Nat.eqb (length c) n) cols
  then Ok (table (length cols) (map (fun k => map (fun c => nth k c 0) cols) (seq 0 n)))
  else Err ValueError.

Definition merge (fit : list bool) (params seed : array) : result array :=
  bind (merge_columns fit 0 0 params seed) stack_columns.

(** [np.reshape(x, [-1, n])] of an array of one axis *)
Fixpoint chunks (m n : nat) (l : list R) : list event :=
  match m with
  | 0%nat => []
  | S m' => firstn n l :: chunks m' n (skipn n l)
  end.

Definition reshape (n : nat) (l : list R) : result array :=
  if Nat.eqb n 0 then Err ValueError
  else if Nat.eqb (length l mod n) 0 then Ok (table n (chunks (length l / n) n l))
  else Err ValueError.

Section Reco.

  (** The transformation and the name of the parameter tensor *)
  Variable tr : option trafo.
  Variable pname : string.
  (** Number of parameters of the tensor (source.py l.606, [shape[1]]) *)
  Variable nparams : nat.
  (** The loss of every model of the manager at the given parameters, for a
      fixed data batch (source.py l.134-147) *)
  Variable losses : list (array -> result R).

  (** l.132-156, reduced to a scalar.  Without models the loss is None, which
      has no attribute [numpy]. *)
  Definition total_loss (params : array) : result R :=
    match losses with
    | [] => Err AttributeError
    | l :: ls =>
        fold_left (fun acc m => bind acc (fun a => bind (m params) (fun b => Ok (a + b))))
          ls (l params)
    end.

  (** [get_reco_result_batch] (modules/utils/trafo.py l.42-72); [is_tf]: the
      result is a TensorFlow tensor. *)
  Definition get_reco_result_batch (is_tf : bool) (result_trafo seed : array)
    (fit : list bool) (in_trafo : bool) : result array :=
    bind (if in_trafo then transform tr seed pname true else Ok seed) (fun seed_trafo =>
    bind (if all_fitted fit then Ok result_trafo else merge fit result_trafo seed_trafo)
      (fun full =>
    if in_trafo then inverse_transform tr (is_tf && all_fitted fit) full pname true
    else Ok full)).

  (** The parameters at which the models are evaluated in
      [parameter_loss_function] (source.py l.94-128); everything is a
      TensorFlow tensor. *)
  Definition loss_parameters (fit : list bool) (in_trafo : bool) (params seed : array)
    : result array :=
    bind (if all_fitted fit then Ok params
          else bind (if in_trafo then transform tr seed pname true else Ok seed)
                 (merge fit params)) (fun full =>
    if in_trafo then inverse_transform tr true full pname true else Ok full).

  (** [parameter_loss_function] (source.py l.31-156) *)
  Definition parameter_loss (fit : list bool) (in_trafo : bool) (params seed : array)
    : result R :=
    bind (loss_parameters fit in_trafo params seed) total_loss.

  (** The helper [func] (source.py l.616-625, 914-923): the loss at a flat
      vector *)
  Definition objective (fit : list bool) (in_trafo : bool) (seed : array) (x : list R)
    : result R :=
    bind (reshape (num_fitted fit) x) (fun xa =>
    bind (reshape (length fit) (concat (ar_rows seed))) (fun sa =>
    parameter_loss fit in_trafo xa sa)).

  (** [seed_array_trafo[:, fit_paramater_list]] (l.687-691, 793-797,
      1050-1054): a numpy array is indexed with a list of flags; TensorFlow
      tensors cannot be. *)
  Definition fitted_columns (is_tf : bool) (fit : list bool) (a : array) : result array :=
    if all_fitted fit then Ok a
    else if is_tf then Err TypeError
    else if Nat.eqb (length fit) (last (ar_shape a) 0%nat) then
      Ok (table (num_fitted fit)
            (map (fun r => map snd (filter fst (combine fit r))) (ar_rows a)))
    else Err IndexError.

  (** ** Bounds (l.671-679) *)

  (** A bound is None if it is not finite. *)
  Definition bound := option R.

  (** Whether the transformed value of element [i] is finite *)
  Definition log_flag (i : nat) : bool :=
    match tr with
    | Some t => match dget pname (tr_tensors t) with
                | Some ti => match ti_log ti with
                             | Some flags => all_fitted flags || nth i flags false
                             | None => false
                             end
                | None => false
                end
    | None => false
    end.

  Definition finite_bound (i : nat) (b : bound) (v : R) : bound :=
    match b with
    | None => None
    | Some x => if log_flag i && Rleb (1 + x) 0 then None else Some v
    end.

  (** None and infinities pass through the transformation as values that are
      not finite and become None; here they are replaced by zero meanwhile. *)
  Definition transform_bounds (bounds : list (bound * bound))
    : result (list (bound * bound)) :=
    let fill b := match b with Some x => x | None => 0 end in
    bind (transform tr (table (length bounds)
            [map (fun b => fill (fst b)) bounds; map (fun b => fill (snd b)) bounds])
            pname true) (fun a =>
    Ok (map (fun k =>
          let b := nth k bounds (None, None) in
          (finite_bound k (fst b) (nth k (nth 0 (ar_rows a) []) 0),
           finite_bound k (snd b) (nth k (nth 1 (ar_rows a) []) 0)))
        (seq 0 (length bounds)))).

  (** ** Interfaces *)

  (** [scipy.optimize.minimize]: from the objective function, the starting
      point and the bounds to the attribute [x] of the result *)
  Variable minimise :
    (list R -> result R) -> list R -> option (list (bound * bound)) -> result (list R).

  (** Methods with bounds check their number. *)
  Definition scipy_minimize (f : list R -> result R) (x0 : list R)
    (bounds : option (list (bound * bound))) : result (list R) :=
    match bounds with
    | Some b => if Nat.eqb (length b) (length x0) then minimise f x0 bounds else Err ValueError
    | None => minimise f x0 bounds
    end.

  (** [reconstruct_events] (l.545-699) for numpy arrays *)
  Definition reconstruct_events (fit : list bool) (in_trafo : bool) (seed : array)
    (bounds : option (list (bound * bound))) : result array :=
    if negb (Nat.eqb (length fit) nparams) then Err ValueError
    else
      bind (if in_trafo then
              bind (match bounds with
                    | Some b => bind (transform_bounds b) (fun b' => Ok (Some b'))
                    | None => Ok None
                    end) (fun b =>
              bind (transform tr seed pname true) (fun s => Ok (b, s)))
            else Ok (bounds, seed)) (fun bs =>
      bind (fitted_columns false fit (snd bs)) (fun x0 =>
      bind (scipy_minimize (objective fit in_trafo seed) (concat (ar_rows x0)) (fst bs))
        (reshape (num_fitted fit)))).

  (** [tf_reconstruct_events] (l.967-1074), called with a TensorFlow tensor
      (modules/reconstruction.py l.164-174); the optimiser gets the objective
      function and the starting point and returns the position. *)
  Definition tf_objective (fit : list bool) (in_trafo : bool) (seed xa : array) : result R :=
    parameter_loss fit in_trafo xa seed.

  Definition tf_reconstruct_events (optimise : (array -> result R) -> array -> result array)
    (fit : list bool) (in_trafo : bool) (seed : array) : result array :=
    if negb (Nat.eqb (length fit) nparams) then Err ValueError
    else
      bind (if in_trafo then transform tr seed pname true else Ok seed) (fun s =>
      bind (fitted_columns true fit s) (fun x0 =>
      optimise (tf_objective fit in_trafo seed) x0)).

  (** [scipy_global_reconstruct_events] (l.831-965); [shgo] gets the objective
      function and the bounds, one interval per parameter.  The array of
      bounds has two columns per event (l.954), shgo wants two. *)
  Definition shgo_reconstruct_events
    (shgo : (list R -> result R) -> list (R * R) -> result (list R))
    (fit : list bool) (in_trafo : bool) (seed : array) : result array :=
    if negb (Nat.eqb (length fit) nparams) then Err ValueError
    else
      bind (if in_trafo then transform tr seed pname true else Ok seed) (fun s =>
      if negb in_trafo then Err AssertionError
      else match ar_rows s with
           | [r] =>
               bind (shgo (objective fit in_trafo seed) (map (fun v => (v - 1, v + 1)) r))
                 (reshape (num_fitted fit))
           | _ => Err ValueError
           end).

  (** [reconstruct_events_spherical_opt] (l.701-829) for one event.  [noise k
      row] are the numbers drawn around the row for copy [k]; the scale has
      seven columns (l.814). *)
  Definition tile_seed (noise : nat -> list R -> list R) (r : list R) : list (list R) :=
    r :: map (fun k => noise k r) (seq 1 19).

  Definition crs2_config (sph : list (nat * nat)) : config :=
    mk_config CRS2 sph 1 (Z.to_nat 10000) None (Some (Z.to_nat 1000)) (1 / 10) None None.

  Definition spherical_reconstruct_events (obj : list R -> R)
    (argsort : list R -> list nat) (rnd : nat -> draws)
    (noise : nat -> list R -> list R) (azimuth zenith : result nat)
    (fit : list bool) (in_trafo : bool) (seed : array) : result (array * outcome) :=
    if negb (Nat.eqb (length fit) nparams) then Err ValueError
    else
      bind (if in_trafo then transform tr seed pname true else Ok seed) (fun s =>
      bind (fitted_columns false fit s) (fun x0 =>
      bind (if in_trafo || negb (all_fitted fit) then Ok []
            else bind azimuth (fun a => bind zenith (fun z => Ok [(a, z)]))) (fun sph =>
      if negb (Nat.eqb (num_fitted fit) 7) then Err ValueError
      else
        bind (spherical_opt obj argsort rnd (crs2_config sph) (num_fitted fit)
                (tile_seed noise (hd [] (ar_rows x0)))) (fun o =>
        bind (reshape (num_fitted fit) (o_x o)) (fun best => Ok (best, o)))))).

  (** ** [Reconstruction.execute] (modules/reconstruction.py l.209-284) *)

  Record fit_result := mk_fit_result {
    r_result : array; r_trafo : array; r_loss_seed : R; r_loss_reco : R }.

  (** [method]: the chosen reconstruction method, from the seed to the result
      in the space of the minimisation; [is_tf]: it returns a TensorFlow
      tensor.  The concrete loss function takes all parameters in the original
      space (l.105-119). *)
  Definition full_loss (params : array) : result R :=
    parameter_loss (repeat true nparams) false params params.

  Definition execute_reconstruction (method : array -> result array) (is_tf : bool)
    (fit : list bool) (in_trafo : bool) (seed : array) : result fit_result :=
    bind (method seed) (fun rt =>
    bind (get_reco_result_batch is_tf rt seed fit in_trafo) (fun r =>
    bind (full_loss seed) (fun ls =>
    bind (full_loss r) (fun lr =>
    Ok (mk_fit_result r rt ls lr))))).

End Reco.

(** ** [SelectBestReconstruction.execute] (modules/reconstruction.py l.314-357) *)

Section Select.
  Variable V : Type.
  (** The value as a number, None for NaN; formatting anything else raises
      (l.337-338). *)
  Variable number : V -> result (option R).

  (** The loop (l.334-343): the smallest loss (None: infinity), the results
      with it and the results of the last name. *)
  Fixpoint select_loop (names : list string) (results : dict (dict V))
    (min_loss : option R) (min_results last_results : option (dict V))
    : result (option (dict V) * option (dict V)) :=
    match names with
    | [] => Ok (min_results, last_results)
    | n :: names' =>
        match dget n results with
        | None => Err KeyError
        | Some r =>
            match dget "loss_reco" r with
            | None => Err KeyError
            | Some v =>
                bind (number v) (fun x =>
                let lower := match x, min_loss with
                             | Some l, Some m => Rltb l m
                             | Some _, None => true
                             | None, _ => false
                             end in
                if lower then select_loop names' results x (Some r) (Some r)
                else select_loop names' results min_loss min_results (Some r))
            end
        end
    end.

  (** [d.pop(k)] *)
  Definition dremove (k : string) (d : dict V) : dict V :=
    filter (fun e => negb (String.eqb (fst e) k)) d.

  Definition select_best (names : list string) (results : dict (dict V))
    : result (dict V) :=
    bind (select_loop names results None None None) (fun '(_, reco_results) =>
    match reco_results with
    | None => Err UnboundLocalError
    | Some reco_results =>
        let min_results := reco_results in  (* l.344 *)
        match dget "runtime" min_results with
        | None => Err KeyError
        | Some t => Ok (dset "reco_runtime" t (dremove "runtime" min_results))
        end
    end).
End Select.

(** ** Covariance (modules/covariance.py; source.py l.295-478) *)

(** [opg_estimate_function] (source.py l.374-408): [grads] has for every loss
    term its derivatives with respect to the parameters; outer products are
    summed over the terms. *)
Definition opg_estimate (grads : list (nat -> R)) : mat :=
  fun i j => Rsum (map (fun g => g i * g j) grads).

(** [CovarianceMatrix.__init__] (l.41-43) *)
Definition covariance_init (fit : list bool) : result Datatypes.unit :=
  if all_fitted fit then Ok tt else Err NotImplementedError.

Section Covariance.
  Variable tr : option trafo.
  Variable pname : string.
  Variable n : nat.
  (** [np.linalg.inv], None for a singular matrix; the matrix of NaNs *)
  Variable inv : mat -> option mat.
  Variable nans : mat.

  Definition sandwich (c opg : mat) : mat := matmul n (matmul n c opg) c.

  (** [execute] (l.93-175); [hessian] and [opg] are evaluated at the best fit,
      [hess_inv] is that attribute of the result object, if there is one. *)
  Definition execute_covariance (in_trafo : bool) (hessian opg : mat) (hess_inv : option mat)
    : result (dict mat) :=
    let cov_trafo := match inv hessian with Some c => c | None => nans end in
    let cov_sand_trafo := sandwich cov_trafo opg in
    if in_trafo then
      bind (inverse_transform_cov tr n n cov_trafo pname) (fun cov =>
      bind (inverse_transform_cov tr n n cov_sand_trafo pname) (fun cov_sand =>
      let basic := [("cov", cov); ("cov_sand", cov_sand); ("cov_trafo", cov_trafo);
                    ("cov_sand_trafo", cov_sand_trafo)] in
      match hess_inv with
      | None => Ok basic
      | Some h =>
          let cov_sand_fit_trafo := sandwich h opg in
          bind (inverse_transform_cov tr n n cov_sand_fit_trafo pname) (fun cov_sand_fit =>
          bind (inverse_transform_cov tr n n h pname) (fun cov_fit =>
          Ok (basic ++ [("cov_fit", cov_fit); ("cov_sand_fit", cov_sand_fit);
                        ("cov_fit_trafo", h); ("cov_sand_fit_trafo", cov_sand_fit_trafo)])))
      end))
    else Err UnboundLocalError.
End Covariance.
