(** Model of the Markov chain Monte Carlo: [run_mcmc_on_events]
    (/repo/egenerator/manager/source.py l.1076-1253) and the module
    [MarkovChainMonteCarlo]
    (/repo/egenerator/manager/reconstruction/modules/mcmc.py).

    Simplifications: numbers are exact reals; [tfp.mcmc.sample_chain] with its
    kernels and random numbers is given from outside and gets everything that
    the code hands to it; it returns arrays of the requested shapes; the
    printed text is left out, but not the errors of printing. *)
From Verif Require Import RList M_Trafo M_Opt M_Reco.

(** The transition kernel that is handed to [sample_chain] (source.py
    l.1188-1209): the method, the target function for one row per chain, the
    row of step sizes, the number of leapfrog and of adaptation steps (for
    Hamiltonian Monte Carlo) and the seed (for the random walk). *)
Record kernel := {
  kn_method : string;
  kn_target : list event -> result (list R);
  kn_step : list R;
  kn_leapfrog : option nat;
  kn_adaptation : option nat;
  kn_seed : option Z
}.

(** The further arguments of [sample_chain] (l.1231-1238). *)
Record schedule := {
  sc_results : nat;
  sc_burnin : nat;
  sc_between : nat;
  sc_parallel : nat
}.

(** One entry of the samples and of the first two traces (l.1212-1226). *)
Record draw := { dr_state : event; dr_accepted : bool; dr_log_prob : R }.

(** The settings of the module (mcmc.py l.8-20). *)
Record settings := {
  se_fit : list bool;
  se_reco_key : string;
  se_trafo : bool;
  se_tensor : string;
  se_chains : nat;
  se_schedule : schedule;
  se_method : string;
  se_random_seed : Z
}.

(** The names of the methods (source.py l.1161, 1188, 1200, 1205). *)
Definition hmc : string := "HamiltonianMonteCarlo".
Definition nuts : string := "NoUTurnSampler".
Definition rwm : string := "RandomWalkMetropolis".

(** [step_size[0][i] = v] *)
Definition set_step (i : nat) (v : R) (l : list R) : result (list R) :=
  if Nat.ltb i (length l) then Ok (firstn i l ++ v :: skipn (S i) l) else Err IndexError.

(** The loop over [trafo_log] (source.py l.1173-1177) *)
Fixpoint log_steps (i : nat) (flags : list bool) (step : list R) : result (list R) :=
  match flags with
  | [] => Ok step
  | true :: fs =>
      if negb (Nat.eqb i 5) then Err NotImplementedError
      else bind (set_step i (1 / 100) step) (log_steps (S i) fs)
  | false :: fs => log_steps (S i) fs step
  end.

(** The step sizes before the transformation (l.1158-1165).  [step_size] is a
    list with one list in it, its length is one. *)
Definition plain_steps (method : string) (num_params : nat) : list R :=
  let step_size := [[1 / 2; 1 / 2; 1 / 2; 2 / 100; 2 / 100; 10; 1]] in
  let step_size :=
    if String.eqb method hmc then [[1 / 10; 1 / 10; 1 / 10; 1 / 100; 2 / 100; 10; 1]]
    else step_size in
  let step_size :=
    if negb (Nat.eqb num_params (length step_size)) then [repeat (1 / 10) num_params]
    else step_size in
  concat step_size.

(** l.1167-1182.  The stored deviation has one entry per parameter; with one
    parameter numpy would divide all seven entries by it and the reshape would
    fail, here the division fails with the same exception. *)
Definition step_sizes (tr : trafo) (pname method : string) (num_params : nat)
  (in_trafo : bool) (fit : list bool) : result (list R) :=
  match dget pname (tr_tensors tr) with
  | None => Err KeyError
  | Some t =>
      bind (if in_trafo then
              match ti_log t with
              | None => Err TypeError
              | Some flags =>
                  bind (log_steps 0 flags (plain_steps method num_params)) (fun step =>
                  match dget pname (tr_data tr) with
                  | None => Err KeyError
                  | Some s =>
                      if Nat.eqb (length (st_std s)) (length step)
                      then Ok (zipw Rdiv step (st_std s)) else Err ValueError
                  end)
              end
            else Ok (plain_steps method num_params)) (fun step =>
      if Nat.eqb (length step) (length fit) then Ok step else Err ValueError)
  end.

(** Results of a list of computations, in order *)
Fixpoint collect {A} (rs : list (result A)) : result (list A) :=
  match rs with
  | [] => Ok []
  | r :: rs' => bind r (fun a => bind (collect rs') (fun l => Ok (a :: l)))
  end.

(** [unnormalized_log_prob] (l.1144-1154); [tf.stack] of an empty list is a
    ValueError.  The loss function is compiled for rows of [num_signature]
    entries. *)
Definition log_prob (loss : array -> result R) (num_chains num_params num_signature : nat)
  (x : list event) : result (list R) :=
  if Nat.eqb num_chains 0 then Err ValueError
  else if negb (Nat.eqb num_params num_signature) then Err ValueError
  else if negb (Nat.eqb (length x) num_chains) then Err ValueError
  else collect (map (fun row => bind (loss (table num_params [row])) (fun l => Ok (- l))) x).

(** The kernel (l.1184-1209); [int(num_burnin_steps * 0.8)] of an exact
    product *)
Definition make_kernel (method : string) (target : list event -> result (list R))
  (step : list R) (burnin : nat) (mcmc_seed : Z) : result kernel :=
  if String.eqb method hmc then
    Ok {| kn_method := method; kn_target := target; kn_step := step;
          kn_leapfrog := Some 3%nat; kn_adaptation := Some (burnin * 8 / 10)%nat;
          kn_seed := None |}
  else if String.eqb method nuts then
    Ok {| kn_method := method; kn_target := target; kn_step := step;
          kn_leapfrog := None; kn_adaptation := None; kn_seed := None |}
  else if String.eqb method rwm then
    Ok {| kn_method := method; kn_target := target; kn_step := step;
          kn_leapfrog := None; kn_adaptation := None; kn_seed := Some mcmc_seed |}
  else Err ValueError.

Section Mcmc.

  (** The transformation of the manager *)
  Variable tr : trafo.
  (** The losses of the models for the data batch, as in M_Reco *)
  Variable losses : list (array -> result R).
  (** The seed tensor of the data batch, for parameters that are not fitted *)
  Variable seed : array.
  (** [tfp.mcmc.sample_chain]: per result and chain one draw, and per result
      the row of step sizes (traced for Hamiltonian Monte Carlo only) *)
  Variable sample_chain :
    kernel -> schedule -> list event -> result (list (list draw) * list (list R)).

  (** l.1240-1249: samples reshaped to one row per result and chain, transformed
      back and reshaped again *)
  Definition invert_samples (pname : string) (in_trafo : bool) (num_params : nat)
    (draws : list (list draw)) : result (list (list draw)) :=
    if in_trafo then
      bind (inverse_transform (Some tr) true
              (table num_params (map dr_state (concat draws))) pname true) (fun a =>
      Ok ((fix split (ds : list (list draw)) (rows : list event) : list (list draw) :=
             match ds with
             | [] => []
             | d :: ds' =>
                 zipw (fun r x => {| dr_state := r; dr_accepted := dr_accepted x;
                                     dr_log_prob := dr_log_prob x |})
                      (firstn (length d) rows) d
                 :: split ds' (skipn (length d) rows)
             end) draws (ar_rows a)))
    else Ok draws.

  (** [run_mcmc_on_events] of the manager (source.py l.1076-1253); also gives
      the traced step sizes. *)
  Definition run_mcmc_on_events (initial : array) (loss : array -> result R)
    (fit : list bool) (in_trafo : bool) (num_chains : nat) (sch : schedule)
    (method : string) (mcmc_seed : Z) (pname : string)
    : result (list (list draw) * list (list R)) :=
    let num_params := last (ar_shape initial) 0%nat in
    if negb (Nat.eqb (length (ar_rows initial)) num_chains) then Err ValueError
    else
    bind (step_sizes tr pname method num_params in_trafo fit) (fun step =>
    bind (make_kernel method (log_prob loss num_chains num_params (num_fitted fit)) step
            (sc_burnin sch) mcmc_seed) (fun k =>
    bind (sample_chain k sch (ar_rows initial)) (fun out =>
    bind (invert_samples pname in_trafo num_params (fst out)) (fun samples =>
    Ok (samples, snd out))))).

  (** [MarkovChainMonteCarlo.__init__] with [execute] (mcmc.py l.66-118,
      120-205).  [results]: the array ['result'] of every earlier module.  The
      concrete function accepts rows with one entry per fitted parameter
      (l.79-81, 103).  [random_seed] only makes a generator that is not used
      (l.74).  The values: samples and log probabilities. *)
  Definition execute_mcmc (se : settings) (results : dict array)
    : result (list event * list R) :=
    match dget (se_tensor se) (tr_tensors tr) with
    | None => Err KeyError
    | Some _ =>
    match dget (se_reco_key se) results with
    | None => Err KeyError
    | Some result_inv =>
        match ar_rows result_inv with
        | [r] =>
            let n := length (se_fit se) in
            if negb (Nat.eqb (length r * se_chains se) (se_chains se * n)) then Err ValueError
            else if negb (Nat.eqb n (num_fitted (se_fit se))) then Err ValueError
            else
            bind (run_mcmc_on_events (table n (repeat r (se_chains se)))
                    (fun p => parameter_loss (Some tr) (se_tensor se) losses (se_fit se)
                                (se_trafo se) p seed)
                    (se_fit se) (se_trafo se) (se_chains se) (se_schedule se)
                    (se_method se) 42 (se_tensor se)) (fun out =>
            bind (if String.eqb (se_method se) hmc then
                    match snd out with
                    | [] => Err IndexError
                    | st :: _ => if Nat.ltb (length st) 7 then Err IndexError else Ok tt
                    end
                  else Ok tt) (fun _ =>
            let kept := filter dr_accepted (concat (fst out)) in
            Ok (map dr_state kept, map dr_log_prob kept)))
        | _ => Err AssertionError
        end
    end
    end.
End Mcmc.
