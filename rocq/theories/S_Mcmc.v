(** Specification vocabulary for the Markov chain Monte Carlo. *)
From Verif Require Import RList M_Trafo S_Trafo M_Reco S_Reco M_Mcmc.

(** [p] are the physical parameters of the point [x] at which a chain is. *)
Definition Physical (tr : trafo) (name : string) (in_trafo : bool) (x p : event) : Prop :=
  if in_trafo then
    exists t s, dget name (tr_tensors tr) = Some t /\ dget name (tr_data tr) = Some s /\
      length p = length x /\
      forall i y, (i < length x)%nat ->
        y = nth i x 0 * (tr_norm tr + nth i (st_std s) 0) + nth i (st_mean s) 0 ->
        (~ Logged t i -> nth i p 0 = y) /\
        (Logged t i -> ~ Mixed t -> nth i p 0 = exp y - 1) /\
        (Logged t i -> Mixed t -> nth i p 0 = exp (Rmax (-60) (Rmin 60 y)) - 1)
  else p = x.

(** The losses of all models at the parameters [p] of one event add up to
    [v]. *)
Definition LossAt (losses : list (array -> result R)) (p : event) (v : R) : Prop :=
  losses <> [] /\
  exists ls, Forall2 (fun m l => m {| ar_shape := [length p]; ar_rows := [p] |} = Ok l) losses ls /\
             v = Rsum ls.

(** The accepted draws, in order: their points, related by [P], and their log
    probabilities. *)
Inductive Kept (P : event -> event -> Prop) : list draw -> list event -> list R -> Prop :=
  | kept_nil : Kept P [] [] []
  | kept_take d ds p ps vs : dr_accepted d = true -> P (dr_state d) p -> Kept P ds ps vs ->
      Kept P (d :: ds) (p :: ps) (dr_log_prob d :: vs)
  | kept_drop d ds ps vs : dr_accepted d = false -> Kept P ds ps vs -> Kept P (d :: ds) ps vs.

(** The sampler returns for every result one draw per chain, of [n] numbers,
    and a row of [n] step sizes. *)
Definition Shaped (results chains n : nat) (draws : list (list draw)) (steps : list (list R))
  : Prop :=
  length draws = results /\
  Forall (fun ds => length ds = chains /\ Forall (fun d => length (dr_state d) = n) ds) draws /\
  length steps = results /\ Forall (fun s => length s = n) steps.

(** The log probabilities which the sampler reports are those of the points. *)
Definition Honest (k : kernel) (draws : list (list draw)) : Prop :=
  Forall (fun ds => kn_target k (map dr_state ds) = Ok (map dr_log_prob ds)) draws.
