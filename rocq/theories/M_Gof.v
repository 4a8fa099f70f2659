(** Model of the goodness-of-fit module
    (egenerator/manager/reconstruction/modules/fit_quality.py).

    Simplifications: numbers are exact reals; timing and printing are left out;
    the bias and covariance of the sampled reconstructions and the summary
    statistics of the sampled losses (l.383-385, 466-471) are not modelled; the
    settings of the minimiser have no bounds.  Random numbers are functions of
    the sampled event and the DOM they are drawn for. *)
From Coq Require Import ZArith Reals.
From Verif Require Import Py RList M_Trafo M_Reco M_Basis.
From Verif Require M_Pulse.
Open Scope R_scope.

Notation prow := M_Pulse.prow.
Notation mk_prow := M_Pulse.Build_prow.
Notation pid := M_Pulse.pid.

(** ** [np.sort] and [np.searchsorted] *)

Fixpoint insert (x : R) (l : list R) : list R :=
  match l with
  | [] => [x]
  | y :: l' => if Rleb x y then x :: l else y :: insert x l'
  end.
Definition sort (l : list R) : list R := fold_right insert [] l.

(** Binary search with [side='left']: the bounds of the search are kept in [lo]
    and [hi].  (For several keys at once numpy starts from the bounds of the
    previous key, with the same result on a sorted array.) *)
Fixpoint bisect (fuel : nat) (l : list R) (v : R) (lo hi : nat) : nat :=
  match fuel with
  | 0%nat => lo
  | S fuel' =>
      if Nat.ltb lo hi then
        let mid := (lo + (hi - lo) / 2)%nat in
        if Rltb (nth mid l 0) v then bisect fuel' l v (S mid) hi
        else bisect fuel' l v lo mid
      else lo
  end.
Definition searchsorted (l : list R) (v : R) : nat := bisect (length l) l v 0 (length l).

(** [compute_p_value] (l.488-513) *)
Definition compute_p_value (sample_llh : list R) (data_llh : R) : result (R * R) :=
  let num_samples := Rlen sample_llh in
  let half_num := num_samples / 2 in
  let sample_llh_sorted := sort sample_llh in
  let idx := INR (searchsorted sample_llh_sorted data_llh) in
  if Reqb num_samples 0 then Err ZeroDivisionError
  else Ok ((num_samples - idx) / num_samples,
           (half_num - Rabs (half_num - idx)) / half_num).

(** ** Simulation of an event *)

(** The DOMs, in the order of the loops (l.586-587) *)
Definition doms : list (nat * nat) := list_prod (seq 0 86) (seq 0 60).

(** [np.cumsum] *)
Fixpoint cumsum_from (a : R) (l : list R) : list R :=
  match l with [] => [] | x :: l' => (a + x) :: cumsum_from (a + x) l' end.
Definition cumsum (l : list R) : list R := cumsum_from 0 l.

(** [a[-1] = v] (l.280) *)
Fixpoint set_last (v : R) (l : list R) : list R :=
  match l with [] => [] | [x] => [v] | x :: l' => x :: set_last v l' end.

(** Latent variables of the model for one event (l.260, 271-277): per DOM the
    expected charge and its variance and, per component of the mixture, scale,
    mean, width and asymmetry *)
Record latent := mk_latent {
  l_charge : nat -> nat -> R; l_var : nat -> nat -> R;
  l_scale : nat -> nat -> list R; l_mu : nat -> nat -> list R;
  l_sigma : nat -> nat -> list R; l_r : nat -> nat -> list R }.

(** The cumulative scales of a DOM (l.271-280) *)
Definition cum_scale (scales : list R) : list R :=
  set_last (1 + 1 / 100000000) (cumsum scales).

Section Sampling.
  (** Draws for a DOM: [rng.uniform(0.25, 1.75, size)] and [rng.uniform(size=(n,
      2))] *)
  Variable draw_charges : nat -> nat -> nat -> list R.
  Variable draw_uniform : nat -> nat -> nat -> list (R * R).
  Variable erfinv : R -> R.
  (** [np.argsort], whose order of equal values is not specified *)
  Variable argsort : list R -> list nat.

  (** The time of one pulse (l.602-615); an index beyond the last component
      raises. *)
  Definition pulse_time (cum mu sigma r : list R) (source_time : R) (u : R * R) : result R :=
    let idx := searchsorted cum (fst u) in
    match nth_error mu idx, nth_error sigma idx, nth_error r idx with
    | Some m, Some s, Some a =>
        Ok (asymmetric_gauss_ppf erfinv (snd u) m s a * 1000 + source_time)
    | _, _, _ => Err IndexError
    end.

  Fixpoint pulse_times (cum mu sigma r : list R) (source_time : R) (us : list (R * R))
    : result (list R) :=
    match us with
    | [] => Ok []
    | u :: us' =>
        bind (pulse_time cum mu sigma r source_time u) (fun t =>
        bind (pulse_times cum mu sigma r source_time us') (fun ts => Ok (t :: ts)))
    end.

  (** The pulses of one DOM (l.589-630) *)
  Definition dom_pulses (num_pe : nat) (cum mu sigma r : list R) (source_time : R)
    (s o : nat) (quantiles : bool) : result (list prow * list pid) :=
    if Nat.eqb num_pe 0 then Ok ([], [])
    else
      let drawn := draw_charges s o num_pe in
      let charges := map (fun c => c * (INR num_pe / Rsum drawn)) drawn in
      bind (pulse_times cum mu sigma r source_time (draw_uniform s o num_pe)) (fun times =>
      let sorted := argsort times in
      let times := map (fun k => nth k times 0) sorted in
      let charges := map (fun k => nth k charges 0) sorted in
      let third := if quantiles then map (fun c => Some (c / Rsum charges)) (cumsum charges)
                   else map (fun _ => None) charges in
      Ok (map (fun x => mk_prow (fst (fst x)) (snd (fst x)) (snd x))
            (combine (combine charges times) third),
          repeat (0%Z, Z.of_nat s, Z.of_nat o) num_pe)).

  Fixpoint all_pulses (ds : list (nat * nat)) (num_pe : nat -> nat -> nat) (l : latent)
    (source_time : R) (quantiles : bool) : result (list prow * list pid) :=
    match ds with
    | [] => Ok ([], [])
    | (s, o) :: ds' =>
        bind (dom_pulses (num_pe s o) (cum_scale (l_scale l s o)) (l_mu l s o) (l_sigma l s o)
                (l_r l s o) source_time s o quantiles) (fun '(rows, ids) =>
        bind (all_pulses ds' num_pe l source_time quantiles) (fun '(rows', ids') =>
        Ok (rows ++ rows', ids ++ ids')))
    end.

  (** [sample_event_pulses] (l.536-635); without any pulse there is nothing to
      concatenate (l.632). *)
  Definition sample_event_pulses (num_pe : nat -> nat -> nat) (l : latent) (source_time : R)
    (quantiles : bool) : result (list prow * list pid) :=
    bind (all_pulses doms num_pe l source_time quantiles) (fun '(rows, ids) =>
    if forallb (fun d => Nat.eqb (num_pe (fst d) (snd d)) 0) doms then Err ValueError
    else Ok (rows, ids)).
End Sampling.

(** ** Charge variances of the cascade model (model/source/cascade/default.py
    l.550-658) *)

(** Setting [estimate_charge_distribution]; with the values of the further
    outputs of the network: scale of the width and asymmetry, or
    over-dispersion *)
Inductive charge_model := Poisson | AsymmetricGauss (sigma_scale r : R) | NegBinomial (alpha : R).

(** [dom_charges_variance] at expected charge [mu] and the charge [q_true] of
    the data batch *)
Definition charge_variance (m : charge_model) (q_true mu : R) : R :=
  match m with
  | Poisson => mu
  | AsymmetricGauss sigma_scale r =>
      let sigma := sqrt (Rmax mu (1 / 10000)) * sigma_scale in
      let unc := if Rltb 5 q_true then sigma * ((1 + r) / 2) else sqrt (mu + 1 / 10000000) in
      unc ^ 2
  | NegBinomial alpha => mu + alpha * mu ^ 2
  end.

(** The variance that [get_model_tensors_function] (manager/source.py l.525-541)
    obtains: the data batch is a dummy with charge one everywhere. *)
Definition dummy_variance (m : charge_model) (mu : R) : R := charge_variance m 1 mu.

(** ** [execute] (l.209-486) *)

(** Tensors of a data batch with one event *)
Inductive value :=
| VPulses (rows : list prow) | VIds (ids : list pid)
| VCharge (q : nat -> nat -> R) | VOther (k : nat).

(** [list[i] = v] *)
Fixpoint set_item {A} (i : nat) (v : A) (l : list A) : result (list A) :=
  match l, i with
  | [], _ => Err IndexError
  | _ :: l', 0%nat => Ok (v :: l')
  | x :: l', S i' => bind (set_item i' v l') (fun l'' => Ok (x :: l''))
  end.

Record gsettings := mk_gsettings {
  g_fit : list bool; g_trafo : bool; g_samples : nat; g_reconstruct : bool;
  g_per_dom : bool; g_normalise : bool; g_quantiles : bool; g_log : list bool;
  g_pulses : nat; g_ids : nat; g_charge : nat; g_time : nat }.

(** Sorted loss terms: scalar, per event and per DOM; or their sum *)
Inductive loss_value := Sorted (scalar event : R) (dom : nat -> nat -> R) | Scalar (x : R).

Record goutput := mk_goutput {
  o_p1 : R; o_p2 : R; o_dom_p : option (nat -> nat -> result (R * R));
  o_sample_loss : list R; o_data_loss : R }.

Section Execute.
  Variable tr : option trafo.
  Variable pname : string.
  Variable st : gsettings.
  (** [self.rng.multivariate_normal(mean, cov, size)] *)
  Variable multivariate : list R -> mat -> nat -> list (list R).
  (** [model_tensor_function] *)
  Variable tensors : list (list R) -> result (list latent).
  (** [rng.negative_binomial(r, p)] for an event and a DOM *)
  Variable draw_count : nat -> nat -> nat -> R -> R -> nat.
  Variable draw_charges : nat -> nat -> nat -> nat -> list R.
  Variable draw_uniform : nat -> nat -> nat -> nat -> list (R * R).
  Variable erfinv : R -> R.
  Variable argsort : list R -> list nat.
  (** The minimiser for a data batch and a seed, from the flat starting point *)
  Variable minimise : list value -> array -> list R -> result (list R).
  (** The loss of the models at all parameters in the space of the
      minimisation, for a data batch and with the seed of held parameters *)
  Variable loss : array -> list value -> array -> result loss_value.

  (** l.238-257 *)
  Definition to_log (r : list R) : list R :=
    map (fun x => if nth (fst x) (g_log st) false then ln (1 + snd x) else snd x)
      (combine (seq 0 (length r)) r).
  Definition from_log (r : list R) : list R :=
    map (fun x => if nth (fst x) (g_log st) false then exp (snd x) - 1 else snd x)
      (combine (seq 0 (length r)) r).
  Definition hypotheses (best : list R) (cov : option mat) : list (list R) :=
    match cov with
    | Some c => map from_log (multivariate (to_log best) c (g_samples st))
    | None => repeat best (g_samples st)
    end.

  (** [sample_num_pe] (l.515-534) for event [e]: the generator raises if it
      refuses any of the parameters. *)
  Definition sample_num_pe (e : nat) (l : latent) : result (nat -> nat -> nat) :=
    let params s o := sample_parameters (l_charge l s o) (l_var l s o) false in
    if forallb (fun d => match params (fst d) (snd d) with Ok _ => true | Err _ => false end) doms
    then Ok (fun s o => match params s o with
                        | Ok (r, p) => draw_count e s o r p
                        | Err _ => 0%nat
                        end)
    else Err ValueError.

  (** The concrete loss function has a signature (l.119-126, 154-165). *)
  Definition loss_function (params : array) (batch : list value) (seed : array)
    : result loss_value :=
    if Nat.eqb (last (ar_shape params) 0%nat) (num_fitted (g_fit st)) &&
       Nat.eqb (last (ar_shape seed) 0%nat) (length (g_fit st))
    then loss params batch seed
    else Err ValueError.

  (** The reconstruction method (l.197-207) with a TensorFlow tensor as seed
      (source.py l.545-699) *)
  Definition reconstruction_method (batch : list value) (seed : array) : result array :=
    bind (if g_trafo st then transform tr seed pname true else Ok seed) (fun s =>
    bind (fitted_columns true (g_fit st) s) (fun x0 =>
    bind (minimise batch seed (concat (ar_rows x0))) (reshape (num_fitted (g_fit st))))).

  (** The loss of an event from the terms (l.360-368, 394-400) *)
  Definition event_loss (v : loss_value) : result (R * (nat -> nat -> R)) :=
    match v, g_per_dom st with
    | Sorted scalar event dom, true =>
        Ok (Rsum (map (fun d => dom (fst d) (snd d)) doms) + event + scalar, dom)
    | Scalar x, false => Ok (x, fun _ _ => 0)
    | _, _ => Err TypeError
    end.

  (** The batch with the simulated pulses (l.320-324) *)
  Definition simulated_batch (batch : list value) (rows : list prow) (ids : list pid)
    : result (list value) :=
    bind (set_item (g_pulses st) (VPulses rows) batch) (set_item (g_ids st) (VIds ids)).

  (** One iteration of the loop over the samples (l.299-368) *)
  Definition sample_step (batch : list value) (e : nat) (hyp : list R) (l : latent)
    : result ((nat -> nat -> nat) * R * (nat -> nat -> R)) :=
    bind (sample_num_pe e l) (fun counts =>
    match nth_error hyp (g_time st) with
    | None => Err IndexError
    | Some t0 =>
        bind (sample_event_pulses (draw_charges e) (draw_uniform e) erfinv argsort counts l t0
                (g_quantiles st)) (fun '(rows, ids) =>
        bind (simulated_batch batch rows ids) (fun batch' =>
        let seed := table (length hyp) [hyp] in
        bind (if g_reconstruct st then reconstruction_method batch' seed
              else if g_trafo st then transform tr seed pname true
              else Ok seed) (fun res =>
        match ar_rows res with
        | [row] =>
            (* l.348: broadcast into a row of the hypotheses *)
            if Nat.eqb (length row) (length hyp) || Nat.eqb (length row) 1 then
              bind (loss_function res batch' seed) (fun v =>
              bind (event_loss v) (fun '(x, dom) => Ok (counts, x, dom)))
            else Err ValueError
        | _ => Err AssertionError
        end)))
    end).

  Fixpoint sample_loop (batch : list value) (e : nat) (hyps : list (list R)) (ls : list latent)
    : result (list ((nat -> nat -> nat) * R * (nat -> nat -> R))) :=
    match hyps, ls with
    | hyp :: hyps', l :: ls' =>
        bind (sample_step batch e hyp l) (fun x =>
        bind (sample_loop batch (S e) hyps' ls') (fun xs => Ok (x :: xs)))
    | [], _ => Ok []
    | _, [] => Err IndexError
    end.

  Definition total_count (counts : nat -> nat -> nat) : R :=
    Rsum (map (fun d => INR (counts (fst d) (snd d))) doms).

  (** The counts of all events are sampled before the loop in the code (l.263);
      only which of several exceptions is raised depends on that. *)
  Definition execute (batch : list value) (result_trafo result_inv : array) (cov : option mat)
    : result goutput :=
    match ar_rows result_inv with
    | [best] =>
        let hyps := hypotheses best cov in
        bind (tensors hyps) (fun ls =>
        bind (sample_loop batch 0 hyps ls) (fun samples =>
        match rev hyps with
        | [] => Err UnboundLocalError
        | last_hyp :: _ =>
            (* l.388-391: the seed is left from the last iteration *)
            bind (loss_function result_trafo batch (table (length last_hyp) [last_hyp])) (fun v =>
            bind (event_loss v) (fun '(x, dom) =>
            (* l.403-409, the batch has the charges at this index *)
            match nth_error batch (g_charge st) with
            | Some (VCharge q) =>
                let total := Rsum (map (fun d => q (fst d) (snd d)) doms) in
                let norm_s counts y :=
                  if g_normalise st then y / (total_count counts + 1) else y in
                let norm_d y := if g_normalise st then y / (total + 1) else y in
                let sample := map (fun '(counts, y, _) => norm_s counts y) samples in
                bind (compute_p_value sample (norm_d x)) (fun '(p1, p2) =>
                Ok (mk_goutput p1 p2
                      (if g_per_dom st then
                         Some (fun s o => compute_p_value
                                 (map (fun '(counts, _, d) => norm_s counts (d s o)) samples)
                                 (norm_d (dom s o)))
                       else None)
                      sample (norm_d x)))
            | _ => Err TypeError
            end))
        end))
    | _ => Err AssertionError
    end.
End Execute.
