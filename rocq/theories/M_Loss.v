(** Model of the loss modules (egenerator/loss/default.py,
    egenerator/loss/multi_loss.py, egenerator/loss/snowstorm.py).

    Numbers are exact reals.  A tensor of shape [n, strings, doms] is a
    function of the three indices, which is only meaningful for indices in
    range; sums run over all indices in range.  The trailing axis of length
    one of the DOM tensors is dropped, as [tf.squeeze] does; the one place
    where it matters is marked below.  Floating point effects (overflow, NaN)
    are not modelled. *)
From Verif Require Import Py PyStr RList.

Definition tensor3 := nat -> nat -> nat -> R.

(** A pulse: an entry of [x_pulses] (charge and cumulative charge quantile)
    together with its entry of [x_pulses_ids] and the values the model
    assigns to it ([pulse_pdf], [pulse_quantile_pdf]); the four tensors have
    the same number of rows. *)
Record pulse := mk_pulse {
  p_charge : R; p_quantile : R;
  p_event : nat; p_string : nat; p_dom : nat;
  p_pdf : R; p_qpdf : R }.

(** The data batch.  [b_mask]: the tensor [x_dom_exclusions] (true for DOMs
    which are used) if it exists; [b_time]: whether [x_time_exclusions]
    exists.  [b_n], [b_strings] and [b_doms] are the dimensions of
    [x_dom_charge] (86 strings and 60 DOMs for the detector). *)
Record batch := mk_batch {
  b_n : nat; b_strings : nat; b_doms : nat;
  b_pulses : list pulse;
  b_true : tensor3;
  b_mask : option (nat -> nat -> nat -> bool);
  b_time : bool }.

(** The result tensors of a model: predicted charges, their variance and log
    pdf values at the DOMs, and whether the time exclusions were handled
    ([dom_cdf_exclusion_sum] is in the dictionary). *)
Record results := mk_results {
  r_pred : tensor3; r_var : tensor3; r_logpdf : tensor3; r_cdf : bool }.

(** The settings of the loss functions. *)
Record settings := mk_settings {
  c_norm : bool; c_low : option R; c_max : option R }.

(** Terms of a loss, by shape. *)
Inductive term :=
| TScalar (x : R)
| TEvent (n : nat) (f : nat -> R)
| TDom (n s d : nat) (f : tensor3)
| TList (l : list R).

(** What a loss function returns: terms, or the three sorted terms some of
    which may be None. *)
Inductive fterms :=
| Unsorted (l : list term)
| Sorted (scalar : option R) (event : option (nat -> R)) (dom : option tensor3).

(** [tf.reduce_sum(t, axis=[1, 2])] of one event *)
Definition sum2 (ns nd : nat) (f : nat -> nat -> R) : R :=
  Rsum (map (fun s => Rsum (map (fun d => f s d) (seq 0 nd))) (seq 0 ns)).

Definition sum3 (n ns nd : nat) (t : tensor3) : R :=
  Rsum (map (fun e => sum2 ns nd (t e)) (seq 0 n)).

(** [tf.reduce_sum] of a term *)
Definition reduce_sum (t : term) : R :=
  match t with
  | TScalar x => x
  | TEvent n f => Rsum (map f (seq 0 n))
  | TDom n ns nd f => sum3 n ns nd f
  | TList l => Rsum l
  end.

Section Loss.

  (** [tf.math.lgamma] *)
  Variable lgamma : R -> R.

  (** default.py l.210-224 *)
  Definition log_faculty (x : R) : R := lgamma (Rmax (x + 1) 2).

  (** basis_functions.py l.46-64 *)
  Definition log_gauss (x mu sigma : R) : R :=
    - (1 / 2) * ((x - mu) / sigma) ^ 2 - ln sigma - ln (sqrt (2 * PI)).

  (** basis_functions.py l.302-348, without normalisation term *)
  Definition log_negative_binomial (x mu alpha : R) : R :=
    let inv_alpha := 1 / alpha in
    let alpha_mu := alpha * mu in
    lgamma (x + inv_alpha) - lgamma inv_alpha +
    - inv_alpha * ln (1 + alpha_mu) +
    x * ln (alpha_mu / (1 + alpha_mu)).

  Definition eps7 : R := 1 / 10000000.
  Definition eps5 : R := 5 / 100000.

  (** [if 'x_time_exclusions' in tensors.names and exists: assert ...]
      (for example default.py l.297-301) *)
  Definition check_time (b : batch) (r : results) : result unit :=
    if b_time b && negb (r_cdf r) then Err AssertionError else Ok tt.

  (** [t * mask_valid] if DOM exclusions exist (for example l.304-310) *)
  Definition masked (b : batch) (t : tensor3) : tensor3 :=
    match b_mask b with
    | Some m => fun e s d => t e s d * (if m e s d then 1 else 0)
    | None => t
    end.

  Definition at_dom (e s d : nat) (p : pulse) : bool :=
    Nat.eqb (p_event p) e && Nat.eqb (p_string p) s && Nat.eqb (p_dom p) d.

  Definition id_in_range (b : batch) (p : pulse) : bool :=
    Nat.ltb (p_event p) (b_n b) && Nat.ltb (p_string p) (b_strings b) &&
    Nat.ltb (p_dom p) (b_doms b).

  (** [tf.tensor_scatter_nd_add(base, indices=x_pulses_ids, updates)]:
      repeated indices accumulate; indices out of range raise. *)
  Definition scatter (b : batch) (base : tensor3) (upd : pulse -> R)
    : result tensor3 :=
    if forallb (id_in_range b) (b_pulses b) then
      Ok (fun e s d => base e s d +
            Rsum (map upd (filter (at_dom e s d) (b_pulses b))))
    else Err RuntimeError.

  Definition dom_term (b : batch) (t : tensor3) : term :=
    TDom (b_n b) (b_strings b) (b_doms b) t.

  Definition event_term (b : batch) (f : nat -> R) : term := TEvent (b_n b) f.

  Definition pulse_term (b : batch) (f : pulse -> R) : term :=
    TList (map f (b_pulses b)).

  (** [-pulse_charges * log(pulse_pdf + eps)] (for example l.314-321) *)
  Definition time_loss (p : pulse) : R :=
    - p_charge p * ln (p_pdf p + eps7).

  (** default.py l.226-354.  In sorted mode with normalisation the DOM term
      is replaced by the normalisation (l.344). *)
  Definition unbinned_extended_pulse_llh (c : settings) (b : batch)
    (r : results) (sort : bool) : result fterms :=
    bind (check_time b r) (fun _ =>
    let dom_true := masked b (b_true b) in
    let dom_pred := masked b (r_pred r) in
    let llh_poisson : tensor3 := fun e s d =>
      dom_pred e s d - dom_true e s d * ln (dom_pred e s d + eps7) in
    let norm_pulses := fun p => log_faculty (p_charge p) in
    let norm_doms : tensor3 := fun e s d => log_faculty (dom_true e s d) in
    if sort then
      bind (scatter b llh_poisson time_loss) (fun loss_doms =>
      if c_norm c then
        bind (scatter b norm_doms norm_pulses) (fun t =>
        Ok (Sorted None None (Some t)))
      else Ok (Sorted None None (Some loss_doms)))
    else
      let terms := [dom_term b llh_poisson; pulse_term b time_loss] in
      Ok (Unsorted (if c_norm c
                    then terms ++ [pulse_term b norm_pulses;
                                   dom_term b norm_doms]
                    else terms))).

  (** default.py l.356-460 *)
  Definition unbinned_pulse_time_llh (c : settings) (b : batch)
    (r : results) (sort : bool) : result fterms :=
    bind (check_time b r) (fun _ =>
    let norm_pulses := fun p => log_faculty (p_charge p) in
    if sort then
      bind (scatter b (fun _ _ _ => 0) time_loss) (fun t =>
      if c_norm c then
        bind (scatter b t norm_pulses) (fun t' =>
        Ok (Sorted None None (Some t')))
      else Ok (Sorted None None (Some t)))
    else
      let terms := [pulse_term b time_loss] in
      Ok (Unsorted (if c_norm c then terms ++ [pulse_term b norm_pulses]
                    else terms))).

  (** default.py l.462-593.  The normalisation of the DOMs is computed from
      [x_dom_charge] with its trailing axis (l.531, 581) and without the
      exclusions.  In sorted mode a tensor of shape [n, 86, 60] and one of
      shape [n, 86, 60, 1] are added (l.583): either the addition fails, or
      its result has four axes and the scatter update with one value per
      pulse (l.584-588) fails. *)
  Definition unbinned_pulse_and_dom_charge_pdf (c : settings) (b : batch)
    (r : results) (sort : bool) : result fterms :=
    bind (check_time b r) (fun _ =>
    let llh_charge := masked b (r_logpdf r) in
    let neg : tensor3 := fun e s d => - llh_charge e s d in
    let norm_pulses := fun p => log_faculty (p_charge p) in
    let norm_doms : tensor3 := fun e s d => log_faculty (b_true b e s d) in
    if sort then
      bind (scatter b neg time_loss) (fun t =>
      if c_norm c then Err RuntimeError
      else Ok (Sorted None None (Some t)))
    else
      let terms := [dom_term b neg; pulse_term b time_loss] in
      Ok (Unsorted (if c_norm c
                    then terms ++ [pulse_term b norm_pulses;
                                   dom_term b norm_doms]
                    else terms))).

  (** default.py l.595-727 *)
  Definition unbinned_charge_quantile_pdf (c : settings) (b : batch)
    (r : results) (sort : bool) : result fterms :=
    bind (check_time b r) (fun _ =>
    let loss0 := fun p => - ln (p_qpdf p + eps7) in
    let loss1 := fun p =>
      match c_low c with
      | Some low => if Rltb (p_quantile p) low then 0 else loss0 p
      | None => loss0 p
      end in
    let loss2 := fun p =>
      match c_max c with
      | Some high => if Rltb high (p_quantile p) then 0 else loss1 p
      | None => loss1 p
      end in
    if sort then
      bind (scatter b (fun _ _ _ => 0) loss2) (fun t =>
      Ok (Sorted None None (Some t)))
    else Ok (Unsorted [pulse_term b loss2])).

  (** default.py l.729-851 *)
  Definition dom_and_event_charge_pdf (c : settings) (b : batch)
    (r : results) (sort : bool) : result fterms :=
    bind (check_time b r) (fun _ =>
    let llh_charge := masked b (r_logpdf r) in
    let hits_true := masked b (b_true b) in
    let hits_pred := masked b (r_pred r) in
    let var := masked b (r_var r) in
    let esum := fun (t : tensor3) e => sum2 (b_strings b) (b_doms b) (t e) in
    let llh_event := fun e =>
      log_gauss (esum hits_true e) (esum hits_pred e) (sqrt (esum var e)) in
    let neg_event := fun e => - llh_event e in
    let neg_dom : tensor3 := fun e s d => - llh_charge e s d in
    if sort then Ok (Sorted None (Some neg_event) (Some neg_dom))
    else Ok (Unsorted [dom_term b neg_dom; event_term b neg_event])).

  (** default.py l.853-971 *)
  Definition negative_binomial_charge_pdf (c : settings) (b : batch)
    (r : results) (sort : bool) : result fterms :=
    let llh : tensor3 := fun e s d =>
      let mu := r_pred r e s d in
      let alpha := Rmax ((r_var r e s d - mu) / (mu ^ 2 + eps5)) eps5 in
      log_negative_binomial (b_true b e s d) mu alpha in
    bind (check_time b r) (fun _ =>
    let llh_charge := masked b llh in
    let neg_dom : tensor3 := fun e s d => - llh_charge e s d in
    if sort then Ok (Sorted None None (Some neg_dom))
    else Ok (Unsorted [dom_term b neg_dom])).

  (** default.py l.973-1102 *)
  Definition negative_binomial_event_charge_pdf (c : settings) (b : batch)
    (r : results) (sort : bool) : result fterms :=
    bind (check_time b r) (fun _ =>
    let hits_true := masked b (b_true b) in
    let hits_pred := masked b (r_pred r) in
    let var := masked b (r_var r) in
    let esum := fun (t : tensor3) e => sum2 (b_strings b) (b_doms b) (t e) in
    let llh_event := fun e =>
      let mu := esum hits_pred e in
      let alpha := Rmax ((esum var e - mu) / mu ^ 2) eps5 in
      log_negative_binomial (esum hits_true e) mu alpha in
    let neg_event := fun e => - llh_event e in
    if sort then Ok (Sorted None (Some neg_event) None)
    else Ok (Unsorted [event_term b neg_event])).

  (** default.py l.1104-1216.  The total charge is the sum over all DOMs,
      before exclusions are applied (l.1178). *)
  Definition normalized_dom_charge_pdf (c : settings) (b : batch)
    (r : results) (sort : bool) : result fterms :=
    let total := fun e => sum2 (b_strings b) (b_doms b) (r_pred r e) in
    let llh : tensor3 := fun e s d =>
      b_true b e s d * ln (r_pred r e s d / total e + eps5) in
    bind (check_time b r) (fun _ =>
    let llh_dom := masked b llh in
    let neg_dom : tensor3 := fun e s d => - llh_dom e s d in
    if sort then Ok (Sorted None None (Some neg_dom))
    else Ok (Unsorted [dom_term b neg_dom])).

  (** The methods which can be named as [loss_function_name]
      (default.py l.84-86). *)
  Inductive loss_name :=
  | ExtendedPulse | PulseTime | PulseAndDomCharge | ChargeQuantile
  | DomAndEventCharge | NegativeBinomial | NegativeBinomialEvent
  | NormalizedDom.

  Definition loss_function (f : loss_name) :=
    match f with
    | ExtendedPulse => unbinned_extended_pulse_llh
    | PulseTime => unbinned_pulse_time_llh
    | PulseAndDomCharge => unbinned_pulse_and_dom_charge_pdf
    | ChargeQuantile => unbinned_charge_quantile_pdf
    | DomAndEventCharge => dom_and_event_charge_pdf
    | NegativeBinomial => negative_binomial_charge_pdf
    | NegativeBinomialEvent => negative_binomial_event_charge_pdf
    | NormalizedDom => normalized_dom_charge_pdf
    end.

  Inductive loss :=
  | LNone
  | LScalar (x : R)
  | LTerms (l : list term).

  Definition scale_term (k : R) (t : term) : term :=
    match t with
    | TScalar x => TScalar (x / k)
    | TEvent n f => TEvent n (fun e => f e / k)
    | TDom n ns nd f => TDom n ns nd (fun e s d => f e s d / k)
    | TList l => TList (map (fun x => x / k) l)
    end.

  (** default.py l.177-187: missing sorted terms are replaced by zeros; the
      slices of [x_dom_charge] raise if there is no event, string or DOM. *)
  Definition fill (b : batch) (t : fterms) : result (list term) :=
    match t with
    | Unsorted l => Ok l
    | Sorted s e d =>
        let empty := Nat.eqb (b_n b) 0 || Nat.eqb (b_strings b) 0 ||
                     Nat.eqb (b_doms b) 0 in
        match s with
        | None =>
            if empty then Err RuntimeError
            else Ok [TScalar 0;
                     event_term b match e with Some f => f | None => fun _ => 0 end;
                     dom_term b match d with Some f => f
                                | None => fun _ _ _ => 0 end]
        | Some x =>
            Ok [TScalar x;
                event_term b match e with Some f => f | None => fun _ => 0 end;
                dom_term b match d with Some f => f
                           | None => fun _ _ _ => 0 end]
        end
    end.

  (** [approx_number_of_terms] (default.py l.189-201) *)
  Definition number_of_terms (b : batch) : R :=
    Rsum (map p_charge (b_pulses b)) + 5160 * INR (b_n b).

  (** [tf.math.accumulate_n]: raises for an empty list. *)
  Definition accumulate_n (l : list R) : result R :=
    match l with [] => Err ValueError | _ => Ok (Rsum l) end.

  (** [DefaultLossModule.get_loss] (default.py l.95-208) *)
  Definition get_loss (f : loss_name) (c : settings) (b : batch) (r : results)
    (reduce normalize sort : bool) : result loss :=
    if reduce && sort then Err ValueError
    else
      bind (loss_function f c b r sort) (fun t =>
      bind (fill b t) (fun terms =>
      let terms := if normalize
                   then map (scale_term (number_of_terms b)) terms
                   else terms in
      if reduce then
        bind (accumulate_n (map reduce_sum terms)) (fun x => Ok (LScalar x))
      else Ok (LTerms terms))).

  (** ** Combined losses *)

  (** Sum of two terms of the same shape.  Simplification: broadcasting
      between different shapes is not modelled and raises here. *)
  Definition add_term (a b : term) : result term :=
    match a, b with
    | TScalar x, TScalar y => Ok (TScalar (x + y))
    | TEvent n f, TEvent m g =>
        if Nat.eqb n m then Ok (TEvent n (fun e => f e + g e))
        else Err RuntimeError
    | TDom n ns nd f, TDom n' ns' nd' g =>
        if Nat.eqb n n' && Nat.eqb ns ns' && Nat.eqb nd nd'
        then Ok (TDom n ns nd (fun e s d => f e s d + g e s d))
        else Err RuntimeError
    | TList l, TList m =>
        if Nat.eqb (length l) (length m) then Ok (TList (zipw Rplus l m))
        else Err RuntimeError
    | _, _ => Err TypeError
    end.

  (** A member: its [get_loss] as a function of [reduce_to_scalar] and
      [sort_loss_terms], for one batch. *)
  Definition member := bool -> bool -> result loss.

  (** multi_loss.py l.145-173: one round of the loop. *)
  Definition multi_step (reduce sort : bool) (st : loss * list term)
    (m : member) : result (loss * list term) :=
    let '(acc, terms) := st in
    bind (m reduce sort) (fun li =>
    if reduce then
      match li with
      | LScalar y =>
          match acc with
          | LScalar x => Ok (LScalar (x + y), terms)
          | _ => Ok (LScalar y, terms)
          end
      | _ => Err TypeError
      end
    else
      match li with
      | LTerms l =>
          if sort then
            match l with
            | [s2; e2; d2] =>
                match terms with
                | [] => Ok (acc, l)
                | [s1; e1; d1] =>
                    bind (add_term s1 s2) (fun s =>
                    bind (add_term e1 e2) (fun e =>
                    bind (add_term d1 d2) (fun d =>
                    Ok (acc, [s; e; d]))))
                | _ => Err IndexError
                end
            | _ => Err AssertionError
            end
          else Ok (acc, terms ++ l)
      | _ => Err TypeError
      end).

  Fixpoint multi_loop (reduce sort : bool) (st : loss * list term)
    (ms : list member) : result (loss * list term) :=
    match ms with
    | [] => Ok st
    | m :: ms' => bind (multi_step reduce sort st m)
                       (fun st' => multi_loop reduce sort st' ms')
    end.

  (** [MultiLossModule.get_loss] (multi_loss.py l.81-178) *)
  Definition multi_loss (ms : list member) (reduce sort : bool)
    : result loss :=
    bind (multi_loop reduce sort (LNone, []) ms) (fun st =>
    if reduce then Ok (fst st) else Ok (LTerms (snd st))).

  (** ** Priors on systematic parameters *)

  (** [uniform_log_prior_loss] with [eps = 0] (snowstorm.py l.140-175) *)
  Definition loss_excess (x : R) : R := exp ((x + 1) * 10) - exp 10.

  Definition uniform_log_prior_loss (v low high : R) : R :=
    (if Rltb high v then loss_excess ((v - high) / (high - low)) else 0) +
    (if Rltb v low then loss_excess ((low - v) / (high - low)) else 0).

  (** [model.get_index]: the dictionary built by [enumerate] over the
      parameter names; a repeated name has its last index
      (model/source/base.py l.209-233). *)
  Fixpoint index_from (i : nat) (names : list string) (name : string)
    : option nat :=
    match names with
    | [] => None
    | x :: names' =>
        match index_from (S i) names' name with
        | Some j => Some j
        | None => if String.eqb x name then Some i else None
        end
    end.

  Definition get_index (names : list string) (name : string) : result nat :=
    match index_from 0 names name with
    | Some i => Ok i
    | None => Err KeyError
    end.

  (** ['{:02d}'.format(n)] *)
  Definition fmt02 (n : nat) : string :=
    (zeros (2 - String.length (str_of_nat n)) ++ str_of_nat n)%string.

  Definition mode (i : nat) : string :=
    ("IceWavePlusModes_" ++ fmt02 i)%string.

  Fixpoint mapr {A B} (f : A -> result B) (l : list A) : result (list B) :=
    match l with
    | [] => Ok []
    | x :: l' => bind (f x) (fun y => bind (mapr f l') (fun ys => Ok (y :: ys)))
    end.

  (** Column [i] of the parameter tensor. *)
  Definition column (x : list (list R)) (i : nat) : nat -> R :=
    fun e => nth i (nth e x []) 0.

  (** snowstorm.py l.252-274: the terms of the Fourier modes. *)
  Definition fourier_terms (names : list string) (x : list (list R))
    (sigmas : list R) : result (list term) :=
    let k := length sigmas in
    if Nat.eqb k 0 then Ok []
    else
      bind (get_index names (mode 0)) (fun start =>
      bind (get_index names (mode k)) (fun last =>
      let stop := (last + 1)%nat in
      if negb (Z.eqb (Z.of_nat stop - Z.of_nat start)%Z (Z.of_nat k))
      then Err AssertionError
      else
        bind (mapr (fun i =>
                bind (get_index names (mode i)) (fun index =>
                if Nat.eqb (start + i)%nat index then Ok tt
                else Err AssertionError)) (seq 0 (stop - start)%nat)) (fun _ =>
        Ok [TList (concat (map (fun row =>
              map (fun i => - log_gauss (nth (start + i)%nat row 0) 0
                                (nth i sigmas 0)) (seq 0 k)) x))]))).

  (** [SnowstormPriorLossModule.get_loss] (snowstorm.py l.177-297).  In
      sorted mode every term is compared as [(loss_term.shape) > 1] (l.279),
      which raises since shapes and integers cannot be ordered. *)
  Definition prior_loss (uniform : list (string * (R * R))) (sigmas : list R)
    (names : list string) (x : list (list R)) (n ns nd : nat)
    (reduce sort : bool) : result loss :=
    bind (mapr (fun nb =>
            bind (get_index names (fst nb)) (fun i =>
            Ok (TEvent (length x) (fun e =>
                  uniform_log_prior_loss (column x i e) (fst (snd nb))
                    (snd (snd nb)))))) uniform) (fun terms =>
    bind (fourier_terms names x sigmas) (fun ft =>
    let terms := terms ++ ft in
    if sort then
      match terms with
      | _ :: _ => Err TypeError
      | [] =>
          (* event_loss stays None: [LNone] stands for [zeros, None, zeros] *)
          if reduce then Err ValueError
          else if Nat.eqb n 0 || Nat.eqb ns 0 || Nat.eqb nd 0
          then Err RuntimeError
          else Ok LNone
      end
    else if reduce then
      bind (accumulate_n (map reduce_sum terms)) (fun y => Ok (LScalar y))
    else Ok (LTerms terms))).

End Loss.
