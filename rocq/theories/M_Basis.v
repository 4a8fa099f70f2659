(** Model of egenerator/utils/basis_functions.py.  The TensorFlow and the numpy
    version of every function have the same formula and share one definition.

    Simplifications: numbers are exact reals and functions are applied to one
    number instead of arrays; divisions by zero are not modelled, except where
    the definition says so.  The special functions of scipy (or TensorFlow) are
    given from outside. *)
From Coq Require Import Reals.
From Verif Require Import RList.

(** [tf_gauss], [gauss] (l.6-43) *)
Definition gauss (x mu sigma : R) : R :=
  exp (- (1 / 2) * ((x - mu) / sigma) ^ 2) / sqrt (2 * PI * sigma ^ 2).

(** [tf_log_gauss], [log_gauss] (l.46-85) *)
Definition log_gauss (x mu sigma : R) : R :=
  let norm := ln (sqrt (2 * PI)) in
  - (1 / 2) * ((x - mu) / sigma) ^ 2 - ln sigma - norm.

(** [tf_log_asymmetric_gauss], [log_asymmetric_gauss] (l.88-141) *)
Definition log_asymmetric_gauss (x mu sigma r : R) : R :=
  let norm := ln (2 / (sqrt (2 * PI * sigma ^ 2) * (r + 1))) in
  let e := if Rltb x mu then - (1 / 2) * ((x - mu) / sigma) ^ 2
           else - (1 / 2) * ((x - mu) / (sigma * r)) ^ 2 in
  norm + e.

(** [tf_asymmetric_gauss], [asymmetric_gauss] (l.144-195) *)
Definition asymmetric_gauss (x mu sigma r : R) : R :=
  let norm := 2 / (sqrt (2 * PI * sigma ^ 2) * (r + 1)) in
  let e := if Rltb x mu then exp (- (1 / 2) * ((x - mu) / sigma) ^ 2)
           else exp (- (1 / 2) * ((x - mu) / (sigma * r)) ^ 2) in
  norm * e.

(** [tf_asymmetric_gauss_cdf], [asymmetric_gauss_cdf] (l.198-249); [erf] is the
    error function *)
Definition asymmetric_gauss_cdf (erf : R -> R) (x mu sigma r : R) : R :=
  let norm := 1 / (r + 1) in
  let e := if Rltb x mu then 1 + erf ((x - mu) / (sqrt 2 * sigma))
           else 1 + r * erf ((x - mu) / (sqrt 2 * r * sigma)) in
  norm * e.

(** [tf_asymmetric_gauss_ppf], [asymmetric_gauss_ppf] (l.252-299) *)
Definition asymmetric_gauss_ppf (erfinv : R -> R) (q mu sigma r : R) : R :=
  if Rltb q (1 / (r + 1)) then mu + sqrt 2 * sigma * erfinv (q * (r + 1) - 1)
  else mu + r * sqrt 2 * sigma * erfinv ((q * (r + 1) - 1) / r).

(** ** Negative binomial distribution *)

(** Floating point numbers with the values of a logarithm at zero and below *)
Inductive ext := Fin (x : R) | NegInf | PosInf | NaN.

(** [np.log], [tf.math.log] *)
Definition elog (x : R) : ext :=
  if Rltb 0 x then Fin (ln x) else if Reqb x 0 then NegInf else NaN.

(** [c * e] *)
Definition escale (c : R) (e : ext) : ext :=
  match e with
  | Fin x => Fin (c * x)
  | NegInf => if Rltb 0 c then NegInf else if Rltb c 0 then PosInf else NaN
  | PosInf => if Rltb 0 c then PosInf else if Rltb c 0 then NegInf else NaN
  | NaN => NaN
  end.

Definition eadd (a b : ext) : ext :=
  match a, b with
  | Fin x, Fin y => Fin (x + y)
  | NaN, _ | _, NaN => NaN
  | NegInf, PosInf | PosInf, NegInf => NaN
  | NegInf, _ | _, NegInf => NegInf
  | PosInf, _ | _, PosInf => PosInf
  end.

(** [tf_log_negative_binomial], [log_negative_binomial] (l.302-404) for positive
    [alpha]; [lgamma] is the logarithm of the gamma function. *)
Definition log_negative_binomial (lgamma : R -> R) (x mu alpha : R) (norm : bool) : ext :=
  let inv_alpha := 1 / alpha in
  let alpha_mu := alpha * mu in
  let gamma_terms := lgamma (x + inv_alpha) - lgamma inv_alpha in
  let gamma_terms := if norm then gamma_terms - lgamma (x + 1) else gamma_terms in
  let term1 := escale (- inv_alpha) (elog (1 + alpha_mu)) in
  let term2 := escale x (elog (alpha_mu / (1 + alpha_mu))) in
  eadd (eadd (Fin gamma_terms) term1) term2.

(** [sample_from_negative_binomial] (l.407-452): the parameters [r] and [p] of
    the distribution of numpy.  The generator raises ValueError if [r] is not
    positive, or [p] is not a number between zero and one. *)
Definition sample_parameters (mu alpha_or_var : R) (param_is_alpha : bool) : result (R * R) :=
  let eps := 1 / 1000000 in
  let var := if param_is_alpha then mu + alpha_or_var * mu ^ 2 else alpha_or_var in
  if Reqb var 0 then Err ValueError  (* NaN or infinite [p] *)
  else
    let p := 1 - (var - mu) / var in
    if Reqb (var - mu + eps) 0 then Err ValueError
    else
      let r := mu ^ 2 / (var - mu + eps) in
      if Rleb r 0 then Err ValueError
      else if Rltb p 0 || Rltb 1 p then Err ValueError
      else Ok (r, p).

(** ** Rayleigh distribution *)

(** [tf_rayleigh], [rayleigh] (l.455-490) *)
Definition rayleigh (x sigma : R) : R := x / sigma ^ 2 * exp (- (1 / 2) * (x / sigma) ^ 2).

(** [tf_rayleigh_cdf], [rayleigh_cdf] (l.493-524) *)
Definition rayleigh_cdf (x sigma : R) : R := 1 - exp (- (1 / 2) * (x / sigma) ^ 2).
