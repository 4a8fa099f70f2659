(** Model of the derivatives of the loss of several models
    (egenerator/manager/source.py l.130-156, 295-478) and of the shapes that the
    module for covariances (manager/reconstruction/modules/covariance.py l.93-175)
    gets.

    Simplifications: a number that depends on the parameters is represented by its
    first and second derivatives at the best fit; automatic differentiation is
    taken to be linear ([jet_add]).  Terms of the loss are flattened. *)
From Coq Require Import Reals.
From Verif Require Import Py RList M_Trafo M_Reco.
Open Scope R_scope.

(** Derivatives of a number with respect to the parameters *)
Record jet := { j_grad : nat -> R; j_hess : mat }.
Definition jet_zero : jet := {| j_grad := fun _ => 0; j_hess := fun _ _ => 0 |}.
Definition jet_add (a b : jet) : jet :=
  {| j_grad := fun i => j_grad a i + j_grad b i; j_hess := fun i j => j_hess a i j + j_hess b i j |}.

(** A term of the loss: a tensor, flattened (l.391-393) *)
Definition term := list jet.

(** [a + b] of two terms: equal shapes or a single number is added to all
    (otherwise TensorFlow raises InvalidArgumentError, here ValueError) *)
Definition term_add (a b : term) : result term :=
  if Nat.eqb (length a) (length b) then Ok (map (fun p => jet_add (fst p) (snd p)) (combine a b))
  else match a, b with
       | [x], _ => Ok (map (jet_add x) b)
       | _, [y] => Ok (map (fun x => jet_add x y) a)
       | _, _ => Err ValueError
       end.

(** [for index in range(len(loss_i)): loss[index] += loss_i[index]] (l.154-155) *)
Fixpoint add_terms (loss loss_i : list term) : result (list term) :=
  match loss_i, loss with
  | [], _ => Ok loss
  | _ :: _, [] => Err IndexError
  | t :: ts, l :: ls => bind (term_add l t) (fun x => bind (add_terms ls ts) (fun xs => Ok (x :: xs)))
  end.

(** The loop over models without reduction (l.130-156); [models] has for every
    model the terms of its loss *)
Fixpoint add_models (loss : list term) (models : list (list term)) : result (list term) :=
  match models with
  | [] => Ok loss
  | m :: rest => bind (add_terms loss m) (fun loss' => add_models loss' rest)
  end.
Definition ensemble_terms (models : list (list term)) : result (list term) :=
  match models with
  | [] => Err TypeError                              (* iterating over None (l.393) *)
  | m :: rest => add_models m rest
  end.

(** [opg_estimate_function] (l.374-408) *)
Definition ensemble_opg (models : list (list term)) : result mat :=
  bind (ensemble_terms models) (fun terms => Ok (opg_estimate (map j_grad (concat terms)))).

(** The Hessian of the scalar loss (l.454-472): the loss of a model is the sum of
    its terms, losses of models are added (l.150-152) *)
Definition jet_sum (l : list jet) : jet := fold_right jet_add jet_zero l.
Definition ensemble_hessian (models : list (list term)) : mat :=
  j_hess (jet_sum (map (fun m => jet_sum (concat m)) models)).

(** [tf.squeeze(tf.ensure_shape(hessian, [1, n] * 2))] (l.473-474): the shape of
    the result; another batch size raises InvalidArgumentError (here ValueError) *)
Definition hessian_shape (batch n : nat) : result (list nat) :=
  if Nat.eqb batch 1 then Ok (filter (fun k => negb (Nat.eqb k 1)) [1%nat; n; 1%nat; n]) else Err ValueError.

(** [CovarianceMatrix.execute] (covariance.py l.93-175) for a batch.  A Hessian
    without axes is not inverted: LinAlgError is caught, and [np.matmul] of a
    number raises ValueError (l.125-133). *)
Definition execute_batch (tr : option trafo) (pname : string) (n : nat) (inv : mat -> option mat) (nans : mat)
  (in_trafo : bool) (batch : nat) (models : list (list term)) (hess_inv : option mat) : result (dict mat) :=
  bind (hessian_shape batch n) (fun shape =>
  bind (ensemble_opg models) (fun opg =>
  match shape with
  | [] => Err ValueError
  | _ => execute_covariance tr pname n inv nans in_trafo (ensemble_hessian models) opg hess_inv
  end)).
