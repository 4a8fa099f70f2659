(** Specification for the reconstruction of test data. *)
From Coq Require Import Reals.
From Verif Require Import Py RList M_TestReco.
Open Scope R_scope.

(** [b'] is [b] with the rows [rows] as tensor [i]. *)
Definition Replaced (i : nat) (rows : list (list R)) (b b' : batch) : Prop :=
  length b' = length b /\ nth_error b' i = Some (TRows rows) /\
  forall j, j <> i -> nth_error b' j = nth_error b j.

(** The flags of the parameters: what the dictionary says, otherwise the default *)
Definition FlagsOf (names : list string) (default : bool) (d : dict bool) (flags : list bool) : Prop :=
  length flags = length names /\
  forall j name, nth_error names j = Some name ->
    nth_error flags j = Some (match dget name d with Some v => v | None => default end).

(** Square roots, NaN for negative numbers *)
Definition Root (x : R) (y : option R) : Prop :=
  match y with Some y => 0 <= y /\ y * y = x | None => x < 0 end.

Section Batches.
  Variable names : list string.
  Variable fit : list bool -> batch -> list (list R) -> result fitted.
  Variable get_loss : batch -> result (option R).

  (** The events [es] of a batch and the fit [f] from its seeds; [param] and [si]
      are the tensors with the true parameters and the seeds. *)
  Definition BatchOf (flags : list bool) (param si : nat) (b : batch) (f : fitted) (es : list event_row) : Prop :=
    exists truths seeds,
      nth_error b param = Some (TRows truths) /\ nth_error b si = Some (TRows seeds) /\
      fit flags b seeds = Ok f /\
      length es = Nat.min (length (f_result f)) (Nat.min (length seeds) (length truths)) /\
      forall k e, nth_error es k = Some e ->
        nth_error truths k = Some (e_true e) /\ nth_error seeds k = Some (e_seed e) /\
        nth_error (f_result f) k = Some (e_reco e) /\
        get_loss b = Ok (e_loss_true e) /\
        (forall b', length (e_seed e) = length names -> Replaced param [e_seed e] b b' ->
           get_loss b' = Ok (e_loss_seed e)) /\
        (forall b', length (e_reco e) = length names -> Replaced param [e_reco e] b b' ->
           get_loss b' = Ok (e_loss_reco e)).
End Batches.

(** Names of the columns *)
Definition parameter_columns (names suffixes : list string) : list string :=
  flat_map (fun n => map (fun s => (n ++ s)%string) suffixes) names.
Definition column_names (names : list string) (cov circ gof samples : bool) : list string :=
  parameter_columns names [""; "_reco"; "_seed"]%string
  ++ (if cov then parameter_columns names ["_unc"; "_unc_fit"; "_unc_sandwhich"; "_unc_sandwhich_fit"]%string
                  ++ ["cov_zenith_azimuth"; "cov_fit_zenith_azimuth"]%string
      else [])
  ++ (if circ then ["circular_unc"%string] else [])
  ++ (if gof then ["event_p_value_1sided"; "event_p_value_2sided"]%string
                  ++ (if samples then parameter_columns names ["_unc_samples"; "_sample_reco_bias"]%string else [])
      else [])
  ++ ["loss_true"; "loss_reco"; "loss_seed"]%string.
