(** Model of [DataTransformer] (/repo/egenerator/data/trafo.py) over exact
    reals.

    Simplifications: floating point rounding and dtypes are left out; arrays are
    stored row-major with their shape; the batch axis is the first one
    ([trafo_batch_axis=0], the default, which the code assumes in
    [_update_online_variance_vars]); shapes are known and an event has at least
    one axis.  [ln] of a number that is not positive is NaN or -inf in numpy and
    not modelled faithfully. *)
From Verif Require Import RList.

(** The attributes of a [DataTensor] used here (tensor.py l.70-81). *)
Record tinfo := {
  ti_exists : bool;
  ti_trafo : bool;
  ti_shape : list nat;            (* shape without the batch axis *)
  ti_axes : option (list nat);    (* trafo_reduce_axes; None: all axes *)
  ti_log : option (list bool);    (* trafo_log *)
  ti_log_axis : Z
}.

(** Number of elements of an array of the given shape. *)
Definition size (sh : list nat) : nat := fold_right Nat.mul 1%nat sh.

Definition event := list R.
(** One batch: per tensor of the list None or one array per event. *)
Definition batch := list (option (list event)).

(** ** Logarithm on bins *)

(** [f] on the bins along the last axis for which a flag is set: all elements
    if all flags are set (trafo.py l.255-256, 367-369, 438-440), else bin by bin
    (l.258-261, 380-382, 453-455); a flag beyond the last bin is an
    IndexError. *)
Definition on_bins (flags : list bool) (sh : list nat) (f f_single : R -> R) (data : list event)
  : result (list event) :=
  let d := last sh 1%nat in
  if forallb (fun b => b) flags then Ok (map (map f) data)
  else if existsb (fun k => nth k flags false) (seq d (length flags - d)) then Err IndexError
  else Ok (map (fun e => map (fun ix => if nth (fst ix mod d) flags false then f_single (snd ix) else snd ix)
                             (combine (seq 0 (length e)) e)) data).

Definition log1p (x : R) : R := ln (1 + x).
Definition expm1 (x : R) : R := exp x - 1.

(** ** Building the model *)

(** The entries of [var_dict] (l.122-126). *)
Record acc := { a_n : R; a_mean : list R; a_M2 : list R }.

Definition acc0 (sh : list nat) : acc :=
  {| a_n := 0; a_mean := repeat 0 (size sh); a_M2 := repeat 0 (size sh) |}.

(** One iteration of [_update_online_variance_vars] (l.214-219). *)
Definition update_one (a : acc) (x : event) : acc :=
  let n := a_n a + 1 in
  let delta := zipw Rminus x (a_mean a) in
  let mean := zipw (fun m d => m + d / n) (a_mean a) delta in
  let delta2 := zipw Rminus x mean in
  {| a_n := n; a_mean := mean; a_M2 := zipw Rplus (a_M2 a) (zipw Rmult delta delta2) |}.

(** [_perform_update_step] (l.222-265).  Events of another size than the tensor
    are a ValueError (numpy might broadcast them instead). *)
Definition perform_update_step (t : tinfo) (data : list event) (a : acc) : result acc :=
  if negb (forallb (fun e => Nat.eqb (length e) (size (ti_shape t))) data) then Err ValueError
  else match (match ti_log t with
              | None => Ok data
              | Some flags => on_bins flags (ti_shape t) log1p log1p data
              end) with
       | Err e => Err e
       | Ok data' => Ok (fold_left update_one data' a)
       end.

(** Loop over the tensors for one batch (l.133-145). *)
Fixpoint update_tensors (ts : list (string * tinfo)) (i : nat) (b : batch) (vars : dict acc)
  : result (dict acc) :=
  match ts with
  | [] => Ok vars
  | (name, t) :: ts' =>
      if ti_exists t && ti_trafo t then
        match nth_error b i, dget name vars with
        | Some (Some data), Some a =>
            match perform_update_step t data a with
            | Err e => Err e
            | Ok a' => update_tensors ts' (S i) b (dset name a' vars)
            end
        | None, _ => Err IndexError
        | Some None, _ => Err TypeError
        | _, None => Err KeyError
        end
      else update_tensors ts' (S i) b vars
  end.

(** Loop over the batches (l.128-145). *)
Fixpoint update_batches (ts : list (string * tinfo)) (bs : list batch) (num : nat) (vars : dict acc)
  {struct num} : result (dict acc) :=
  match num with
  | O => Ok vars
  | S num' =>
      match bs with
      | [] => Err StopIteration
      | b :: bs' => match update_tensors ts 0 b vars with
                    | Err e => Err e
                    | Ok vars' => update_batches ts bs' num' vars'
                    end
      end
  end.

(** Index along every axis of the element stored at position [i]. *)
Fixpoint unravel (sh : list nat) (i : nat) : list nat :=
  match sh with
  | [] => []
  | d :: ds => (i / size ds)%nat :: unravel ds (i mod size ds)
  end.

(** Elements [i] and [j] are averaged together when reducing over [axes]. *)
Definition same_cell (sh : list nat) (axes : option (list nat)) (i j : nat) : bool :=
  match axes with
  | None => true
  | Some ax => forallb (fun k => existsb (Nat.eqb k) ax ||
                                 Nat.eqb (nth k (unravel sh i) 0%nat) (nth k (unravel sh j) 0%nat))
                       (seq 0 (length sh))
  end.

(** [np.mean(x, axis=axes, keepdims=True)] (l.155-160), written out for every
    element it is later broadcast to. *)
Definition cell_mean (sh : list nat) (axes : option (list nat)) (x : list R) : list R :=
  map (fun i => Rmean (map (fun j => nth j x 0) (filter (same_cell sh axes i) (seq 0 (size sh)))))
      (seq 0 (size sh)).

(** Shape after the reduction with [keepdims=True]. *)
Definition kept_shape (sh : list nat) (axes : option (list nat)) : list nat :=
  map (fun kd => match axes with
                 | None => 1%nat
                 | Some ax => if existsb (Nat.eqb (fst kd)) ax then 1%nat else snd kd
                 end) (combine (seq 0 (length sh)) sh).

(** [data[name+'_mean']] and [data[name+'_std']]. *)
Record stats := { st_mean : list R; st_std : list R; st_shape : list nat }.

(** Finishing one tensor (l.150-165).  Without any event numpy divides zero by
    zero, all deviations are NaN; this is reported as an error here. *)
Definition finish (t : tinfo) (a : acc) : result stats :=
  if Reqb (a_n a) 0 then Err ZeroDivisionError
  else
    let std_dev := map (fun m2 => sqrt (m2 / a_n a)) (a_M2 a) in
    Ok {| st_mean := cell_mean (ti_shape t) (ti_axes t) (a_mean a);
          st_std := map (fun s => if Reqb s 0 then 1 else s)
                        (cell_mean (ti_shape t) (ti_axes t) std_dev);
          st_shape := kept_shape (ti_shape t) (ti_axes t) |}.

Fixpoint finish_all (ts : list (string * tinfo)) (vars : dict acc) (data : dict stats)
  : result (dict stats) :=
  match ts with
  | [] => Ok data
  | (name, t) :: ts' =>
      if ti_exists t && ti_trafo t then
        match dget name vars with
        | None => Err KeyError
        | Some a => match finish t a with
                    | Err e => Err e
                    | Ok s => finish_all ts' vars (dset name s data)
                    end
        end
      else finish_all ts' vars data
  end.

Record trafo := { tr_tensors : dict tinfo; tr_norm : R; tr_data : dict stats }.

(** [_configure] (l.34-188); [bs] are the batches the iterator yields.  [self]
    is None for an object that is not configured. *)
Definition configure (self : option trafo) (ts : dict tinfo) (norm_constant : R)
  (bs : list batch) (num_batches : nat) : result trafo :=
  match self with
  | Some _ => Err ValueError
  | None =>
      let vars := fold_left (fun v nt => if ti_exists (snd nt) && ti_trafo (snd nt)
                                         then dset (fst nt) (acc0 (ti_shape (snd nt))) v else v) ts [] in
      match update_batches ts bs num_batches vars with
      | Err e => Err e
      | Ok vars' => match finish_all ts vars' [] with
                    | Err e => Err e
                    | Ok data => Ok {| tr_tensors := ts; tr_norm := norm_constant; tr_data := data |}
                    end
      end
  end.

(** ** Applying the model *)

(** An array given to the object: shape without the batch axis and one row per
    event. *)
Record array := { ar_shape : list nat; ar_rows : list event }.

(** [_check_settings] (l.267-332). *)
Definition check_settings (self : option trafo) (data : array) (name : string) : result (trafo * tinfo) :=
  match self with
  | None => Err ValueError
  | Some tr =>
      match dget name (tr_tensors tr) with
      | None => Err ValueError
      | Some t => if list_eqb Nat.eqb (ar_shape data) (ti_shape t) then Ok (tr, t) else Err ValueError
      end
  end.

Definition div_by (tr : trafo) (s : stats) : list R := map (fun x => tr_norm tr + x) (st_std s).

(** [transform] (l.334-396); identical for numpy and TensorFlow over exact
    reals. *)
Definition transform (self : option trafo) (data : array) (name : string) (bias : bool) : result array :=
  match check_settings self data name with
  | Err e => Err e
  | Ok (tr, t) =>
      match (match ti_log t with
             | Some flags =>
                 if bias then
                   if negb (Z.eqb (ti_log_axis t) (-1)) then Err NotImplementedError
                   else on_bins flags (ti_shape t) log1p log1p (ar_rows data)
                 else Ok (ar_rows data)
             | None => Ok (ar_rows data)
             end) with
      | Err e => Err e
      | Ok rows =>
          match dget name (tr_data tr) with
          | None => Err KeyError
          | Some s =>
              let rows := if bias then map (fun e => zipw Rminus e (st_mean s)) rows else rows in
              Ok {| ar_shape := ar_shape data;
                    ar_rows := map (fun e => zipw Rdiv e (div_by tr s)) rows |}
          end
      end
  end.

(** [tf.clip_by_value] *)
Definition clip (x : R) : R := if Rltb x (-60) then -60 else if Rltb 60 x then 60 else x.

(** [inverse_transform] (l.398-463); with TensorFlow the values are clipped if
    the logarithm applies to some but not all bins (l.444-451). *)
Definition inverse_transform (self : option trafo) (is_tf : bool) (data : array) (name : string) (bias : bool)
  : result array :=
  match check_settings self data name with
  | Err e => Err e
  | Ok (tr, t) =>
      match dget name (tr_data tr) with
      | None => Err KeyError
      | Some s =>
          let rows := map (fun e => zipw Rmult e (div_by tr s)) (ar_rows data) in
          let rows := if bias then map (fun e => zipw Rplus e (st_mean s)) rows else rows in
          match (match ti_log t with
                 | Some flags =>
                     if bias then
                       if negb (Z.eqb (ti_log_axis t) (-1)) then Err NotImplementedError
                       else on_bins flags (ti_shape t) expm1
                              (if is_tf then fun x => expm1 (clip x) else expm1) rows
                     else Ok rows
                 | None => Ok rows
                 end) with
          | Err e => Err e
          | Ok rows => Ok {| ar_shape := ar_shape data; ar_rows := rows |}
          end
      end
  end.

(** ** Covariance *)

(** Matrices as functions with explicit dimensions. *)
Definition mat := nat -> nat -> R.

(** [np.matmul] with inner dimension [n]. *)
Definition matmul (n : nat) (A B : mat) : mat := fun i j => Rsum (map (fun k => A i k * B k j) (seq 0 n)).

(** [np.diag] of a vector. *)
Definition diag (v : list R) : mat := fun i j => if Nat.eqb i j then nth i v 0 else 0.

(** [inverse_transform_cov] (l.465-510) of a [rows] x [cols] matrix.  Tensors
    with more than one axis besides the batch axis are left out (an error
    here). *)
Definition inverse_transform_cov (self : option trafo) (rows cols : nat) (cov : mat) (name : string)
  : result mat :=
  match check_settings self {| ar_shape := [cols]; ar_rows := [] |} name with
  | Err e => Err e
  | Ok (tr, t) =>
      match dget name (tr_data tr) with
      | None => Err KeyError
      | Some s =>
          match st_shape s with
          | [k] =>
              if Nat.eqb k rows && Nat.eqb k cols then
                let B := diag (firstn k (div_by tr s)) in
                Ok (matmul k (matmul k B cov) B)
              else Err ValueError
          | _ => Err ValueError
          end
      end
  end.
