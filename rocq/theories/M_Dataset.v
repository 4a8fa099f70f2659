(** Model of [get_tf_dataset] (/repo/egenerator/data/handler/base.py l.1022-1130):
    the types and shapes that are declared and the check of each batch against
    them by [tf.data.Dataset.from_generator].

    The batches are those of M_Batch.  A row of an array carries its shape.
    Simplifications: TensorFlow converts every array to the declared type, so
    types of arrays are left out; an array without rows has the declared shape
    beyond the first axis; prefetching (l.1130) is invisible. *)
From Verif Require Import Py M_Tensor M_Batch M_Handler.

Section Dataset.
Variable C : Type.

(** One row of an array: its shape and what it contains *)
Record entry_row := { e_dims : list Z; e_content : C }.

(** [hasattr(tf, dtype)] *)
Variable tf_has : string -> bool.

(** [tf.TensorShape(shape)] of a list: None is an axis of any length *)
Fixpoint shape_axes (l : list value) : result (list (option Z)) :=
  match l with
  | [] => Ok []
  | v :: rest =>
      bind (match v with
            | VNone => Ok None
            | VInt z => if (z <? 0)%Z then Err ValueError else Ok (Some z)
            | _ => Err TypeError
            end) (fun d =>
      bind (shape_axes rest) (fun ds => Ok (d :: ds)))
  end.
Definition tensor_shape (v : value) : result (option (list (option Z))) :=
  match v with
  | VNone => Ok None
  | VList l | VTuple l => bind (shape_axes l) (fun ds => Ok (Some ds))
  | _ => Err TypeError
  end.

(** Output types and shapes (l.1111-1121) *)
Fixpoint output_shapes (ts : list tensor) : result (list (option (list (option Z)))) :=
  match ts with
  | [] => Ok []
  | t :: rest =>
      if negb (tf_has (t_dtype t)) then Err AttributeError
      else bind (if truthy (t_exists t) then tensor_shape (t_shape t) else Ok None) (fun s =>
           bind (output_shapes rest) (fun ss => Ok (s :: ss)))
  end.

Definition axis_fits (axis : option Z) (n : Z) : bool := match axis with None => true | Some m => Z.eqb m n end.
Fixpoint axes_fit (axes : list (option Z)) (dims : list Z) : bool :=
  match axes, dims with
  | [], [] => true
  | a :: axes', n :: dims' => axis_fits a n && axes_fit axes' dims'
  | _, _ => false
  end.

(** Rows of different shapes are no array *)
Definition regular (rows : list (row entry_row)) : bool :=
  match rows with
  | [] => true
  | r :: rest => forallb (fun r' => list_eqb Z.eqb (e_dims (snd r)) (e_dims (snd r'))) rest
  end.

(** The check of one array by TensorFlow ([from_generator]) *)
Definition array_fits (shape : option (list (option Z))) (rows : list (row entry_row)) : bool :=
  regular rows &&
  match shape with
  | None => true
  | Some [] => false
  | Some (a :: axes) => axis_fits a (Z.of_nat (length rows)) && forallb (fun r => axes_fit axes (e_dims (snd r))) rows
  end.

Fixpoint element_fits (shapes : list (option (list (option Z)))) (b : list (list (row entry_row))) : bool :=
  match shapes, b with
  | [], [] => true
  | s :: shapes', rows :: b' => array_fits s rows && element_fits shapes' b'
  | _, _ => false
  end.

(** What an iteration over the dataset yields: the batches up to the first one
    that does not fit, which raises *)
Fixpoint iterate (shapes : list (option (list (option Z)))) (bs : list (list (list (row entry_row))))
  : list (list (list (row entry_row))) * option exn :=
  match bs with
  | [] => ([], None)
  | b :: rest => if element_fits shapes b then let (out, e) := iterate shapes rest in (b :: out, e) else ([], Some TypeError)
  end.

(** The value of [getattr(np, dtype)()]: an array of such values has one axis *)
Variable zero : C.
Definition zero_row : row entry_row := (0%Z, {| e_dims := []; e_content := zero |}).

(** [get_tf_dataset] (l.1022-1130) and an iteration over all batches made from
    groups of files *)
Definition tf_dataset (tensors : tensor_list) (batch_size : nat) (groups : list (list (nat * batch entry_row) * list (list nat)))
  : result (list (list (list (row entry_row))) * option exn) :=
  bind (output_shapes (tl_list tensors)) (fun shapes =>
  bind (kinds_of tensors (tl_list tensors)) (fun kinds =>
  bind (run_batching entry_row zero_row batch_size kinds groups) (fun bs =>
  Ok (iterate shapes bs)))).
End Dataset.
