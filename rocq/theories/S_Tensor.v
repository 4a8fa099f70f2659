(** Specification vocabulary for tensor lists. *)
From Verif Require Import Py M_Tensor.
From Coq Require Import Sorting.Sorted.

(** Strictly increasing names. *)
Definition SortedByName (l : list tensor) : Prop :=
  StronglySorted (fun t u => String.ltb (t_name t) (t_name u) = true) l.

(** A tensor without the extra specifications named like the two serialisation
    fields that are not parameters of the constructor. *)
Definition strip (t : tensor) : tensor :=
  mkTensor (t_name t) (t_shape t) (t_type t) (t_dtype t) (t_exists t) (t_vector_info t)
    (t_trafo t) (t_reduce_axes t) (t_log t) (t_log_axis t) (t_batch_axis t)
    (filter (fun kv => negb (String.eqb (fst kv) "type" || String.eqb (fst kv) "specs"))
       (t_specs t)).
