(** What is expected of batches and of a dataset. *)
From Verif Require Import Py M_Tensor M_Batch M_Handler M_Dataset.

(** All rows of the data of a tensor *)
Definition all_rows {V} (d : tdata V) : list (row V) := match d with Arr l => l | PyList l => l end.

(** A file of a group with the data of all tensors *)
Definition FileIn {V} (groups : list (list (nat * batch V) * list (list nat))) (data : batch V) : Prop :=
  exists g n, In g groups /\ In (n, data) (fst g).

(** Every row of tensor number [i] in the files has the property [P i] *)
Definition AllRows {V} (P : nat -> V -> Prop) (groups : list (list (nat * batch V) * list (list nat))) : Prop :=
  forall data i d r, FileIn groups data -> nth_error data i = Some (Some d) -> In r (all_rows d) -> P i (snd r).

(** Some file lacks tensor number [i] *)
Definition Lacking {V} (groups : list (list (nat * batch V) * list (list nat))) (i : nat) : Prop :=
  exists data, FileIn groups data /\ nth_error data i = Some None.

(** Declared shape: a first axis of any length and fixed further axes *)
Definition declared (t : tensor) (dims : list Z) : Prop :=
  (t_shape t = VList (VNone :: map VInt dims) \/ t_shape t = VTuple (VNone :: map VInt dims)) /\ Forall (fun z => (0 <= z)%Z) dims.

Definition exists_true (t : tensor) : Prop := t_exists t = VBool true.
Definition exists_false (t : tensor) : Prop := t_exists t = VBool false.
