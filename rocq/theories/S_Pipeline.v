(** Specification for the data pipeline, independent of the transition rules. *)
From Verif Require Import Py M_Pipeline.

Section Spec.
Variable E : Type.

(** Events in a file that reach the pipeline. *)
Definition contents (f : file E) : list E :=
  match f with FData es => es | FBad es => es | _ => [] end.

Definition all_events (fs : list (file E)) : list E := concat (map contents fs).

(** How many events satisfy a predicate; with a predicate singling out one
    event this is its multiplicity. *)
Definition count (P : E -> bool) (l : list E) : nat := length (filter P l).

Definition has_data (f : file E) : bool := match f with FData _ => true | FBad _ => true | _ => false end.

Definition num_data_files (fs : list (file E)) : nat := length (filter has_data fs).

(** All batches but the last have the requested size, none is empty, and the
    last is not too large. *)
Definition BatchesOk (bs : nat) (bs_list : list (list E)) : Prop :=
  Forall (fun b => b <> [] /\ (0 < bs -> length b <= bs)) bs_list /\
  forall k b, nth_error bs_list k = Some b -> S k < length bs_list -> length b = bs.

(** From this state on neither the batching process nor the consumer ever
    finishes. *)
Definition Hangs (p : params) (s : state E) : Prop :=
  forall s', steps E p s s' -> s_iter E s' <> IDone /\ s_cons E s' <> CDone.

End Spec.
