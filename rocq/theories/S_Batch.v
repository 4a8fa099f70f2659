(** Specification vocabulary for batches of events. *)
From Verif Require Import Py M_Batch.
From Coq Require Import Sorting.Sorted.

Section Spec.
Variable V : Type.
Notation row := (row V).
Notation tdata := (tdata V).

(** The entries of [l] belonging to event [k], in their order; [idx] are the
    aligned index rows. *)
Definition rows_of (k : nat) (idx l : list row) : list row :=
  map snd (filter (fun p : row * row => Z.eqb (fst (fst p)) (Z.of_nat k)) (combine idx l)).

(** Every index row names an event below [n]. *)
Definition InRange (n : nat) (idx : list row) : Prop :=
  Forall (fun r => (0 <= fst r < Z.of_nat n)%Z) idx.

(** Index rows ordered by event. *)
Definition OrderedByEvent (idx : list row) : Prop :=
  StronglySorted (fun a b => (fst a <= fst b)%Z) idx.

(** The rows, whether they are in an array or in a list. *)
Definition rows (d : tdata) : list row := match d with Arr l => l | PyList l => l end.

(** Index lists of the single events carry the right number. *)
Definition Numbered (indices : list (list row)) : Prop :=
  forall k e, nth_error indices k = Some e -> Forall (fun r => fst r = Z.of_nat k) e.

(** ** Filtering *)

(** Positions of the selected events. *)
Definition positions (mask : list bool) : list nat :=
  filter (fun i => nth i mask false) (seq 0 (length mask)).

(** Every value tensor belongs to exactly one index tensor. *)
Definition KindsOk (kinds : list tkind) : Prop :=
  (forall q r, nth_error kinds q = Some (TIndex r) -> nth_error kinds r = Some TValue) /\
  (forall q q' r, nth_error kinds q = Some (TIndex r) -> nth_error kinds q' = Some (TIndex r) -> q = q') /\
  (forall r, nth_error kinds r = Some TValue -> exists q, nth_error kinds q = Some (TIndex r)).

(** Loaded data of [n] events: tensors along the event axis have [n] entries;
    indices and values are aligned, or both missing. *)
Definition DataOk (kinds : list tkind) (n : nat) (data : batch V) : Prop :=
  length data = length kinds /\
  (forall i, nth_error kinds i = Some TEvent -> exists l, nth_error data i = Some (Some (Arr l)) /\ length l = n) /\
  (forall q r, nth_error kinds q = Some (TIndex r) ->
     nth_error data q = Some None /\ nth_error data r = Some None \/
     exists idx v, nth_error data q = Some (Some (Arr idx)) /\ nth_error data r = Some (Some (Arr v)) /\
       length idx = length v).

(** Data of a file for batching: as before, but also a tensor along the event
    axis may be missing. *)
Definition DataOpt (kinds : list tkind) (n : nat) (data : batch V) : Prop :=
  length data = length kinds /\
  (forall i, nth_error kinds i = Some TEvent ->
     nth_error data i = Some None \/ exists l, nth_error data i = Some (Some (Arr l)) /\ length l = n) /\
  (forall q r, nth_error kinds q = Some (TIndex r) ->
     nth_error data q = Some None /\ nth_error data r = Some None \/
     exists idx v, nth_error data q = Some (Some (Arr idx)) /\ nth_error data r = Some (Some (Arr v)) /\
       length idx = length v).

(** ... and nothing is missing. *)
Definition DataFull (kinds : list tkind) (n : nat) (data : batch V) : Prop :=
  DataOk kinds n data /\ forall i, i < length data -> nth_error data i <> Some None.

(** ** Batching *)

Definition arr (data : batch V) (i : nat) : list row :=
  match nth_error data i with Some (Some d) => rows d | _ => [] end.

(** The index tensor of value tensor [i]. *)
Definition index_of (kinds : list tkind) (i : nat) : option nat :=
  find (fun q => match nth_error kinds q with Some (TIndex r) => Nat.eqb r i | _ => false end)
    (seq 0 (length kinds)).

(** An event: for every tensor the list of its rows. *)
Definition event := list (list row).

Definition event_part (kinds : list tkind) (data : batch V) (j i : nat) : list row :=
  match nth_error kinds i with
  | Some TEvent => match nth_error (arr data i) j with Some r => [r] | None => [] end
  | Some (TIndex _) => rows_of j (arr data i) (arr data i)
  | Some TValue => match index_of kinds i with
                   | Some q => rows_of j (arr data q) (arr data i)
                   | None => []
                   end
  | None => []
  end.

(** Event number [j] of a file. *)
Definition event_of (kinds : list tkind) (data : batch V) (j : nat) : event :=
  map (event_part kinds data j) (seq 0 (length kinds)).

Definition file_events (kinds : list tkind) (f : nat * batch V) : list event :=
  map (event_of kinds (snd f)) (seq 0 (fst f)).

(** The events of a group of files, repeated in the orders given by [perms]. *)
Definition group_stream (kinds : list tkind)
  (g : list (nat * batch V) * list (list nat)) : list event :=
  let evs := concat (map (file_events kinds) (fst g)) in
  concat (map (fun p => map (fun j => nth j evs []) p) (snd g)).

Definition stream (kinds : list tkind) (groups : list (list (nat * batch V) * list (list nat)))
  : list event := concat (map (group_stream kinds) groups).

(** The batch made of the events [es]: per tensor the rows of all events in
    order, index rows carrying the position of the event. *)
Definition part_in_batch (kinds : list tkind) (k : nat) (e : event) (i : nat) : list row :=
  match nth_error kinds i with
  | Some (TIndex _) => map (fun r => (Z.of_nat k, snd r)) (nth i e [])
  | _ => nth i e []
  end.

Fixpoint assemble_from (kinds : list tkind) (k : nat) (es : list event) (i : nat) : list row :=
  match es with
  | [] => []
  | e :: es' => part_in_batch kinds k e i ++ assemble_from kinds (S k) es' i
  end.

Definition assemble (kinds : list tkind) (es : list event) : list (list row) :=
  map (assemble_from kinds 0 es) (seq 0 (length kinds)).

(** Tensor [i] is available in the whole group. *)
Definition Available (i : nat) (files : list (nat * batch V)) : Prop :=
  forall n data, In (n, data) files -> nth_error data i <> Some None.

(** The batch made of the events [es] when only the tensors in [has] are
    available: the others consist of one [zero] per event. *)
Definition assemble_with (zero : row) (kinds : list tkind) (has : nat -> bool) (es : list event)
  : list (list row) :=
  map (fun i => if has i then assemble_from kinds 0 es i else map (fun _ => zero) es)
    (seq 0 (length kinds)).

(** [chunks] cuts [l] into pieces of size [n], the last possibly smaller. *)
Definition ChunksOf {A} (n : nat) (l : list A) (chunks : list (list A)) : Prop :=
  concat chunks = l /\
  Forall (fun c => 0 < length c <= n) chunks /\
  (forall k c, nth_error chunks k = Some c -> S k < length chunks -> length c = n).

(** The index sequences only name events of the group. *)
Definition IndicesOk (g : list (nat * batch V) * list (list nat)) : Prop :=
  Forall (Forall (fun j => j < list_sum (map fst (fst g)))) (snd g).

(** The index sequences drawn for a group are permutations of its events. *)
Definition PermsOk (g : list (nat * batch V) * list (list nat)) : Prop :=
  let total := list_sum (map fst (fst g)) in
  Forall (fun p => Permutation p (seq 0 total)) (snd g).

End Spec.

Section FilterSpec.
Variable V : Type.
Notation row := (row V).

(** What filtering has to deliver, tensor by tensor. *)
Definition FilteredTo (kinds : list tkind) (mask : list bool) (data out : batch V) : Prop :=
  length out = length kinds /\
  (forall i, nth_error kinds i = Some TEvent ->
     exists l l', nth_error data i = Some (Some (Arr l)) /\ nth_error out i = Some (Some (Arr l')) /\
       length l' = length (positions mask) /\
       forall k p, nth_error (positions mask) k = Some p -> nth_error l' k = nth_error l p) /\
  (forall q r, nth_error kinds q = Some (TIndex r) ->
     (nth_error data q = Some None /\ nth_error out q = Some None /\ nth_error out r = Some None) \/
     exists idx v idx' v',
       nth_error data q = Some (Some (Arr idx)) /\ nth_error data r = Some (Some (Arr v)) /\
       nth_error out q = Some (Some idx') /\ nth_error out r = Some (Some v') /\
       length (rows V idx') = length (rows V v') /\
       InRange V (length (positions mask)) (rows V idx') /\
       OrderedByEvent V (rows V idx') /\
       forall k p, nth_error (positions mask) k = Some p ->
         rows_of V k (rows V idx') (rows V v') = rows_of V p idx v /\
         rows_of V k (rows V idx') (rows V idx') =
           map (fun r => (Z.of_nat k, snd r)) (rows_of V p idx idx)).

End FilterSpec.
