(** Model of the event structure of data batches: [batch_to_event_structure],
    [event_to_batch_structure] and the batching loop of
    /repo/egenerator/data/handler/base.py, and [_filter_data] of
    /repo/egenerator/data/handler/modular.py. *)
From Verif Require Import Py.

Section Batch.
Variable V : Type.

(** One entry of an array along axis 0.  The integer is column 0 (the batch
    id, only looked at for index tensors), the rest is opaque. *)
Definition row := (Z * V)%type.

(** Data of one tensor: a numpy array, or the Python list that
    [event_to_batch_structure] returns when there are no values to stack
    (base.py l.558-563). *)
Inductive tdata := Arr (l : list row) | PyList (l : list row).

(** How a tensor of the list is stored ([vector_info], tensor.py l.29-42):
    along the event axis, as values of a vector tensor, or as the indices
    belonging to the value tensor number [ref]. *)
Inductive tkind := TEvent | TValue | TIndex (ref : nat).

(** Boolean indexing [l[mask]]. *)
Fixpoint select {A} (mask : list bool) (l : list A) : list A :=
  match mask, l with
  | b :: mask', x :: l' => if b then x :: select mask' l' else select mask' l'
  | _, _ => []
  end.

(** [indices[:, 0] == i]. *)
Definition id_mask (i : Z) (idx : list row) : list bool :=
  map (fun r => Z.eqb (fst r) i) idx.

(** [batch_to_event_structure] (base.py l.494-522).  A mask of the wrong length
    is an IndexError; a list cannot be indexed by [:, 0] or by a mask. *)
Definition batch_to_event (values indices : tdata) (n : nat)
  : result (list (list row) * list (list row)) :=
  match n with
  | 0 => Ok ([], [])
  | _ =>
      match values, indices with
      | Arr v, Arr idx =>
          if Nat.eqb (length v) (length idx)
          then Ok (map (fun i => select (id_mask (Z.of_nat i) idx) v) (seq 0 n),
                   map (fun i => select (id_mask (Z.of_nat i) idx) idx) (seq 0 n))
          else Err IndexError
      | _, _ => Err TypeError
      end
  end.

(** The loop of [event_to_batch_structure] (l.545-551). *)
Fixpoint ids_ok (i : nat) (indices : list (list row)) : bool :=
  match indices with
  | [] => true
  | e :: rest => forallb (fun r => Z.eqb (fst r) (Z.of_nat i)) e && ids_ok (S i) rest
  end.

(** [event_to_batch_structure] (l.524-563). *)
Definition event_to_batch (values indices : list (list row)) (n : nat)
  : result (tdata * tdata) :=
  if negb (Nat.eqb n (length values)) then Err AssertionError
  else if negb (Nat.eqb n (length indices)) then Err AssertionError
  else if negb (ids_ok 0 indices) then Err AssertionError
  else match concat values, concat indices with
       | [], idx => Ok (PyList [], PyList idx)
       | _, [] => Err ValueError      (* np.stack of an empty list *)
       | v, idx => Ok (Arr v, Arr idx)
       end.

(** [event_indices_filtered[b][:, 0] = b] (modular.py l.492-494) and
    [indices[:, 0] = size] (base.py l.925). *)
Definition set_id (i : nat) (l : list row) : list row :=
  map (fun r => (Z.of_nat i, snd r)) l.

Fixpoint renumber (i : nat) (l : list (list row)) : list (list row) :=
  match l with
  | [] => []
  | e :: rest => set_id i e :: renumber (S i) rest
  end.

(** [l[i] = x]. *)
Fixpoint upd {A} (i : nat) (x : A) (l : list A) : list A :=
  match i, l with
  | _, [] => []
  | 0, _ :: l' => x :: l'
  | S i', y :: l' => y :: upd i' x l'
  end.

Definition batch := list (option tdata).

(** One iteration of [_filter_data] (modular.py l.453-512) for tensor number
    [ti].  If exactly one of values and indices is None, comparing an array
    with None is not a truth value: reported as AssertionError (ValueError for
    arrays with more than one element). *)
Definition filter_one (mask : list bool) (n m : nat) (data : batch) (ti : nat) (k : tkind)
  (out : batch) : result batch :=
  match k with
  | TValue => Ok out
  | TIndex vi =>
      match nth_error data vi, nth_error data ti with
      | Some None, Some None => Ok (upd ti None (upd vi None out))
      | Some (Some v), Some (Some idx) =>
          match batch_to_event v idx n with
          | Err e => Err e
          | Ok (ve, ie) =>
              match event_to_batch (select mask ve) (renumber 0 (select mask ie)) m with
              | Err e => Err e
              | Ok (v', idx') => Ok (upd ti (Some idx') (upd vi (Some v') out))
              end
          end
      | Some _, Some _ => Err AssertionError
      | _, _ => Err IndexError
      end
  | TEvent =>
      match nth_error data ti with
      | None => Err IndexError
      | Some None => Err TypeError
      | Some (Some (PyList _)) => Err TypeError
      | Some (Some (Arr l)) =>
          if Nat.eqb (length l) (length mask)
          then Ok (upd ti (Some (Arr (select mask l))) out)
          else Err IndexError
      end
  end.

Fixpoint filter_loop (mask : list bool) (n m : nat) (data : batch) (ti : nat)
  (kinds : list tkind) (out : batch) : result batch :=
  match kinds with
  | [] => Ok out
  | k :: rest =>
      match filter_one mask n m data ti k out with
      | Err e => Err e
      | Ok out' => filter_loop mask n m data (S ti) rest out'
      end
  end.

Definition count_true (mask : list bool) : nat := length (filter (fun b => b) mask).

(** [_filter_data] (modular.py l.427-514). *)
Definition filter_data (kinds : list tkind) (mask : list bool) (n : nat) (data : batch)
  : result (nat * batch) :=
  if negb (Nat.eqb (length mask) n) then Err AssertionError
  else match filter_loop mask n (count_true mask) data 0 kinds (map (fun _ => None) kinds) with
       | Err e => Err e
       | Ok out => Ok (count_true mask, out)
       end.

(** ** The batching loop *)

(** One entry of [event_list[i]] (base.py l.810-847): for a tensor along the
    event axis the array of a whole file, for vector tensors the rows of one
    event; None for missing data. *)
Definition column := list (option tdata).

(** One iteration of [fill_event_list] (l.813-847): [exists] and [event_list]
    are updated. *)
Definition fill_one (n : nat) (data : batch) (ti : nat) (k : tkind)
  (st : list bool * list column) : result (list bool * list column) :=
  let '(ex, ev) := st in
  match nth_error data ti with
  | None => Err IndexError
  | Some d =>
      let ex := match d with None => upd ti false ex | Some _ => ex end in
      let push i (l : column) (ev : list column) := upd i (nth i ev [] ++ l) ev in
      match k with
      | TValue => Ok (ex, ev)
      | TEvent => Ok (ex, push ti [d] ev)
      | TIndex vi =>
          match nth_error data vi, d with
          | None, _ => Err IndexError
          | Some None, None => Ok (ex, push ti [None] (push vi [None] ev))
          | Some (Some v), Some idx =>
              match batch_to_event v idx n with
              | Err e => Err e
              | Ok (ve, ie) =>
                  Ok (ex, push ti (map (fun e => Some (Arr e)) ie)
                            (push vi (map (fun e => Some (Arr e)) ve) ev))
              end
          | Some _, _ => Err AssertionError
          end
      end
  end.

Fixpoint fill_event_list (n : nat) (data : batch) (ti : nat) (kinds : list tkind)
  (st : list bool * list column) : result (list bool * list column) :=
  match kinds with
  | [] => Ok st
  | k :: rest =>
      match fill_one n data ti k st with
      | Err e => Err e
      | Ok st' => fill_event_list n data (S ti) rest st'
      end
  end.

(** Filling from all files of a group (l.874-891). *)
Fixpoint fill_files (kinds : list tkind) (files : list (nat * batch))
  (st : list bool * list column) : result (list bool * list column) :=
  match files with
  | [] => Ok st
  | (n, data) :: rest =>
      match fill_event_list n data 0 kinds st with
      | Err e => Err e
      | Ok st' => fill_files kinds rest st'
      end
  end.

(** What is stored per event and tensor in the batch under construction:
    the rows (a single one for a tensor along the event axis), or the scalar
    [getattr(np, dtype)()] for missing data (l.929). *)
Inductive cell := CRows (l : list row) | CScalar.

(** np.concatenate of the arrays of all files (l.893-896) and the split into
    single events; None entries make it raise. *)
Fixpoint concat_event_arrays (c : column) : result (list cell) :=
  match c with
  | [] => Ok []
  | Some (Arr l) :: rest =>
      match concat_event_arrays rest with
      | Err e => Err e
      | Ok cs => Ok (map (fun r => CRows [r]) l ++ cs)
      end
  | _ :: _ => Err ValueError
  end.

Definition vector_cells (c : column) : list cell :=
  map (fun d => match d with Some (Arr l) => CRows l | _ => CScalar end) c.

(** [event_list] after the concatenation step (l.893-896). *)
Fixpoint event_cells (kinds : list tkind) (ex : list bool) (ev : list column)
  : result (list (list cell)) :=
  match kinds, ex, ev with
  | k :: kinds', b :: ex', c :: ev' =>
      match (match k, b with
             | TEvent, true => concat_event_arrays c
             | _, _ => Ok (vector_cells c)
             end) with
      | Err e => Err e
      | Ok cs => match event_cells kinds' ex' ev' with
                 | Err e => Err e
                 | Ok rest => Ok (cs :: rest)
                 end
      end
  | _, _, _ => Ok []
  end.

(** Adding event number [index] to the batch (l.912-931). *)
Fixpoint add_event (kinds : list tkind) (ex : list bool) (cells : list (list cell))
  (index size : nat) (b : list (list cell)) : result (list (list cell)) :=
  match kinds, ex, cells, b with
  | k :: kinds', e :: ex', cs :: cells', col :: b' =>
      match (if e then match nth_error cs index with
                       | None => Err IndexError
                       | Some (CRows l) =>
                           match k with
                           | TIndex _ => Ok (CRows (set_id size l))
                           | _ => Ok (CRows l)
                           end
                       | Some CScalar => Err TypeError
                       end
             else Ok CScalar) with
      | Err er => Err er
      | Ok c => match add_event kinds' ex' cells' index size b' with
                | Err er => Err er
                | Ok rest => Ok ((col ++ [c]) :: rest)
                end
      end
  | _, _, _, _ => Ok []
  end.

(** The value of the scalar placeholder. *)
Variable zero : row.

(** Stacking or concatenating one column (l.938-953, 982-990); mixtures of rows
    and scalars cannot be combined. *)
Fixpoint stack_rows (c : list cell) : result (list row) :=
  match c with
  | [] => Ok []
  | CRows l :: rest => match stack_rows rest with Err e => Err e | Ok r => Ok (l ++ r) end
  | CScalar :: _ => Err ValueError
  end.
Definition flush_column (e : bool) (c : list cell) : result (list row) :=
  if e then stack_rows c
  else if forallb (fun x => match x with CScalar => true | _ => false end) c
       then Ok (map (fun _ => zero) c) else Err ValueError.
Fixpoint flush (ex : list bool) (b : list (list cell)) : result (list (list row)) :=
  match ex, b with
  | e :: ex', c :: b' =>
      match flush_column e c with
      | Err er => Err er
      | Ok l => match flush ex' b' with Err er => Err er | Ok r => Ok (l :: r) end
      end
  | _, _ => Ok []
  end.

(** State of the iterator between events: number of events in the batch, the
    batch, and the batches put on the final queue so far. *)
Definition istate := (nat * list (list cell) * list (list (list row)))%type.

(** The loop over the shuffled indices of one repetition (l.909-972). *)
Fixpoint batch_events (batch_size : nat) (kinds : list tkind) (ex : list bool)
  (cells : list (list cell)) (indices : list nat) (st : istate) : result istate :=
  match indices with
  | [] => Ok st
  | index :: rest =>
      let '(size, b, out) := st in
      match add_event kinds ex cells index size b with
      | Err e => Err e
      | Ok b' =>
          if Nat.eqb (S size) batch_size
          then match flush ex b' with
               | Err e => Err e
               | Ok res => batch_events batch_size kinds ex cells rest
                             (0, map (fun _ => []) kinds, out ++ [res])
               end
          else batch_events batch_size kinds ex cells rest (S size, b', out)
      end
  end.

(** The loop over repetitions (l.903-972); [perms] are the index sequences
    drawn, one per repetition. *)
Fixpoint batch_reps (batch_size : nat) (kinds : list tkind) (ex : list bool)
  (cells : list (list cell)) (perms : list (list nat)) (st : istate) : result istate :=
  match perms with
  | [] => Ok st
  | p :: rest =>
      match batch_events batch_size kinds ex cells p st with
      | Err e => Err e
      | Ok st' => batch_reps batch_size kinds ex cells rest st'
      end
  end.

(** One turn of the outer loop (l.867-972) for the files of one group. *)
Definition batch_group (batch_size : nat) (kinds : list tkind)
  (files : list (nat * batch)) (perms : list (list nat)) (st : istate)
  : result (istate * list bool) :=
  match fill_files kinds files (map (fun _ => true) kinds, map (fun _ => []) kinds) with
  | Err e => Err e
  | Ok (ex, ev) =>
      match event_cells kinds ex ev with
      | Err e => Err e
      | Ok cells =>
          match batch_reps batch_size kinds ex cells perms st with
          | Err e => Err e
          | Ok st' => Ok (st', ex)
          end
      end
  end.

(** All groups, then the leftovers (l.860-991).  [ex] is the variable
    [exists], which keeps the value of the last group. *)
Fixpoint batch_groups (batch_size : nat) (kinds : list tkind)
  (groups : list (list (nat * batch) * list (list nat))) (st : istate) (ex : list bool)
  : result (list (list (list row))) :=
  match groups with
  | [] =>
      let '(size, b, out) := st in
      match size with
      | 0 => Ok out
      | _ => match flush ex b with Err e => Err e | Ok res => Ok (out ++ [res]) end
      end
  | (files, perms) :: rest =>
      match batch_group batch_size kinds files perms st with
      | Err e => Err e
      | Ok (st', ex') => batch_groups batch_size kinds rest st' ex'
      end
  end.

Definition run_batching (batch_size : nat) (kinds : list tkind)
  (groups : list (list (nat * batch) * list (list nat)))
  : result (list (list (list row))) :=
  batch_groups batch_size kinds groups (0, map (fun _ => []) kinds, [])
    (map (fun _ => true) kinds).

End Batch.

Arguments Arr {V} l.
Arguments PyList {V} l.
Arguments CRows {V} l.
Arguments CScalar {V}.
