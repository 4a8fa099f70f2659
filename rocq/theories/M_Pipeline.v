(** Model of the multi-process data pipeline [get_batch_generator] of
    /repo/egenerator/data/handler/base.py (l.565-1020) as a transition system:
    worker processes, the batching process and the consumer, run in any
    interleaving.

    Simplifications: [pick_random_files_forever=False] (the other mode never
    ends by construction); events are opaque (their handling inside a batch is
    modelled in M_Batch.v); the queues are manager queues, so puts and gets are
    atomic (l.693-707); log messages, sleeping and [num_splits] (always raises,
    l.778) are left out. *)
From Verif Require Import Py.

Section Pipeline.
Variable E : Type.

(** What happens to a file in [file_loader] (l.745-766): the path does not
    exist; no data is returned ([data is None]); reading raises and the worker
    process dies; data with the given events is queued; or data is queued on
    which the batching process raises (see C61). *)
Inductive file := FMissing | FNoData | FRaises | FData (es : list E) | FBad (es : list E).

(** An entry of [data_batch_queue]. *)
Inductive item := Good (es : list E) | Bad (es : list E).

Definition events (i : item) : list E := match i with Good es => es | Bad es => es end.

(** Program counter of a worker (l.735-807): loop test, taking a file, putting
    data, counting, finished (or dead). *)
Inductive wpc := WCheck | WGet | WPut (i : item) | WCount | WDone.

(** Program counter of the batching process (l.865-991): initial check, loop
    test, blocking get, collecting more files, batching the remaining stream of
    events, end check, leftovers, finished; killed by an exception while
    holding the events [g]. *)
Inductive ipc := IStart | ILoop | IGet | IInner (g : list E) (n : nat) | IEmit (es : list E)
               | IEnd | ILeft | IDone | IDead (g : list E).

(** Program counter of the consumer (l.1003-1005). *)
Inductive cpc := CCheck | CGet | CDone.

(** Arguments of the call; a [p_cap] of zero means unbounded.  A batch size of
    zero stands for every size that is not positive. *)
Record params := {
  p_batch_size : nat;
  p_file_capacity : nat;
  p_batch_capacity : nat;
  p_num_add_files : nat;
  p_num_repetitions : nat;
  p_num_files : nat           (* number_of_files, l.697-705 *)
}.

Record state := {
  s_files : list file;            (* file_list_queue *)
  s_counter : nat;                (* num_files_processed *)
  s_all : bool;                   (* processed_all_files *)
  s_data : list item;             (* data_batch_queue *)
  s_final : list (list E);        (* final_batch_queue *)
  s_left : bool;                  (* data_left_in_queue *)
  s_workers : list wpc;
  s_iter : ipc;
  s_acc : list E;                 (* the batch under construction *)
  s_cons : cpc;
  s_out : list (list E)           (* batches yielded so far *)
}.

Definition set_workers (s : state) ws := {| s_files := s_files s; s_counter := s_counter s; s_all := s_all s;
  s_data := s_data s; s_final := s_final s; s_left := s_left s; s_workers := ws; s_iter := s_iter s;
  s_acc := s_acc s; s_cons := s_cons s; s_out := s_out s |}.
Definition set_files (s : state) fs := {| s_files := fs; s_counter := s_counter s; s_all := s_all s;
  s_data := s_data s; s_final := s_final s; s_left := s_left s; s_workers := s_workers s; s_iter := s_iter s;
  s_acc := s_acc s; s_cons := s_cons s; s_out := s_out s |}.
Definition set_count (s : state) c a := {| s_files := s_files s; s_counter := c; s_all := a;
  s_data := s_data s; s_final := s_final s; s_left := s_left s; s_workers := s_workers s; s_iter := s_iter s;
  s_acc := s_acc s; s_cons := s_cons s; s_out := s_out s |}.
Definition set_data (s : state) q := {| s_files := s_files s; s_counter := s_counter s; s_all := s_all s;
  s_data := q; s_final := s_final s; s_left := s_left s; s_workers := s_workers s; s_iter := s_iter s;
  s_acc := s_acc s; s_cons := s_cons s; s_out := s_out s |}.
Definition set_iter (s : state) i := {| s_files := s_files s; s_counter := s_counter s; s_all := s_all s;
  s_data := s_data s; s_final := s_final s; s_left := s_left s; s_workers := s_workers s; s_iter := i;
  s_acc := s_acc s; s_cons := s_cons s; s_out := s_out s |}.
Definition set_left (s : state) b := {| s_files := s_files s; s_counter := s_counter s; s_all := s_all s;
  s_data := s_data s; s_final := s_final s; s_left := b; s_workers := s_workers s; s_iter := s_iter s;
  s_acc := s_acc s; s_cons := s_cons s; s_out := s_out s |}.
Definition set_acc (s : state) a := {| s_files := s_files s; s_counter := s_counter s; s_all := s_all s;
  s_data := s_data s; s_final := s_final s; s_left := s_left s; s_workers := s_workers s; s_iter := s_iter s;
  s_acc := a; s_cons := s_cons s; s_out := s_out s |}.
Definition set_final (s : state) q := {| s_files := s_files s; s_counter := s_counter s; s_all := s_all s;
  s_data := s_data s; s_final := q; s_left := s_left s; s_workers := s_workers s; s_iter := s_iter s;
  s_acc := s_acc s; s_cons := s_cons s; s_out := s_out s |}.
Definition set_cons (s : state) c o := {| s_files := s_files s; s_counter := s_counter s; s_all := s_all s;
  s_data := s_data s; s_final := s_final s; s_left := s_left s; s_workers := s_workers s; s_iter := s_iter s;
  s_acc := s_acc s; s_cons := c; s_out := o |}.

(** Queue of capacity [cap] can take another element. *)
Definition room {A} (cap : nat) (q : list A) : bool := Nat.eqb cap 0 || Nat.ltb (length q) cap.

Variable p : params.

(** Start (l.678-705, 1008-1018); [workers] is [num_jobs]. *)
Definition init (fs : list file) (workers : nat) : state :=
  {| s_files := fs; s_counter := 0; s_all := false; s_data := []; s_final := []; s_left := true;
     s_workers := repeat WCheck workers; s_iter := IStart; s_acc := []; s_cons := CCheck; s_out := [] |}.

(** One step of a worker.  An empty file queue gives [file = None], which is
    treated like a missing file and counted (l.741-748, 798-807). *)
Inductive wstep : state -> wpc -> state -> wpc -> Prop :=
  | ws_exit s : s_all s = true -> wstep s WCheck s WDone
  | ws_enter s : s_all s = false -> wstep s WCheck s WGet
  | ws_none s : s_files s = [] -> wstep s WGet s WCount
  | ws_missing s fs : s_files s = FMissing :: fs -> wstep s WGet (set_files s fs) WCount
  | ws_nodata s fs : s_files s = FNoData :: fs -> wstep s WGet (set_files s fs) WCount
  | ws_raises s fs : s_files s = FRaises :: fs -> wstep s WGet (set_files s fs) WDone
  | ws_data s es fs : s_files s = FData es :: fs -> wstep s WGet (set_files s fs) (WPut (Good es))
  | ws_bad s es fs : s_files s = FBad es :: fs -> wstep s WGet (set_files s fs) (WPut (Bad es))
  | ws_put s i : room (p_file_capacity p) (s_data s) = true ->
      wstep s (WPut i) (set_data s (s_data s ++ [i])) WCount
  | ws_count s : wstep s WCount
      (set_count s (S (s_counter s)) (s_all s || Nat.eqb (S (s_counter s)) (p_num_files p))) WCheck.

(** The test under the lock at the start and after every group (l.866-869,
    974-978). *)
Definition end_test (s : state) : bool :=
  s_all s && match s_data s with [] => true | _ => false end.

(** The condition of the loop collecting more files (l.885-887);
    [a < sqrt(r) * b] is compared as squares. *)
Definition wants_more (n size : nat) : bool :=
  Nat.ltb n (p_num_add_files p) ||
  Nat.ltb (size * size) ((p_num_repetitions p - 1) * (p_batch_size p * p_batch_size p)).

(** The stream made of one group: one permutation per repetition (l.903-909). *)
Definition Stream (g es : list E) : Prop :=
  exists perms, length perms = p_num_repetitions p /\ Forall (fun q => Permutation q g) perms /\ es = concat perms.

(** One step of the batching process. *)
Inductive istep : state -> ipc -> state -> Prop :=
  | is_start s : istep s IStart
      (set_iter (set_left s (if end_test s then false else s_left s)) ILoop)
  | is_loop_on s : s_left s = true -> istep s ILoop (set_iter s IGet)
  | is_loop_off s : s_left s = false -> istep s ILoop (set_iter s ILeft)
  | is_get s es q : s_data s = Good es :: q -> istep s IGet (set_iter (set_data s q) (IInner es 0))
  | is_get_bad s es q : s_data s = Bad es :: q -> istep s IGet (set_iter (set_data s q) (IDead es))
  | is_poll s g n : wants_more n (length g) && s_left s = true -> s_data s = [] ->
      istep s (IInner g n) s
  | is_more s g n es q : wants_more n (length g) && s_left s = true -> s_data s = Good es :: q ->
      istep s (IInner g n) (set_iter (set_data s q) (IInner (g ++ es) (S n)))
  | is_more_bad s g n es q : wants_more n (length g) && s_left s = true -> s_data s = Bad es :: q ->
      istep s (IInner g n) (set_iter (set_data s q) (IDead (g ++ es)))
  | is_group s g n es : wants_more n (length g) && s_left s = false -> Stream g es ->
      istep s (IInner g n) (set_iter s (IEmit es))
  | is_add s e es : Nat.eqb (S (length (s_acc s))) (p_batch_size p) = false ->
      istep s (IEmit (e :: es)) (set_iter (set_acc s (s_acc s ++ [e])) (IEmit es))
  | is_full s e es : Nat.eqb (S (length (s_acc s))) (p_batch_size p) = true ->
      room (p_batch_capacity p) (s_final s) = true ->
      istep s (IEmit (e :: es))
        (set_iter (set_final (set_acc s []) (s_final s ++ [s_acc s ++ [e]])) (IEmit es))
  | is_emitted s : istep s (IEmit []) (set_iter s IEnd)
  | is_end s : istep s IEnd
      (set_iter (set_left s (if end_test s then false else s_left s)) ILoop)
  | is_left_none s : s_acc s = [] -> istep s ILeft (set_iter s IDone)
  | is_left s : s_acc s <> [] -> room (p_batch_capacity p) (s_final s) = true ->
      istep s ILeft (set_iter (set_final (set_acc s []) (s_final s ++ [s_acc s])) IDone).

(** One step of the consumer. *)
Inductive cstep : state -> cpc -> state -> Prop :=
  | cs_on s : s_left s = true \/ s_final s <> [] -> cstep s CCheck (set_cons s CGet (s_out s))
  | cs_off s : s_left s = false -> s_final s = [] -> cstep s CCheck (set_cons s CDone (s_out s))
  | cs_get s b q : s_final s = b :: q ->
      cstep s CGet (set_cons (set_final s q) CCheck (s_out s ++ [b])).

Inductive step : state -> state -> Prop :=
  | st_worker s s' l w r w' : s_workers s = l ++ w :: r -> wstep s w s' w' ->
      step s (set_workers s' (l ++ w' :: r))
  | st_iter s s' : istep s (s_iter s) s' -> step s s'
  | st_cons s s' : cstep s (s_cons s) s' -> step s s'.

(** Any number of steps. *)
Inductive steps : state -> state -> Prop :=
  | steps_refl s : steps s s
  | steps_step s s' s'' : steps s s' -> step s' s'' -> steps s s''.

End Pipeline.

Arguments FMissing {E}.
Arguments FNoData {E}.
Arguments FRaises {E}.
Arguments FData {E} es.
Arguments FBad {E} es.
Arguments Good {E} es.
Arguments Bad {E} es.
Arguments WCheck {E}.
Arguments WGet {E}.
Arguments WPut {E} i.
Arguments WCount {E}.
Arguments WDone {E}.
Arguments IStart {E}.
Arguments ILoop {E}.
Arguments IGet {E}.
Arguments IInner {E} g n.
Arguments IEmit {E} es.
Arguments IEnd {E}.
Arguments ILeft {E}.
Arguments IDone {E}.
Arguments IDead {E} g.
