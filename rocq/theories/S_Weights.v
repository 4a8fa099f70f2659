(** Specification for the weights of models made of models. *)
From Coq Require Import Permutation.
From Verif Require Import Py PyStr M_Checkpoint S_Checkpoint M_Weights.

Section Spec.
Variable V : Type.
Variable data_first : nat -> bool.

(** A source with variables [v] and step counter [s] at a relative path of a
    component, and of a manager. *)
Inductive Leaf : comp V -> path -> bool -> V -> nat -> Prop :=
  | leaf_source ok v s : Leaf (Source ok v s) [] ok v s
  | leaf_multi st subs n c q ok v s : In (n, c) subs -> Leaf c q ok v s -> Leaf (Multi st subs) (n :: q) ok v s.

Definition Holds (m : manager V) (q : path) (ok : bool) (v : V) (s : nat) : Prop :=
  exists n c q', q = n :: q' /\ In (n, c) m /\ Leaf c q' ok v s.

(** A MultiSource at a relative path, with its step counter. *)
Inductive Inner : comp V -> path -> nat -> Prop :=
  | inner_here st subs : Inner (Multi st subs) [] st
  | inner_multi st subs n c q s : In (n, c) subs -> Inner c q s -> Inner (Multi st subs) (n :: q) s.

Definition HoldsMulti (m : manager V) (q : path) (s : nat) : Prop :=
  exists n c q', q = n :: q' /\ In (n, c) m /\ Inner c q' s.

(** Names are the keys of dictionaries. *)
Inductive Named : comp V -> Prop :=
  | named_source ok v s : Named (Source ok v s)
  | named_other : Named Other
  | named_multi st subs : NoDup (map fst subs) -> (forall n c, In (n, c) subs -> Named c) -> Named (Multi st subs).

Definition Keys (m : manager V) : Prop := NoDup (map fst m) /\ forall n c, In (n, c) m -> Named c.

(** No name has an extension. *)
Definition Bare (n : string) : Prop := splitext_root n = n.

Inductive Plain : comp V -> Prop :=
  | plain_source ok v s : Plain (Source ok v s)
  | plain_other : Plain Other
  | plain_multi st subs : (forall n c, In (n, c) subs -> Bare n /\ Plain c) -> Plain (Multi st subs).

Definition PlainNames (m : manager V) : Prop := forall n c, In (n, c) m -> Bare n /\ Plain c.

(** Same classes and names, whatever the variables and counters. *)
Inductive Like : comp V -> comp V -> Prop :=
  | like_source ok v s ok' v' s' : Like (Source ok v s) (Source ok' v' s')
  | like_other : Like Other Other
  | like_multi st st' subs subs' : Forall2 (fun a b => fst a = fst b /\ Like (snd a) (snd b)) subs subs' ->
      Like (Multi st subs) (Multi st' subs').

Definition Alike (m m' : manager V) : Prop := Forall2 (fun a b => fst a = fst b /\ Like (snd a) (snd b)) m m'.

(** One successful save: of the weights only, or of everything. *)
Record snapshot := { s_manager : manager V; s_args : args; s_training : training }.

(** All saves of a manager to the directory [root], starting with an empty disk;
    between the saves its weights and counters change in any way. *)
Inductive Run (root : path) : list snapshot -> manager V -> disk V -> Prop :=
  | run_start m : Run root [] m (fun _ => empty_dir)
  | run_change h m m' d : Run root h m d -> Alike m m' -> Run root h m' d
  | run_weights h m d a t : Run root h m d -> manager_save_weights data_first root a m d = (t, None) ->
      Run root (h ++ [{| s_manager := m; s_args := a; s_training := None |}]) m (play t d)
  | run_save h m d a tr t : Run root h m d -> manager_save data_first root a tr m d = (t, None) ->
      Run root (h ++ [{| s_manager := m; s_args := a; s_training := tr |}]) m (play t d).

(** The same, going on from a given state. *)
Inductive RunFrom (root : path) (m0 : manager V) (d0 : disk V) : list snapshot -> manager V -> disk V -> Prop :=
  | from_start : RunFrom root m0 d0 [] m0 d0
  | from_change h m m' d : RunFrom root m0 d0 h m d -> Alike m m' -> RunFrom root m0 d0 h m' d
  | from_weights h m d a t : RunFrom root m0 d0 h m d -> manager_save_weights data_first root a m d = (t, None) ->
      RunFrom root m0 d0 (h ++ [{| s_manager := m; s_args := a; s_training := None |}]) m (play t d)
  | from_save h m d a tr t : RunFrom root m0 d0 h m d -> manager_save data_first root a tr m d = (t, None) ->
      RunFrom root m0 d0 (h ++ [{| s_manager := m; s_args := a; s_training := tr |}]) m (play t d).

(** What a save contributes to the checkpoints of the source at [q]. *)
Definition Entry (q : path) (s : snapshot) (e : entry (V * nat)) : Prop :=
  e_prot e = a_prot (s_args s) /\ e_keep e = a_keep (s_args s) /\ e_desc e = a_desc (s_args s) /\
  e_steps e = a_steps (s_args s) /\ e_training e = s_training s /\
  exists ok, Holds (s_manager s) q ok (fst (e_w e)) (snd (e_w e)).

(** The checkpoints of the source at [q] are those of the given saves. *)
Definition Checkpoints (root q : path) (h : list snapshot) (d : disk V) : Prop :=
  exists es, Hist data_first es (d (root ++ q)) /\ Forall2 (Entry q) h es.

(** The source at [q] has the weights and counter of a save; every source has. *)
Definition RestoredAt (q : path) (s : snapshot) (m : manager V) : Prop :=
  exists ok ok' v st, Holds m q ok v st /\ Holds (s_manager s) q ok' v st.
Definition Restored (s : snapshot) (m : manager V) : Prop :=
  forall q ok v st, Holds m q ok v st -> exists ok', Holds (s_manager s) q ok' v st.

(** Checkpoint [S k] of the saves is still there. *)
Definition Flags (s : snapshot) : entry unit :=
  {| e_prot := a_prot (s_args s); e_keep := a_keep (s_args s); e_desc := None; e_training := None; e_steps := None; e_w := tt |}.
Definition There (h : list snapshot) (k : nat) : Prop :=
  exists s, nth_error h k = Some s /\ (a_prot (s_args s) = true \/ Survives (map Flags h) (S k)).

(** The sources in the order of the dictionaries. *)
Inductive Order : comp V -> list path -> Prop :=
  | order_source ok v s : Order (Source ok v s) [[]]
  | order_other : Order Other []
  | order_multi st subs l : InOrder subs l -> Order (Multi st subs) l
with InOrder : list (string * comp V) -> list path -> Prop :=
  | in_order_nil : InOrder [] []
  | in_order_cons n c l a b : Order c a -> InOrder l b -> InOrder ((n, c) :: l) (map (cons n) a ++ b).

(** What saving the weights does in the directory of one source. *)
Definition SavesOwn (root : path) (a : args) (m : manager V) (d : disk V) (q : path) (ops : list (op (V * nat))) (e : option exn) : Prop :=
  exists ok v s, Holds m q ok v s /\
    M_Checkpoint.save_weights data_first (d (root ++ q)) ok (a_keep a) (a_prot a) (a_desc a) (a_steps a) (v, s) = (ops, e).

(** The weights of exactly the first sources, [done], have been saved: the
    others have their directories as before. *)
Definition Halfway (root : path) (a : args) (m : manager V) (d d' : disk V) (done todo : list path) : Prop :=
  InOrder m (done ++ todo) /\
  (forall q, In q done -> exists ops, SavesOwn root a m d q ops None /\ d' (root ++ q) = run ops (d (root ++ q))) /\
  (forall q, In q todo -> d' (root ++ q) = d (root ++ q)).

End Spec.

Arguments Leaf {V} _ _ _ _ _.
Arguments Holds {V} m q ok v s.
Arguments Inner {V} _ _ _.
Arguments HoldsMulti {V} m q s.
Arguments Named {V} _.
Arguments Keys {V} m.
Arguments Plain {V} _.
Arguments PlainNames {V} m.
Arguments Like {V} _ _.
Arguments Alike {V} m m'.
Arguments s_manager {V} s.
Arguments s_args {V} s.
Arguments s_training {V} s.
Arguments Run {V} data_first root _ _ _.
Arguments RunFrom {V} data_first root m0 d0 _ _ _.
Arguments Entry {V} q s e.
Arguments Checkpoints {V} data_first root q h d.
Arguments Restored {V} s m.
Arguments RestoredAt {V} q s m.
Arguments Flags {V} s.
Arguments There {V} h k.
Arguments Order {V} _ _.
Arguments InOrder {V} _ _.
Arguments SavesOwn {V} data_first root a m d q ops e.
Arguments Halfway {V} data_first root a m d d' done todo.

(** Variables that are reached from a module: its own, its step counter and
    those of its sub components. *)
Inductive Reaches : module -> variable -> Prop :=
  | reach_own own c subs v : In v own -> Reaches (Module own c subs) v
  | reach_counter own c subs : Reaches (Module own c subs) c
  | reach_sub own c subs n s v : In (n, Some s) subs -> Reaches s v -> Reaches (Module own c subs) v.

(** One object has one name. *)
Definition OneName (m : module) : Prop := forall u v, Reaches m u -> Reaches m v -> v_id u = v_id v -> u = v.

(** Nothing is shared between a module itself and its sub components, or
    between two sub components. *)
Definition Unshared (own : list variable) (c : variable) (subs : list (string * option module)) : Prop :=
  (forall n s u v, In (n, Some s) subs -> (In u own \/ u = c) -> Reaches s v -> v_id u <> v_id v) /\
  (forall i j n s n' s' u v, nth_error subs i = Some (n, Some s) -> nth_error subs j = Some (n', Some s') -> i <> j ->
     Reaches s u -> Reaches s' v -> v_id u <> v_id v).
