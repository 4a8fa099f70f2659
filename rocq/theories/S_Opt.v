(** Specification vocabulary for the optimiser. *)
From Coq Require Import Sorting.Sorted.
From Verif Require Import Py RList M_Sphere S_Sphere M_Opt.

(** What [np.argsort] promises: all positions, by increasing value. *)
Definition is_argsort (vals : list R) (idx : list nat) : Prop :=
  sorted_by vals idx /\ length idx = length vals.

(** The least value of [new] is at most the least value of [old]. *)
Definition no_worse (old new : list R) : Prop :=
  forall v, In v old -> exists v', In v' new /\ v' <= v.

(** Call costs of one iteration. *)
Definition max_cost (g : config) (n : nat) : nat :=
  match g_method g with
  | CRS2 => 2 * g_batch g
  | _ => n + 1
  end.

(** No threshold for directions switches one of them off. *)
Definition all_directions_checked (g : config) : Prop :=
  match g_sstd g with
  | Some th => (forall t, In t th -> 0 < t) \/ (forall t, In t th -> t <= 0)
  | None => True
  end.

(** The arguments are accepted: a valid method, number of points and number
    of thresholds. *)
Definition accepted (g : config) (ndim n : nat) : Prop :=
  (g_method g = NelderMead /\ (g_batch g <= 1)%nat /\ n = (ndim + 1)%nat \/
   g_method g = CRS2 /\ (ndim < n)%nat /\ (g_batch g * ndim <= n - 1)%nat) /\
  (forall th, g_cstd g = Some th ->
     length th = (ndim - 2 * length (g_spher g))%nat) /\
  (forall th, g_sstd g = Some th -> length th = length (g_spher g)).

(** What the optimiser gets from numpy: a sorting routine and one row of
    indices for every new point. *)
Definition numpy_sound (argsort : list R -> list nat) (rnd : nat -> draws)
  (g : config) : Prop :=
  (forall l, is_argsort l (argsort l)) /\
  (forall k, length (d_choice (rnd k)) = g_batch g).

(** The same arguments with another number of iterations. *)
Definition with_max_iter (g : config) (m : nat) : config :=
  mk_config (g_method g) (g_spher g) (g_batch g) m (g_max_calls g)
    (g_max_noimp g) (g_fstd g) (g_cstd g) (g_sstd g).

(** Indices of directions are positions of the points. *)
Definition spherical_in_range (ndim : nat) (sph : list (nat * nat)) : Prop :=
  forall p, In p sph -> (fst p < ndim)%nat /\ (snd p < ndim)%nat.

(** The positions which belong to no direction, in increasing order. *)
Definition cartesian_positions (ndim : nat) (sph : list (nat * nat))
  (c : list nat) : Prop :=
  StronglySorted lt c /\
  forall i, In i c <-> (i < ndim)%nat /\
    forall p, In p sph -> i <> fst p /\ i <> snd p.

(** A stable sorting of positions, to show that one exists. *)
Fixpoint insert_idx (vals : list R) (i : nat) (l : list nat) : list nat :=
  match l with
  | [] => [i]
  | j :: l' => if Rleb (nth i vals 0) (nth j vals 0) then i :: j :: l'
               else j :: insert_idx vals i l'
  end.

Definition isort (vals : list R) : list nat :=
  fold_right (insert_idx vals) [] (seq 0 (length vals)).
