(** Specification of single iterations of the optimiser, in geometric terms:
    centres, images, mutations of points, and what the two methods do with
    them. *)
From Coq Require Import Sorting.Sorted Sorting.Permutation.
From Verif Require Import Py RList M_Sphere S_Sphere M_Opt S_Opt.

(** Coordinate [j] and direction [k] of a point. *)
Definition coord (p : pt) (j : nat) : R := nth j (pc p) 0.
Definition dirn (p : pt) (k : nat) : vec := xyz (nth k (ps p) spher_zero).

Definition vsum (l : list vec) : vec := fold_right vadd (0, 0, 0) l.

(** The entry is the direction of the vector (any direction if it is zero). *)
Definition points_at (v : vec) (s : spher) : Prop :=
  coherent s /\ (v <> (0, 0, 0) -> exists r, 0 < r /\ v = scale r (xyz s)).

(** A list without its element at position [i]. *)
Definition without {A} (i : nat) (l : list A) : list A :=
  firstn i l ++ skipn (S i) l.

(** [c] is the centre of the points [l]: the mean of all coordinates, the
    direction of the sum of all directions. *)
Definition is_center (l : list pt) (c : pt) : Prop :=
  (forall j, INR (length l) * coord c j = Rsum (map (fun p => coord p j) l)) /\
  (forall k, (k < length (ps c))%nat ->
     points_at (vsum (map (fun p => dirn p k) l)) (nth k (ps c) spher_zero)).

(** [r] is the image of [p] under the reflection at [c]. *)
Definition is_image (p c r : pt) : Prop :=
  (forall j, coord r j = 2 * coord c j - coord p j) /\
  (forall k, (k < length (ps r))%nat ->
     coherent (nth k (ps r) spher_zero) /\
     dirn r k = point_reflection (dirn p k) (dirn c k)).

(** [m] is a mutation of [p] at [b]: every coordinate is beyond [b], as seen
    from [p], by a fraction [wc] of their distance; every direction is the one
    of a combination, with weights [ws] for its three components, of [b] and
    the image of [p]. *)
Definition is_mutation (p b : pt) (wc : list R) (ws : list (R * R * R)) (m : pt) : Prop :=
  (forall j, coord m j = coord b j + nth j wc 0 * (coord b j - coord p j)) /\
  (forall k, (k < length (ps m))%nat ->
     let '(w0, w1, w2) := nth k ws (0, 0, 0) in
     let '(bx, by_, bz) := dirn b k in
     let '(hx, hy, hz) := point_reflection (dirn p k) (dirn b k) in
     points_at ((1 - w0) * bx + w0 * hx, (1 - w1) * by_ + w1 * hy,
                (1 - w2) * bz + w2 * hz) (nth k (ps m) spher_zero)).

Notation pnth i l := (nth i l pt_zero).

Section Steps.
  (** The value of a point. *)
  Variable F : pt -> R.

  Definition lowest (l : list pt) (b : nat) : Prop :=
    (b < length l)%nat /\ forall i, (i < length l)%nat -> F (pnth b l) <= F (pnth i l).
  Definition highest (l : list pt) (w : nat) : Prop :=
    (w < length l)%nat /\ forall i, (i < length l)%nat -> F (pnth i l) <= F (pnth w l).
  Definition second_highest (l : list pt) (w s : nat) : Prop :=
    (s < length l)%nat /\ s <> w /\
    forall i, (i < length l)%nat -> i <> w -> F (pnth i l) <= F (pnth s l).

  (** Only the point at position [w] is replaced. *)
  Definition replaced (l : list pt) (w : nat) (p : pt) (l' : list pt) : Prop :=
    length l' = length l /\ pnth w l' = p /\
    forall i, i <> w -> pnth i l' = pnth i l.

  (** The Nelder-Mead method. *)
  Definition nm_next (l l' : list pt) : Prop :=
    exists b s w c r,
      lowest l b /\ highest l w /\ b <> w /\ second_highest l w s /\
      is_center (without w l) c /\ is_image (pnth w l) c r /\
      (F (pnth b l) <= F r < F (pnth s l) /\ replaced l w r l' \/
       F r < F (pnth b l) /\
         (exists e, is_image c r e /\
            (F e < F r /\ replaced l w e l' \/ F r <= F e /\ replaced l w r l')) \/
       F (pnth b l) <= F r /\ F (pnth s l) <= F r /\
         (exists k,
            (F r < F (pnth w l) /\ is_center [c; r] k \/
             F (pnth w l) <= F r /\ is_center [c; pnth w l] k) /\
            (F k < Rmin (F r) (F (pnth w l)) /\ replaced l w k l' \/
             Rmin (F r) (F (pnth w l)) <= F k /\
             length l' = length l /\ pnth b l' = pnth b l /\
             forall i, (i < length l)%nat -> i <> b ->
               is_center [pnth b l; pnth i l] (pnth i l')))).

  (** New points take the places of old ones with larger values: as many as
      possible, the lowest new ones and the highest old ones. *)
  Record absorbed (l news : list pt) (allowed : nat -> Prop)
    (reps : list (nat * nat)) (l' : list pt) : Prop := {
    ab_length : length l' = length l;
    ab_pairs : forall i j, In (i, j) reps ->
      (i < length l)%nat /\ allowed i /\ (j < length news)%nat /\
      F (pnth j news) < F (pnth i l) /\ pnth i l' = pnth j news;
    ab_old : NoDup (map fst reps);
    ab_new : NoDup (map snd reps);
    ab_kept : forall i, ~ In i (map fst reps) -> pnth i l' = pnth i l;
    ab_highest : forall i i', In i (map fst reps) -> ~ In i' (map fst reps) ->
      (i' < length l)%nat -> allowed i' -> F (pnth i' l) <= F (pnth i l);
    ab_lowest : forall j j', In j (map snd reps) -> ~ In j' (map snd reps) ->
      (j' < length news)%nat -> F (pnth j news) <= F (pnth j' news);
    ab_most : forall reps', NoDup (map fst reps') -> NoDup (map snd reps') ->
      (forall i j, In (i, j) reps' -> (i < length l)%nat /\ allowed i /\
         (j < length news)%nat /\ F (pnth j news) < F (pnth i l)) ->
      (length reps' <= length reps)%nat }.

  (** The method CRS2: the drawn numbers choose among the points without the
      lowest one. *)
  Definition crs_next (d : draws) (l l' : list pt) : Prop :=
    exists b refl reps l1,
      lowest l b /\
      Forall2 (fun row r => exists c,
          is_center (map (fun k => pnth k (without b l)) (removelast row) ++ [pnth b l]) c /\
          is_image (pnth (last row 0%nat) (without b l)) c r) (d_choice d) refl /\
      absorbed l refl (fun _ => True) reps l1 /\
      (length reps = length refl /\ l' = l1 \/
       (length reps < length refl)%nat /\
       exists b1 rest muts reps2,
         lowest l1 b1 /\
         Permutation (map snd reps ++ rest) (seq 0 (length refl)) /\
         StronglySorted (fun i j => F (pnth i refl) <= F (pnth j refl)) rest /\
         length muts = length rest /\
         (forall i, (i < length rest)%nat ->
            is_mutation (pnth (nth i rest 0%nat) refl) (pnth b1 l1)
              (nth i (d_wc d) []) (nth i (d_ws d) []) (pnth i muts)) /\
         absorbed l1 muts (fun i => ~ In i (map fst reps)) reps2 l').
End Steps.

(** What numpy returns for the random numbers of an iteration with [n]
    points: one row of [ndim] numbers below [n - 1] and one row of weights for
    every new point. *)
Definition draws_sound (g : config) (ndim ncart n : nat) (d : draws) : Prop :=
  length (d_choice d) = g_batch g /\
  (forall row, In row (d_choice d) ->
     length row = ndim /\ forall i, In i row -> (i < n - 1)%nat) /\
  length (d_wc d) = g_batch g /\ (forall row, In row (d_wc d) -> length row = ncart) /\
  length (d_ws d) = g_batch g /\
  (forall row, In row (d_ws d) -> length row = length (g_spher g)).

(** The simplices of a run. *)
Definition history (func : list R -> R) (rnd : nat -> draws) (g : config) (ndim : nat)
  (points : list (list R)) (o : outcome) (sims : nat -> list pt) : Prop :=
  let value p := func (create_x ndim (g_spher g) p) in
  let steps := if Z.eqb (o_flag o) (-1) then S (o_nit o) else o_nit o in
  sims 0%nat = map (split_point ndim (g_spher g)) points /\
  o_xs o = map (create_x ndim (g_spher g)) (sims steps) /\
  forall k, (k < steps)%nat ->
    match g_method g with
    | NelderMead => nm_next value (sims k) (sims (S k))
    | CRS2 => crs_next value (rnd k) (sims k) (sims (S k))
    | OtherMethod => False
    end.

(** Spread of the directions of points about their centre. *)
Definition spread (l : list pt) (c : pt) : R :=
  sqrt (Rsum (map (fun p => Rsum (map (fun k => acos (dot (dirn p k) (dirn c k)) ^ 2)
                                   (seq 0 (length (ps c))))) l) /
        INR (length l - 1)).

(** Conditions on the spread of a simplex: whole parts of the spreads of the
    coordinates and the spread of the directions, for positive thresholds. *)
Definition coords_met (o : option (list R)) (l : list pt) : Prop :=
  forall th i, o = Some th -> (i < length th)%nat -> 0 < nth i th 0 ->
    exists z, IZR z <= std (map (fun p => coord p i) l) < IZR z + 1 /\
      IZR z < nth i th 0.
Definition directions_met (o : option (list R)) (l : list pt) (c : pt) : Prop :=
  forall th t, o = Some th -> In t th -> 0 < t -> spread l c < t.
Definition some_threshold (o : option (list R)) : Prop :=
  exists th t, o = Some th /\ In t th /\ 0 < t.

(** All values of [l] are at least as large as some value of [l']. *)
Definition not_below (value : pt -> R) (l l' : list pt) : Prop :=
  forall p, In p l -> exists q, In q l' /\ value q <= value p.
(** Some value of [l] is smaller than all values of [l']. *)
Definition improved (value : pt -> R) (l l' : list pt) : Prop :=
  exists p, In p l /\ forall q, In q l' -> value p < value q.
