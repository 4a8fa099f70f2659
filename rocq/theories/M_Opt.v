(** Model of the optimiser [spherical_opt]
    (egenerator/utils/spherical_opt.py l.213-658).

    Not modelled: printing, the dictionary of meta information ([meta]), and
    single precision of the stored directions.  Positions of a Python list or
    array are read with [nth]; that they are in range follows from the way
    they are computed. *)
From Verif Require Import Py RList M_Sphere.

(** A point of the simplex: its Cartesian coordinates (a row of [s_cart]) and
    its directions (a row of [s_spher]). *)
Record pt := mk_pt { pc : list R; ps : list spher }.

Definition pt_zero : pt := mk_pt [] [].

Inductive method := NelderMead | CRS2 | OtherMethod.

(** The arguments of [spherical_opt] (l.213-228). *)
Record config := mk_config {
  g_method : method;
  g_spher : list (nat * nat);
  g_batch : nat;
  g_max_iter : nat;
  g_max_calls : option nat;
  g_max_noimp : option nat;
  g_fstd : R;
  g_cstd : option (list R);
  g_sstd : option (list R) }.

(** The random numbers of one iteration: the chosen indices (l.448) and the
    weights of the mutation (l.502, 511). *)
Record draws := mk_draws {
  d_choice : list (list nat);
  d_wc : list (list R);
  d_ws : list (list (R * R * R)) }.

(** The local variables of the loop.  [s_i]: the loop variable [i], which is
    bound by the loop of the mutation (l.512). *)
Record state := mk_state {
  s_pts : list pt; s_x : list (list R); s_f : list R;
  s_best : R; s_bi : nat; s_noimp : Z; s_calls : nat; s_i : option nat }.

(** The returned dictionary (l.624-632). *)
Record outcome := mk_outcome {
  o_flag : Z; o_calls : nat; o_nit : nat; o_fun : R; o_x : list R;
  o_xs : list (list R); o_fvals : list R }.

(** ** Coordinates *)

(** Last position of an index in a list of indices. *)
Fixpoint last_pos (k : nat) (i : nat) (l : list nat) : option nat :=
  match l with
  | [] => None
  | a :: l' => match last_pos (S k) i l' with
               | Some j => Some j
               | None => if Nat.eqb a i then Some k else None
               end
  end.

Definition azimuths (sph : list (nat * nat)) : list nat := map fst sph.
Definition zeniths (sph : list (nat * nat)) : list nat := map snd sph.

(** [all_cartesian_indices] (l.344): the symmetric difference of two sets of
    small integers is listed in increasing order; indices out of range raise
    later and are not modelled. *)
Definition cartesians (ndim : nat) (sph : list (nat * nat)) : list nat :=
  filter (fun i => negb (existsb (Nat.eqb i) (concat (map (fun p => [fst p; snd p]) sph))))
         (seq 0 ndim).

(** l.349-354: the parts of an initial point *)
Definition split_point (ndim : nat) (sph : list (nat * nat)) (x : list R) : pt :=
  mk_pt (map (fun i => nth i x 0) (cartesians ndim sph))
        (map (fun p => fill_from_spher
                (mk_spher (nth (snd p) x 0) (nth (fst p) x 0) 0 0 0 0 0 0 0)) sph).

(** [create_x] (l.359-374): later assignments win; every position is assigned
    since the Cartesian indices are all the others. *)
Definition create_x (ndim : nat) (sph : list (nat * nat)) (p : pt) : list R :=
  map (fun i =>
    match last_pos 0 i (zeniths sph) with
    | Some k => zen (nth k (ps p) spher_zero)
    | None =>
        match last_pos 0 i (azimuths sph) with
        | Some k => az (nth k (ps p) spher_zero)
        | None =>
            match last_pos 0 i (cartesians ndim sph) with
            | Some k => nth k (pc p) 0
            | None => 0
            end
        end
    end) (seq 0 ndim).

(** [np.mean]/[sum / n] over points, coordinate by coordinate; [n] rows of
    the same length *)
Definition column {A} (d : A) (k : nat) (rows : list (list A)) : list A :=
  map (fun r => nth k r d) rows.

(** [centroid] (l.135-157) *)
Definition centroid (l : list pt) : pt :=
  let w := match l with [] => 0%nat | p :: _ => length (pc p) end in
  let v := match l with [] => 0%nat | p :: _ => length (ps p) end in
  mk_pt (map (fun k => Rmean (column 0 k (map pc l))) (seq 0 w))
        (map (fun k => centroid_spher (column spher_zero k (map ps l))) (seq 0 v)).

(** [2 * c - p] and [reflect] (for example l.463-465) *)
Definition reflect_pt (p c : pt) : pt :=
  mk_pt (zipw (fun a b => 2 * b - a) (pc p) (pc c))
        (zipw reflect (ps p) (ps c)).

(** l.502-515: mutation of a reflected point [p] at the best point [b] *)
Definition mutate_pt (p b : pt) (wc : list R) (ws : list (R * R * R)) : pt :=
  mk_pt (zipw (fun w ab => (1 + w) * snd ab - w * fst ab) wc
              (combine (pc p) (pc b)))
        (zipw (fun w ab =>
           let help := reflect (fst ab) (snd ab) in
           let best := snd ab in
           let '(w0, w1, w2) := w in
           fill_from_cart (with_xyz
             ((1 - w0) * sx best + w0 * sx help)
             ((1 - w1) * sy best + w1 * sy help)
             ((1 - w2) * sz best + w2 * sz help)))
           ws (combine (ps p) (ps b))).

(** [np.std] *)
Definition std (l : list R) : R :=
  sqrt (Rmean (map (fun v => (v - Rmean l) ^ 2) l)).

(** Assigning a float to an element of an integer array truncates it
    (l.302-303, 403); deviations are not negative. *)
Definition truncate (x : R) : R := IZR (Int_part x).

(** [np.argmin]: the first position of the smallest value *)
Fixpoint argmin_from (k : nat) (best : nat) (v : R) (l : list R) : nat :=
  match l with
  | [] => best
  | a :: l' => if Rltb a v then argmin_from (S k) k a l'
               else argmin_from (S k) best v l'
  end.

Definition argmin (l : list R) : nat :=
  match l with [] => 0%nat | a :: l' => argmin_from 1 0 a l' end.

Section Opt.

  (** The objective function; the vector function of the batch mode applies
      it to every point (l.283-291). *)
  Variable func : list R -> R.
  (** [np.argsort], whose order of equal values is not specified *)
  Variable argsort : list R -> list nat.
  (** The random numbers, by iteration *)
  Variable rnd : nat -> draws.
  Variable g : config.
  Variable ndim : nat.

  Definition make (p : pt) : list R := create_x ndim (g_spher g) p.

  (** A limit which is None or zero is not checked (l.386, 391). *)
  Definition limit (o : option nat) (f : nat -> bool) : bool :=
    match o with
    | Some m => negb (Nat.eqb m 0) && f m
    | None => false
    end.

  Definition some_positive (l : list R) : bool := existsb (fun t => Rltb 0 t) l.

  (** Thresholds none of which is positive are dropped (l.327, 336). *)
  Definition active (o : option (list R)) : option (list R) :=
    match o with
    | Some l => if some_positive l then Some l else None
    | None => None
    end.

  (** l.402-410 *)
  Definition cart_converged (th : list R) (pts : list pt) : bool :=
    forallb (fun k =>
      negb (Rltb 0 (nth k th 0)) ||
      Rltb (truncate (std (column 0 k (map pc pts)))) (nth k th 0))
      (seq 0 (length th)).

  (** The spread of the directions (l.418-420): the distances of all
      directions of all points to their centroids. *)
  Definition spher_std (pts : list pt) : R :=
    let cent := ps (centroid pts) in
    let deltas := concat (map (fun p => zipw angular_dist (ps p) cent) pts) in
    sqrt (Rsum (map (fun d => d ^ 2) deltas) / INR (length pts - 1)).

  (** The loop over the thresholds (l.414-428). *)
  Fixpoint spher_loop (th : list R) (sd : R) (nspher : nat) (i : option nat)
    (converged : bool) : result bool :=
    match th with
    | [] => Ok converged
    | t :: th' =>
        if Rltb 0 t then
          spher_loop th' sd nspher i (converged && Rltb sd t)
        else
          match i with
          | None => Err UnboundLocalError
          | Some k => if Nat.ltb k nspher
                      then spher_loop th' sd nspher i converged
                      else Err IndexError
          end
    end.

  (** The stopping conditions (l.386-431) *)
  Definition check (st : state) : result (option Z) :=
    if limit (g_max_calls g) (fun m => Nat.leb m (s_calls st)) then Ok (Some 0%Z)
    else if limit (g_max_noimp g) (fun m => Z.ltb (Z.of_nat m) (s_noimp st))
    then Ok (Some 2%Z)
    else if Rltb (std (s_f st)) (g_fstd g) then Ok (Some 1%Z)
    else
      match active (g_cstd g), active (g_sstd g) with
      | None, None => Ok None
      | c, s =>
          let converged := match c with
                           | Some th => cart_converged th (s_pts st)
                           | None => true
                           end in
          bind (match s with
                | Some th => spher_loop th (spher_std (s_pts st))
                               (length (g_spher g)) (s_i st) converged
                | None => Ok converged
                end) (fun cv =>
          Ok (if cv then Some 3%Z else None))
      end.

  (** l.433-443 *)
  Definition note_best (st : state) : list nat * state :=
    let sorted_idx := argsort (s_f st) in
    let best_idx := hd 0%nat sorted_idx in
    let new_best := nth best_idx (s_f st) 0 in
    (sorted_idx,
     if Rltb new_best (s_best st)
     then mk_state (s_pts st) (s_x st) (s_f st) new_best best_idx 0%Z
            (s_calls st) (s_i st)
     else mk_state (s_pts st) (s_x st) (s_f st) (s_best st) best_idx
            (s_noimp st + 1)%Z (s_calls st) (s_i st)).

  (** l.474-478 and 523-527, for all arrays *)
  Definition apply_reps (reps : list (nat * nat)) (pts : list pt)
    (new_f : list R) (st : state) (calls : nat) : state :=
    mk_state (replace_all pt_zero reps pts (s_pts st))
      (replace_all [] reps (map make pts) (s_x st))
      (replace_all 0 reps new_f (s_f st))
      (s_best st) (s_bi st) (s_noimp st) calls (s_i st).

  (** [batch_indices >= best_idx] are shifted by one (l.449) *)
  Definition shift_index (best k : nat) : nat :=
    if Nat.leb best k then S k else k.

  (** The reflected points (l.448-465) *)
  Definition reflections (d : draws) (st : state) : list pt :=
    map (fun row =>
      let idx := map (shift_index (s_bi st)) row in
      let cent := centroid (map (fun i => nth i (s_pts st) pt_zero)
                              (removelast idx ++ [s_bi st])) in
      reflect_pt (nth (last idx 0%nat) (s_pts st) pt_zero) cent) (d_choice d).

  (** The method CRS2 (l.445-534) *)
  Definition step_crs (d : draws) (sorted_idx : list nat) (st : state)
    : result state :=
    let refl := reflections d st in
    let new_f := map (fun p => func (make p)) refl in
    let sorted_new := argsort new_f in
    bind (find_replacements (s_f st) new_f sorted_idx sorted_new) (fun reps =>
    let st1 := apply_reps reps refl new_f st (s_calls st + g_batch g) in
    let n := length reps in
    if Nat.eqb n (g_batch g) then Ok st1
    else
      let to_mutate := skipn n sorted_new in
      let to_replace := firstn (length sorted_idx - n) sorted_idx in
      let best := argmin (s_f st1) in
      let mutated := zipw (fun i w =>
          mutate_pt (nth i refl pt_zero) (nth best (s_pts st1) pt_zero)
            (fst w) (snd w)) to_mutate (combine (d_wc d) (d_ws d)) in
      let new_f2 := map (fun p => func (make p)) mutated in
      bind (find_replacements (s_f st1) new_f2 to_replace (argsort new_f2))
        (fun reps2 =>
        let st2 := apply_reps reps2 mutated new_f2 st1
                     (s_calls st1 + length to_mutate) in
        Ok (mk_state (s_pts st2) (s_x st2) (s_f st2) (s_best st2) best
              (s_noimp st2) (s_calls st2) (Some 2%nat)))).

  (** Replacing point [i] (for example l.555-558) *)
  Definition put (i : nat) (p : pt) (st : state) (calls : nat) : state :=
    mk_state (set_nth i p (s_pts st)) (set_nth i (make p) (s_x st))
      (set_nth i (func (make p)) (s_f st))
      (s_best st) (s_bi st) (s_noimp st) calls (s_i st).

  (** l.613-621: every point but the best moves half way to it *)
  Definition shrink_one (best : nat) (st : state) (idx : nat) : state :=
    if Nat.eqb idx best then st
    else put idx (centroid [nth best (s_pts st) pt_zero;
                            nth idx (s_pts st) pt_zero]) st (s_calls st + 1).

  (** The method Nelder-Mead (l.536-621) *)
  Definition step_nm (sorted_idx : list nat) (st : state) : state :=
    let best := s_bi st in
    let worst := last sorted_idx 0%nat in
    let second := nth (length sorted_idx - 2) sorted_idx 0%nat in
    let fv i := nth i (s_f st) 0 in
    let cent := centroid (map (fun i => nth i (s_pts st) pt_zero)
                            (removelast sorted_idx)) in
    let refl := reflect_pt (nth worst (s_pts st) pt_zero) cent in
    let rf := func (make refl) in
    let calls := (s_calls st + 1)%nat in
    if Rltb rf (fv second) && Rleb (fv best) rf then put worst refl st calls
    else if Rltb rf (fv best) then
      let expd := reflect_pt cent refl in
      if Rltb (func (make expd)) rf
      then put worst expd st (calls + 1)
      else put worst refl st (calls + 1)
    else
      let outside := Rltb rf (fv worst) in
      let contr := if outside then centroid [cent; refl]
                   else centroid [cent; nth worst (s_pts st) pt_zero] in
      let cf := func (make contr) in
      if Rltb cf (if outside then rf else fv worst)
      then put worst contr st (calls + 1)
      else
        fold_left (shrink_one best) (seq 0 (length (s_pts st)))
          (mk_state (s_pts st) (s_x st) (s_f st) (s_best st) (s_bi st)
             (s_noimp st) (calls + 1) (s_i st)).

  (** One iteration after the stopping conditions (l.433-621) *)
  Definition step (k : nat) (st : state) : result state :=
    let '(sorted_idx, st1) := note_best st in
    match g_method g with
    | CRS2 => step_crs (rnd k) sorted_idx st1
    | NelderMead => Ok (step_nm sorted_idx st1)
    | OtherMethod => Ok st1
    end.

  (** l.624-632 *)
  Definition finish (flag : Z) (nit : nat) (st : state) : outcome :=
    mk_outcome flag (s_calls st) nit (nth (s_bi st) (s_f st) 0)
      (nth (s_bi st) (s_x st) []) (s_x st) (s_f st).

  (** [for iter_num in range(max_iter + 1)] (l.383) *)
  Fixpoint loop (fuel k : nat) (st : state) : result outcome :=
    match fuel with
    | 0%nat => Ok (finish (-1) (k - 1) st)
    | S fuel' =>
        bind (check st) (fun o =>
        match o with
        | Some flag => Ok (finish flag k st)
        | None => bind (step k st) (fun st' => loop fuel' (S k) st')
        end)
    end.

  (** The least value (l.376) *)
  Fixpoint min_of (v : R) (l : list R) : R :=
    match l with [] => v | a :: l' => min_of (Rmin v a) l' end.

  (** l.346-380 *)
  Definition init_state (points : list (list R)) : state :=
    let f := map func points in
    mk_state (map (split_point ndim (g_spher g)) points) points f
      (min_of (hd 0 f) f) 0 (-1)%Z (length points) None.

  Definition assert_length (o : option (list R)) (n : nat) : bool :=
    match o with Some l => Nat.eqb (length l) n | None => true end.

  (** [spherical_opt] (l.213-632); the points have [ndim] coordinates each *)
  Definition spherical_opt (points : list (list R)) : result outcome :=
    let n := length points in
    match g_method g with
    | OtherMethod => Err ValueError
    | m =>
        if Nat.ltb 1 (g_batch g) &&
           match m with CRS2 => false | _ => true end then Err ValueError
        else if match m with
                | NelderMead => negb (Nat.eqb n (ndim + 1))
                | _ => negb (Nat.ltb ndim n) ||
                       negb (Nat.leb (g_batch g * ndim) (n - 1))
                end then Err AssertionError
        else if negb (assert_length (g_cstd g)
                        (ndim - 2 * length (g_spher g))) ||
                negb (assert_length (g_sstd g) (length (g_spher g)))
        then Err AssertionError
        else loop (g_max_iter g + 1) 0 (init_state points)
    end.

End Opt.
