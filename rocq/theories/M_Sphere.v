(** Model of the spherical geometry helpers and the replacement search of the
    optimiser (egenerator/utils/spherical_opt.py l.31-210).

    Numbers are exact reals (the code stores single precision). *)
From Verif Require Import Py RList.

(** [SPHER_T] (l.31-41) *)
Record spher := mk_spher {
  zen : R; az : R; sx : R; sy : R; sz : R;
  sinzen : R; coszen : R; sinaz : R; cosaz : R }.

(** [np.zeros(..., dtype=SPHER_T)] *)
Definition spher_zero : spher := mk_spher 0 0 0 0 0 0 0 0 0.

(** [fill_from_spher] (l.46-60) *)
Definition fill_from_spher (s : spher) : spher :=
  let sinzen := sin (zen s) in
  let coszen := cos (zen s) in
  let sinaz := sin (az s) in
  let cosaz := cos (az s) in
  mk_spher (zen s) (az s) (sinzen * cosaz) (sinzen * sinaz) coszen
    sinzen coszen sinaz cosaz.

(** [np.arctan2] of real arguments, in (-pi, pi] *)
Definition atan2 (y x : R) : R :=
  if Rltb 0 x then atan (y / x)
  else if Rltb x 0 then
    if Rleb 0 y then atan (y / x) + PI else atan (y / x) - PI
  else if Rltb 0 y then PI / 2
  else if Rltb y 0 then - (PI / 2)
  else 0.

(** [a % m] for a positive [m]: the remainder of the floored quotient *)
Definition fmod (a m : R) : R := a - IZR (Int_part (a / m)) * m.

(** [fill_from_cart] (l.63-99), for one entry.  Entries of length zero keep
    their [x] and [y] (l.86-96). *)
Definition fill_from_cart (s : spher) : spher :=
  let radius := sqrt (sx s ^ 2 + sy s ^ 2 + sz s ^ 2) in
  if Rltb 0 radius then
    let x := sx s / radius in
    let y := sy s / radius in
    let z := sz s / radius in
    let az := fmod (atan2 y x) (2 * PI) in
    let zen := acos z in
    mk_spher zen az x y z (sin zen) z (sin az) (cos az)
  else mk_spher 0 0 (sx s) (sy s) 1 0 1 0 1.

(** An entry with given Cartesian coordinates. *)
Definition with_xyz (x y z : R) : spher := mk_spher 0 0 x y z 0 0 0 0.

(** The Cartesian coordinates computed by [reflect] (l.111-130) *)
Definition reflect_xyz (old centroid : spher) : R * R * R :=
  let x := sx old in
  let y := sy old in
  let z := sz old in
  let ca := cosaz centroid in
  let sa := sinaz centroid in
  let cz := coszen centroid in
  let sz := sinzen centroid in
  (2 * ca * cz * sz * z
     + x * (ca * (- ca * cz ^ 2 + ca * sz ^ 2) - sa ^ 2)
     + y * (ca * sa + sa * (- ca * cz ^ 2 + ca * sz ^ 2)),
   2 * cz * sa * sz * z
     + x * (ca * sa + ca * (- cz ^ 2 * sa + sa * sz ^ 2))
     + y * (- ca ^ 2 + sa * (- cz ^ 2 * sa + sa * sz ^ 2)),
   2 * ca * cz * sz * x + 2 * cz * sa * sz * y + z * (cz ^ 2 - sz ^ 2)).

(** [reflect] (l.102-132): [new] has been filled with zeros by the callers *)
Definition reflect (old centroid : spher) : spher :=
  let '(x, y, z) := reflect_xyz old centroid in
  fill_from_cart (with_xyz x y z).

(** Spherical part of [centroid] (l.145-153), for one column *)
Definition centroid_spher (l : list spher) : spher :=
  fill_from_cart (with_xyz (Rmean (map sx l)) (Rmean (map sy l))
                           (Rmean (map sz l))).

(** [angular_dist] (l.160-164) *)
Definition angular_dist (p1 p2 : spher) : R :=
  acos (coszen p1 * coszen p2 +
        sinzen p1 * sinzen p2 * cos (az p1 - az p2)).

(** ** Replacement search (l.167-210) *)

(** Slices [l[-n:]] (for a positive [n]) and [l[:n]] *)
Definition last_n {A} (n : nat) (l : list A) : list A :=
  skipn (length l - n) l.

Definition less_thans (old_list new_list : list R) (old_inds new_inds : list nat)
  : list bool :=
  zipw (fun i j => Rltb (nth j new_list 0) (nth i old_list 0))
       old_inds new_inds.

(** One candidate [N_to_replace].  If there are fewer old than new values the
    comparison of arrays of different length raises (l.206); simplification:
    also if one of them has length one, where the code would broadcast. *)
Definition try_replace (old_list new_list : list R)
  (sorted_old sorted_new : list nat) (n : nat)
  : result (option (list (nat * nat))) :=
  let old_inds := last_n n sorted_old in
  let new_inds := firstn n sorted_new in
  if negb (Nat.eqb (length old_inds) (length new_inds)) then Err ValueError
  else if Nat.eqb (length (filter (fun b => b)
                     (less_thans old_list new_list old_inds new_inds))) n
  then Ok (Some (combine old_inds new_inds))
  else Ok None.

Fixpoint search_replace (old_list new_list : list R)
  (sorted_old sorted_new : list nat) (n : nat) : result (list (nat * nat)) :=
  match n with
  | 0%nat => Ok []
  | S n' =>
      bind (try_replace old_list new_list sorted_old sorted_new n) (fun o =>
      match o with
      | Some l => Ok l
      | None => search_replace old_list new_list sorted_old sorted_new n'
      end)
  end.

(** [find_replacements] with both index lists given; the callers without one
    pass [np.argsort] of the values (l.191-194). *)
Definition find_replacements (old_list new_list : list R)
  (sorted_old sorted_new : list nat) : result (list (nat * nat)) :=
  search_replace old_list new_list sorted_old sorted_new (length sorted_new).

(** [l[i] = v] *)
Fixpoint set_nth {A} (i : nat) (v : A) (l : list A) : list A :=
  match l, i with
  | [], _ => []
  | _ :: l', 0%nat => v :: l'
  | x :: l', S i' => x :: set_nth i' v l'
  end.

(** The loops over the replacements (l.474-478, 523-527), for one array *)
Definition replace_all {A} (d : A) (reps : list (nat * nat)) (new : list A)
  (old : list A) : list A :=
  fold_left (fun l p => set_nth (fst p) (nth (snd p) new d) l) reps old.
