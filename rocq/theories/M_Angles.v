(** Model of the helpers for angles (egenerator/utils/angles.py) and of the choice
    of the scanned opening angles
    (egenerator/manager/reconstruction/modules/opening_angle.py).

    Simplifications: numbers are exact reals; a vector with a NaN is [None]. *)
From Coq Require Import Reals.
From Verif Require Import Py RList M_Sphere M_Basis.
Open Scope R_scope.

Definition vec3 := (R * R * R)%type.

(** [np.linalg.norm] / [tf.linalg.norm] over the last axis *)
Definition norm (v : vec3) : R := let '(x, y, z) := v in sqrt (x ^ 2 + y ^ 2 + z ^ 2).
Definition vmul (k : R) (v : vec3) : vec3 := let '(x, y, z) := v in (k * x, k * y, k * z).
Definition vplus (a b : vec3) : vec3 :=
  let '(x, y, z) := a in let '(x', y', z') := b in (x + x', y + y', z + z').
Definition vminus (a b : vec3) : vec3 :=
  let '(x, y, z) := a in let '(x', y', z') := b in (x - x', y - y', z - z').
(** [np.cross] *)
Definition cross (a b : vec3) : vec3 :=
  let '(x, y, z) := a in let '(x', y', z') := b in
  (y * z' - z * y', z * x' - x * z', x * y' - y * x').

(** [get_angle] (l.6-43), one pair of vectors *)
Definition get_angle (v1 v2 : vec3) : R :=
  let tmp1 := vmul (norm v2) v1 in
  let tmp2 := vmul (norm v1) v2 in
  2 * atan2 (norm (vminus tmp1 tmp2)) (norm (vplus tmp1 tmp2)).

(** [get_angle_deviation] (l.46-70) *)
Definition get_angle_deviation (azimuth1 zenith1 azimuth2 zenith2 : R) : R :=
  let cos_dist := cos (azimuth1 - azimuth2) * sin zenith1 * sin zenith2 +
                  cos zenith1 * cos zenith2 in
  acos (Rmax (-1) (Rmin 1 cos_dist)).

(** [np.deg2rad] *)
Definition deg2rad (d : R) : R := d * PI / 180.
Definition rad2deg (d : R) : R := d * 180 / PI.

(** NumPy's broadcasting of two arrays over the first axis *)
Definition broadcast {A B C} (f : A -> B -> C) (a : list A) (b : list B) : result (list C) :=
  if Nat.eqb (length a) (length b) then Ok (map (fun p => f (fst p) (snd p)) (combine a b))
  else match a, b with
       | [x], _ => Ok (map (f x) b)
       | _, [y] => Ok (map (fun x => f x y) a)
       | _, _ => Err ValueError
       end.

(** [v /= norm]: not a number for the zero vector *)
Definition normalised (v : vec3) : option vec3 :=
  if Reqb (norm v) 0 then None else Some (vmul (/ norm v) v).
Definition omap {A B} (f : A -> B) (o : option A) : option B :=
  match o with Some x => Some (f x) | None => None end.
Definition obind {A B} (o : option A) (f : A -> option B) : option B :=
  match o with Some x => f x | None => None end.

(** [get_delta_psi_vector_dir] (l.141-209).  A number as [delta_psi] is an array of
    one element.  [draw n] are the [n] vectors drawn. *)
Definition get_delta_psi_vector_dir (draw : nat -> list vec3) (vec : list vec3)
    (delta_psi : list R) (randomize_for_each is_degree : bool) : result (list (option vec3)) :=
  let delta_psi := if is_degree then map deg2rad delta_psi else delta_psi in
  if existsb (fun d => Rleb (deg2rad 90) d) delta_psi then Err ValueError
  else
    let num_temp_vecs :=
      if randomize_for_each then Nat.max (length vec) (length delta_psi) else length vec in
    let temp_vec := draw num_temp_vecs in
    bind (broadcast (fun v t => normalised (cross v t)) vec temp_vec) (fun orth =>
    bind (broadcast (fun d o => omap (vmul (tan d)) o) delta_psi orth) (fun steps =>
    bind (broadcast (fun v s => omap (vplus v) s) vec steps) (fun new =>
    Ok (map (fun v => obind v normalised) new)))).

(** [get_delta_psi_vector] (l.73-138), with angles as result (l.127-134) *)
Definition to_vec (zenith azimuth : R) : vec3 :=
  (sin zenith * cos azimuth, sin zenith * sin azimuth, cos zenith).
Definition to_angles (v : vec3) : R * R :=
  let '(x, y, z) := v in
  (acos (Rmax (-1) (Rmin 1 z)), fmod (atan2 y x + 2 * PI) (2 * PI)).
Definition get_delta_psi_vector (draw : nat -> list vec3) (angles : list (R * R))
    (delta_psi : list R) (randomize_for_each is_degree : bool)
  : result (list (option (R * R))) :=
  bind (get_delta_psi_vector_dir draw (map (fun a => to_vec (fst a) (snd a)) angles) delta_psi
          randomize_for_each is_degree) (fun rows =>
  Ok (map (omap to_angles) rows)).

(** ** The scan of opening angles (opening_angle.py) *)

(** [bisection_step] (l.248-267): [exceeds center] tells whether the value of the
    distribution function at the angle [center] is above 0.95. *)
Definition bisection_step (exceeds : R -> bool) (low high : R) : R * R * R :=
  let center := low + (high - low) / 2 in
  if exceeds center then (low, center, center) else (center, high, center).

(** The search of the upper bound (l.280-286), four steps; directions are drawn
    anew in each step. *)
Fixpoint bisection (steps : nat) (exceeds : nat -> R -> bool) (low high last : R) : R * R * R :=
  match steps with
  | O => (low, high, last)
  | Datatypes.S steps' =>
      let '(low', high', center) := bisection_step (exceeds steps) low high in
      bisection steps' exceeds low' high' center
  end.
Definition bound_from_bisection (exceeds : nat -> R -> bool) : R :=
  let '(_, _, center) := bisection 4 exceeds 0 90 0 in Rmin (899 / 10) center.

(** The bound from a covariance matrix (l.269-278): variances of zenith and
    azimuth *)
Definition bound_from_covariance (var_zenith var_azimuth zenith : R) : R :=
  let circ_sigma := sqrt ((sqrt var_zenith ^ 2 + sqrt var_azimuth ^ 2 * sin zenith ^ 2) / 2) in
  Rmin (899 / 10) (2 * rad2deg circ_sigma).

(** [np.linspace(0, bound, num)] (l.294) *)
Definition linspace (bound : R) (num : nat) : list R :=
  map (fun i => INR i * (bound / INR (num - 1))) (seq 0 num).

(** The directions of the scan (l.291-299) *)
Definition scan (draw : nat -> list vec3) (angles : list (R * R)) (bound : R) (num : nat)
  : result (list (option (R * R))) :=
  get_delta_psi_vector draw angles (linspace bound num) true true.

(** [loss_cdf] (l.349-352) *)
Definition loss_cdf (sigma : R) (delta_psi cdf_values : list R) : R :=
  Rsum (zipw (fun c d => (c - rayleigh_cdf d sigma) ^ 2) cdf_values delta_psi).
