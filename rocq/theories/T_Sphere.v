(** Properties C44 and C45: replacement search and spherical geometry. *)
From Coq Require Import Psatz Sorting.Sorted.
From Verif Require Import Py PyFacts RList M_Sphere S_Sphere L_Sphere.

(** ** C44: replacement search *)

(** The search succeeds; the result improves every replaced value, the
    replaced values are the largest old ones and the replacements the
    smallest new ones. *)
Theorem C44_sound : forall old new so sn,
  sorted_by old so -> sorted_by new sn -> (length sn <= length so)%nat ->
  exists l, find_replacements old new so sn = Ok l /\
    improving old new so sn l /\
    (forall i i', In i so -> ~ In i (map fst l) -> In i' (map fst l) ->
       nth i old 0 <= nth i' old 0) /\
    (forall j j', In j sn -> ~ In j (map snd l) -> In j' (map snd l) ->
       nth j' new 0 <= nth j new 0).
Proof.
  intros old new so sn SO SN LE. unfold find_replacements.
  destruct (search_spec old new so sn (length sn) LE (le_n _))
    as (k & K & A & _ & E).
  exists (combine (last_n k so) (firstn k sn)). split; [exact E |].
  assert (LL : length (last_n k so) = length (firstn k sn))
    by (rewrite last_n_length, firstn_length_le; lia).
  split; [apply accepts_improving; auto; lia |].
  rewrite combine_fst, combine_snd by exact LL. split.
  - intros i i' Hi NI Hi'.
    apply In_nth with (d := 0%nat) in Hi'. destruct Hi' as (m' & Hm' & <-).
    rewrite last_n_length in Hm' by lia. rewrite nth_last_n by lia.
    apply In_nth with (d := 0%nat) in Hi. destruct Hi as (m & Hm & <-).
    apply sorted_by_le; [exact SO |]. split; [| lia].
    apply Nat.nlt_ge. intros L. apply NI. unfold last_n.
    replace (nth m so 0%nat) with
      (nth (m - (length so - k)) (skipn (length so - k) so) 0%nat)
      by (rewrite nth_skipn'; f_equal; lia).
    apply nth_In. rewrite skipn_length. lia.
  - intros j j' Hj NJ Hj'.
    apply In_nth with (d := 0%nat) in Hj'. destruct Hj' as (m' & Hm' & <-).
    rewrite firstn_length_le in Hm' by lia. rewrite nth_firstn' by lia.
    apply In_nth with (d := 0%nat) in Hj. destruct Hj as (m & Hm & <-).
    apply sorted_by_le; [exact SN |]. split; [| lia].
    apply Nat.lt_le_incl. apply Nat.lt_le_trans with k; [exact Hm' |].
    apply Nat.nlt_ge. intros L. apply NJ.
    rewrite <- (nth_firstn' k sn m 0%nat L). apply nth_In.
    rewrite firstn_length_le; lia.
Qed.

(** No other way of replacing old by smaller new values replaces more. *)
Theorem C44_maximal : forall old new so sn l,
  sorted_by old so -> sorted_by new sn -> (length sn <= length so)%nat ->
  find_replacements old new so sn = Ok l ->
  forall l', improving old new so sn l' -> (length l' <= length l)%nat.
Proof.
  intros old new so sn l SO SN LE H l' I.
  pose proof (improving_accepts old new so sn l' SO SN LE I) as A'.
  unfold find_replacements in H.
  destruct (search_spec old new so sn (length sn) LE (le_n _))
    as (k & K & A & M & E).
  rewrite E in H. injection H as <-.
  rewrite combine_length, last_n_length, firstn_length_le, Nat.min_id by lia.
  apply Nat.nlt_ge. intros L. apply (M (length l')); [| exact A'].
  split; [exact L |]. destruct I as (_ & ND2 & IMP).
  rewrite <- (map_length snd). apply NoDup_incl_length; [exact ND2 |].
  intros j Hj. apply in_map_iff in Hj. destruct Hj as ((i, j') & <- & Hij).
  simpl. apply (IMP i j' Hij).
Qed.

(** After the replacements no value is larger than before, at no position
    and, counting values up to any bound, at no rank. *)
Theorem C44_no_worse : forall old new so sn l,
  sorted_by old so -> sorted_by new sn -> (length sn <= length so)%nat ->
  find_replacements old new so sn = Ok l ->
  length (replace_all 0 l new old) = length old /\
  (forall i, (i < length old)%nat ->
     nth i (replace_all 0 l new old) 0 <= nth i old 0) /\
  (forall t, (count_le t old <= count_le t (replace_all 0%R l new old))%nat).
Proof.
  intros old new so sn l SO SN LE H.
  destruct (C44_sound old new so sn SO SN LE) as (l' & E & (N1 & N2 & I) & _).
  rewrite E in H. injection H as ->.
  assert (P : forall i, (i < length old)%nat ->
            nth i (replace_all 0 l new old) 0 <= nth i old 0).
  { intros i Hi. destruct (in_dec Nat.eq_dec i (map fst l)) as [HI | HI].
    - apply in_map_iff in HI. destruct HI as ((i', j) & <- & Hij). simpl in *.
      rewrite (nth_replace_in 0 0 l new old i' j N1 Hij Hi).
      destruct (I i' j Hij) as (_ & _ & L). lra.
    - rewrite nth_replace_not by exact HI. lra. }
  split; [apply replace_all_length |]. split; [exact P |].
  intros t. apply count_le_mono; [symmetry; apply replace_all_length | exact P].
Qed.

(** ** C45: geometry *)

Theorem C45_from_angles : forall s,
  coherent (fill_from_spher s) /\ zen (fill_from_spher s) = zen s /\
  az (fill_from_spher s) = az s /\ unit (xyz (fill_from_spher s)).
Proof.
  intros s. assert (C : coherent (fill_from_spher s))
    by (repeat split; reflexivity).
  repeat split; try reflexivity. apply coherent_unit. exact C.
Qed.

(** Whatever the coordinates are, all fields belong to one direction with
    angles in their standard ranges, and it is the direction of the input. *)
Theorem C45_from_coordinates : forall s,
  coherent (fill_from_cart s) /\ standard (fill_from_cart s) /\
  unit (xyz (fill_from_cart s)) /\
  (xyz s <> (0, 0, 0) ->
     exists r, 0 < r /\ xyz s = scale r (xyz (fill_from_cart s))).
Proof.
  intros s. destruct (cart_coherent s) as (C & S).
  split; [exact C |]. split; [exact S |].
  split; [apply coherent_unit; exact C |]. apply cart_direction.
Qed.

(** Going to coordinates and back reproduces the angles. *)
Theorem C45_round_trip : forall s,
  0 <= zen s <= PI -> 0 <= az s < 2 * PI ->
  zen (fill_from_cart (fill_from_spher s)) = zen s /\
  (0 < zen s < PI -> az (fill_from_cart (fill_from_spher s)) = az s).
Proof.
  intros s HZ HA. set (t := fill_from_spher s).
  destruct (C45_from_angles s) as (Ct & Zt & At & Ut). fold t in Ct, Zt, At, Ut.
  destruct (cart_coherent t) as (C & (S1 & S2)).
  pose proof (cart_unit_id t Ut) as E.
  destruct C as (_ & _ & _ & _ & D). destruct Ct as (_ & _ & _ & _ & Dt).
  rewrite E, Dt, Zt, At in D. unfold direction in D. injection D as D1 D2 D3.
  assert (EZ : zen (fill_from_cart t) = zen s).
  { rewrite <- (acos_cos (zen s)) by exact HZ. rewrite D3.
    symmetry. apply acos_cos. exact S1. }
  split; [exact EZ |]. intros HZ'. rewrite EZ in D1, D2.
  assert (SP : 0 < sin (zen s)) by (apply sin_gt_0; lra).
  apply angles_inj; [exact S2 | exact HA | |].
  - apply Rmult_eq_reg_l with (sin (zen s)); [symmetry; exact D1 | lra].
  - apply Rmult_eq_reg_l with (sin (zen s)); [symmetry; exact D2 | lra].
Qed.

(** Reflection at a centroid: the vector is reflected at the axis through the
    centroid. *)
Theorem C45_reflection : forall v c, unit (xyz v) -> coherent c ->
  xyz (reflect v c) = point_reflection (xyz v) (xyz c) /\
  coherent (reflect v c) /\ standard (reflect v c) /\
  dot (xyz c) (xyz (reflect v c)) = dot (xyz c) (xyz v).
Proof.
  intros v c U C. pose proof (coherent_unit c C) as UC.
  pose proof (reflect_xyz_spec v c C) as E. unfold reflect.
  destruct (reflect_xyz v c) as ((x, y), z).
  destruct (cart_coherent (with_xyz x y z)) as (CC & SS).
  assert (EX : xyz (with_xyz x y z) = point_reflection (xyz v) (xyz c))
    by (rewrite <- E; reflexivity).
  rewrite cart_unit_id by (rewrite EX; apply reflection_unit; assumption).
  split; [exact EX |]. split; [exact CC |]. split; [exact SS |].
  rewrite EX. apply reflection_dot. exact UC.
Qed.

Theorem C45_involution : forall v c, coherent v -> coherent c ->
  xyz (reflect (reflect v c) c) = xyz v.
Proof.
  intros v c V C. pose proof (coherent_unit v V) as UV.
  destruct (C45_reflection v c UV C) as (E & C1 & _).
  destruct (C45_reflection (reflect v c) c (coherent_unit _ C1) C) as (E2 & _).
  rewrite E2, E. apply reflection_involutive. apply coherent_unit. exact C.
Qed.

(** Angular distance: the angle between the directions. *)
Theorem C45_distance : forall p q, coherent p -> coherent q ->
  0 <= angular_dist p q <= PI /\
  cos (angular_dist p q) = dot (xyz p) (xyz q) /\
  angular_dist p q = angular_dist q p /\
  (angular_dist p q = 0 <-> xyz p = xyz q).
Proof.
  intros p q P Q. pose proof (coherent_unit p P) as UP.
  pose proof (coherent_unit q Q) as UQ.
  rewrite (angular_dot p q P Q), (angular_dot q p Q P).
  pose proof (dot_unit_bound _ _ UP UQ) as B.
  split; [apply acos_bound |]. split; [apply cos_acos; exact B |]. split.
  - f_equal. destruct (xyz p) as ((x, y), z), (xyz q) as ((x', y'), z').
    unfold dot. ring.
  - split; intros H.
    + apply dot_one; auto. rewrite <- (cos_acos _ B), H. apply cos_0.
    + rewrite H. unfold unit in UQ. rewrite UQ. apply acos_1.
Qed.

(** The reflected point is as far from the centroid as the original. *)
Theorem C45_equidistant : forall v c, coherent v -> coherent c ->
  angular_dist c (reflect v c) = angular_dist c v.
Proof.
  intros v c V C.
  destruct (C45_reflection v c (coherent_unit v V) C) as (_ & C1 & _ & D).
  rewrite !angular_dot by assumption. f_equal. exact D.
Qed.

(** The centroid of two directions, unless they are opposite, is the middle
    between them. *)
Theorem C45_midpoint : forall p q, coherent p -> coherent q ->
  vadd (xyz p) (xyz q) <> (0, 0, 0) ->
  angular_dist p (centroid_spher [p; q]) = angular_dist q (centroid_spher [p; q]) /\
  angular_dist p q = 2 * angular_dist p (centroid_spher [p; q]).
Proof.
  intros p q P Q NZ. pose proof (coherent_unit p P) as UP.
  pose proof (coherent_unit q Q) as UQ.
  set (m := centroid_spher [p; q]).
  destruct (cart_coherent (with_xyz (Rmean (map sx [p; q]))
    (Rmean (map sy [p; q])) (Rmean (map sz [p; q])))) as (M & _).
  fold (centroid_spher [p; q]) in M. fold m in M.
  pose proof (coherent_unit m M) as UM.
  destruct (cart_direction (with_xyz (Rmean (map sx [p; q]))
    (Rmean (map sy [p; q])) (Rmean (map sz [p; q])))) as (r & RP & E).
  { unfold xyz, vadd in *. cbn. unfold Rmean, Rsum, Rlen. cbn.
    intros E. injection E as E1 E2 E3. apply NZ.
    f_equal; [f_equal |]; lra. }
  fold (centroid_spher [p; q]) in E. fold m in E.
  assert (E' : vadd (xyz p) (xyz q) = scale (2 * r) (xyz m)).
  { unfold xyz, scale, vadd in *. cbn in E. unfold Rmean, Rsum, Rlen in E.
    cbn in E. injection E as E1 E2 E3. f_equal; [f_equal |]; lra. }
  clear E. set (k := 2 * r) in *. assert (KP : 0 < k) by (unfold k; lra).
  clearbody k. clear RP r.
  rewrite !angular_dot by assumption.
  unfold unit in *. set (c := dot (xyz p) (xyz q)) in *.
  assert (D1 : dot (xyz p) (xyz m) * k = 1 + c).
  { unfold c. destruct (xyz p) as ((x, y), z), (xyz q) as ((x', y'), z'),
      (xyz m) as ((a, b), d). unfold vadd, scale, dot in *.
    injection E' as E1 E2 E3.
    replace ((x * a + y * b + z * d) * k) with
      (x * (k * a) + y * (k * b) + z * (k * d)) by ring.
    rewrite <- E1, <- E2, <- E3. lra. }
  assert (D2 : dot (xyz q) (xyz m) * k = 1 + c).
  { unfold c. destruct (xyz p) as ((x, y), z), (xyz q) as ((x', y'), z'),
      (xyz m) as ((a, b), d). unfold vadd, scale, dot in *.
    injection E' as E1 E2 E3.
    replace ((x' * a + y' * b + z' * d) * k) with
      (x' * (k * a) + y' * (k * b) + z' * (k * d)) by ring.
    rewrite <- E1, <- E2, <- E3. lra. }
  assert (K2 : k * k = 2 * (1 + c)).
  { unfold c in *. destruct (xyz p) as ((x, y), z), (xyz q) as ((x', y'), z'),
      (xyz m) as ((a, b), d). unfold vadd, scale, dot in *.
    injection E' as E1 E2 E3.
    replace (k * k) with ((k * a) * (k * a) + (k * b) * (k * b) + (k * d) * (k * d))
      by (transitivity (k * k * (a * a + b * b + d * d)); [ring | rewrite UM; ring]).
    rewrite <- E1, <- E2, <- E3. lra. }
  assert (DE : dot (xyz p) (xyz m) = dot (xyz q) (xyz m)).
  { apply Rmult_eq_reg_r with k; lra. }
  rewrite <- DE. split; [reflexivity |].
  set (h := dot (xyz p) (xyz m)) in *.
  assert (HB : -1 <= h <= 1) by (apply dot_unit_bound; assumption).
  assert (HH : 2 * h * h - 1 = c).
  { apply Rmult_eq_reg_r with (k * k); [| nra].
    replace ((2 * h * h - 1) * (k * k)) with (2 * (h * k) * (h * k) - k * k) by ring.
    rewrite D1, K2. ring. }
  assert (HP : 0 <= h).
  { assert (0 < h * k) by nra. nra. }
  assert (AB : 0 <= acos h <= PI / 2).
  { split; [apply acos_bound |]. apply Rnot_lt_le. intros L.
    pose proof (acos_bound h) as (_ & AU).
    assert (N : cos (acos h) < cos (PI / 2))
      by (apply cos_decreasing_1; pose proof PI_RGT_0; lra).
    rewrite cos_acos, cos_PI2 in N by exact HB. lra. }
  rewrite <- (acos_cos (2 * acos h)) by lra. f_equal.
  rewrite cos_2a_cos, cos_acos by exact HB. lra.
Qed.

(** ** Examples *)

Example ex_search :
  sorted_by [5; 1; 4] [1; 2; 0]%nat /\ sorted_by [3; 2] [1; 0]%nat /\
  find_replacements [5; 1; 4] [3; 2] [1; 2; 0]%nat [1; 0]%nat =
    Ok [(2, 1); (0, 0)]%nat.
Proof.
  split; [| split].
  - split; [repeat constructor; simpl; lia |].
    split; [intros i [<- | [<- | [<- | []]]]; simpl; lia |].
    repeat constructor; simpl; lra.
  - split; [repeat constructor; simpl; lia |].
    split; [intros i [<- | [<- | []]]; simpl; lia |].
    repeat constructor; simpl; lra.
  - unfold find_replacements. cbn [length search_replace].
    destruct (try_replace_spec [5; 1; 4] [3; 2] [1; 2; 0]%nat [1; 0]%nat 2)
      as [(_ & ->) | (N & _)]; [simpl; lia | simpl; lia | reflexivity |].
    exfalso. apply N. intros i Hi.
    destruct i as [| [| i]]; [simpl; lra | simpl; lra | lia].
Qed.

Example ex_coherent : coherent (fill_from_spher (mk_spher 1 2 0 0 0 0 0 0 0)).
Proof. apply C45_from_angles. Qed.

Example ex_angles : 0 < 1 < PI /\ 0 <= 2 < 2 * PI.
Proof. pose proof PI2_3_2. unfold PI2 in *. lra. Qed.

Example ex_midpoint :
  let p := fill_from_spher (mk_spher 0 0 0 0 0 0 0 0 0) in
  vadd (xyz p) (xyz p) <> (0, 0, 0).
Proof.
  cbn. unfold vadd, xyz. cbn. rewrite cos_0. intros E. injection E as _ _ E. lra.
Qed.

Print Assumptions C44_sound.
Print Assumptions C44_maximal.
Print Assumptions C44_no_worse.
Print Assumptions C45_from_angles.
Print Assumptions C45_from_coordinates.
Print Assumptions C45_round_trip.
Print Assumptions C45_reflection.
Print Assumptions C45_involution.
Print Assumptions C45_distance.
Print Assumptions C45_equidistant.
Print Assumptions C45_midpoint.
