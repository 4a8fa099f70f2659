(** Properties C58, C95 and C96: angles between directions, new directions at a
    given opening angle and the scan of opening angles. *)
From Coq Require Import Reals Lra Lia Psatz.
From Verif Require Import Py RList M_Sphere S_Sphere L_Sphere M_Basis M_Angles S_Angles L_Angles.
Open Scope R_scope.

(** ** C58: new directions *)

Lemma list_ext {A} (l : list A) : forall l', (forall j, nth_error l j = nth_error l' j) -> l = l'.
Proof.
  induction l as [|x l IH]; intros [|y l'] H.
  - reflexivity.
  - specialize (H 0%nat). discriminate.
  - specialize (H 0%nat). discriminate.
  - pose proof (H 0%nat) as E. injection E as ->. f_equal. apply IH. intro j. apply (H (Datatypes.S j)).
Qed.

Lemma acos_cos_abs d : - (PI / 2) < d < PI / 2 -> acos (cos d) = Rabs d.
Proof.
  intro H. destruct (Rle_dec 0 d).
  - rewrite Rabs_right by lra. apply acos_cos. lra.
  - rewrite Rabs_left, <- cos_neg by lra. apply acos_cos. lra.
Qed.

(** Each row is a unit vector at the requested angle, in the plane of the input
    vector and a vector orthogonal to it and to the drawn one. *)
Theorem C58_direction : forall draw vecs deltas (each is_degree : bool) rows,
  (forall n, length (draw n) = n) ->
  get_delta_psi_vector_dir draw vecs deltas each is_degree = Ok rows ->
  forall j row, nth_error rows j = Some row ->
  exists v d t, pick vecs j = Some v /\ pick deltas j = Some d /\
    pick (draw (if each then Nat.max (length vecs) (length deltas) else length vecs)) j = Some t /\
    (unit v -> ~ parallel v t -> - (PI / 2) < radians is_degree d ->
     exists w u, row = Some w /\ unit w /\ angle_between v w = Rabs (radians is_degree d) /\
       unit u /\ dot u v = 0 /\ dot u t = 0 /\
       w = vadd (scale (cos (radians is_degree d)) v) (scale (sin (radians is_degree d)) u)).
Proof.
  intros draw vecs deltas each is_degree rows Hdraw E j row Hj.
  pose proof (dir_spec draw vecs deltas each is_degree Hdraw) as D. rewrite E in D.
  destruct D as (D1 & _ & _ & D4).
  assert (Hlt : (j < length rows)%nat) by (apply nth_error_Some; congruence).
  destruct (D4 j Hlt) as (v & d & t & V & DD & T & R). exists v, d, t.
  split; [exact V|]. split; [exact DD|]. split; [exact T|]. intros Hv Hp Hd.
  assert (Hd2 : radians is_degree d < PI / 2).
  { apply D1. clear - DD. destruct deltas as [|x [|y l]]; simpl in DD.
    - destruct j; discriminate.
    - injection DD as <-. left. reflexivity.
    - apply nth_error_In in DD. exact DD. }
  set (a := radians is_degree d) in *.
  assert (Hc : 0 < cos a) by (apply cos_gt_0; lra).
  destruct (one_unit a v t Hv Hp Hc) as (u & U1 & U2 & U3 & EW).
  destruct (combination_unit a u v U1 Hv U2) as [W1 W2].
  exists (vplus (vmul (cos a) v) (vmul (sin a) u)), u. split; [congruence|]. split; [exact W1|].
  split; [|split; [exact U1|split; [exact U2|split; [exact U3|reflexivity]]]].
  unfold angle_between. rewrite W2. unfold unit in W1, Hv. rewrite W1, Hv, sqrt_1.
  replace (cos a / (1 * 1)) with (cos a) by field. apply acos_cos_abs. lra.
Qed.

(** When the call succeeds, how many rows there are, and the only error *)
Theorem C58_shape : forall draw vecs deltas (each is_degree : bool),
  (forall n, length (draw n) = n) ->
  let n := length vecs in let m := length deltas in
  ((exists rows, get_delta_psi_vector_dir draw vecs deltas each is_degree = Ok rows /\
      length rows = if Nat.eqb n 1 then m else n) <->
   (forall d, In d deltas -> radians is_degree d < PI / 2) /\ (n = m \/ n = 1%nat \/ m = 1%nat)) /\
  (forall e, get_delta_psi_vector_dir draw vecs deltas each is_degree = Err e -> e = ValueError).
Proof.
  intros draw vecs deltas each is_degree Hdraw n m.
  pose proof (dir_spec draw vecs deltas each is_degree Hdraw) as D.
  destruct (get_delta_psi_vector_dir draw vecs deltas each is_degree) as [rows|e].
  - destruct D as (D1 & D2 & D3 & _). split; [|intros; discriminate]. split.
    + intros _. split; assumption.
    + intros _. exists rows. split; [reflexivity|exact D3].
  - destruct D as (-> & D). split; [|congruence]. split.
    + intros (rows & F & _). discriminate.
    + intros [H1 H2]. exfalso. destruct D as [(d & Hd & Hle)|(N1 & N2 & N3)].
      * specialize (H1 d Hd). lra.
      * unfold n, m in H2. lia.
Qed.

(** A drawn vector parallel to the direction gives no number. *)
Theorem C58_parallel : forall draw vecs deltas (each is_degree : bool) rows j row v t,
  (forall n, length (draw n) = n) ->
  get_delta_psi_vector_dir draw vecs deltas each is_degree = Ok rows ->
  nth_error rows j = Some row ->
  pick vecs j = Some v ->
  pick (draw (if each then Nat.max (length vecs) (length deltas) else length vecs)) j = Some t ->
  parallel v t -> row = None.
Proof.
  intros draw vecs deltas each is_degree rows j row v t Hdraw E Hj V T P.
  pose proof (dir_spec draw vecs deltas each is_degree Hdraw) as D. rewrite E in D.
  destruct D as (_ & _ & _ & D4).
  assert (Hlt : (j < length rows)%nat) by (apply nth_error_Some; congruence).
  destruct (D4 j Hlt) as (v' & d & t' & V' & _ & T' & R).
  assert (v' = v) by congruence. assert (t' = t) by congruence. subst v' t'.
  rewrite one_none in R by exact P. congruence.
Qed.

(** Without randomisation for each angle all directions for one vector are on one
    great circle. *)
Theorem C58_geodesic : forall draw v deltas (is_degree : bool) rows,
  (forall n, length (draw n) = n) -> unit v ->
  (forall t, In t (draw 1%nat) -> ~ parallel v t) ->
  (forall d, In d deltas -> - (PI / 2) < radians is_degree d) ->
  get_delta_psi_vector_dir draw [v] deltas false is_degree = Ok rows ->
  exists u, unit u /\ dot u v = 0 /\
    rows = map (fun d => Some (vadd (scale (cos (radians is_degree d)) v)
                                    (scale (sin (radians is_degree d)) u))) deltas.
Proof.
  intros draw v deltas is_degree rows Hdraw Hv Hp Hlow E.
  pose proof (dir_spec draw [v] deltas false is_degree Hdraw) as D. rewrite E in D.
  destruct D as (D1 & _ & D3 & D4). cbn [length Nat.eqb] in D3, D4.
  pose proof (Hdraw 1%nat) as L1. destruct (draw 1%nat) as [|t [|]] eqn:Et; try discriminate.
  assert (P : ~ parallel v t) by (apply Hp; left; reflexivity).
  assert (HC : cross v t <> (0, 0, 0)) by (intro F; apply P, cross_zero, F).
  destruct (normalised_some _ HC) as [N1 N2].
  set (u := vmul (/ norm (cross v t)) (cross v t)) in *.
  assert (Uv : dot u v = 0) by (unfold u; rewrite dot_vmul, dot_comm, cross_orth_l; ring).
  exists u. split; [exact N2|]. split; [exact Uv|].
  apply list_ext. intro j. rewrite nth_error_map.
  destruct (nth_error deltas j) as [d|] eqn:Ed.
  2: { apply nth_error_None in Ed. apply nth_error_None. lia. }
  assert (Hj : (j < length rows)%nat) by (rewrite D3; apply nth_error_Some; congruence).
  destruct (D4 j Hj) as (v' & d' & t' & V' & DD & T' & R). rewrite R. cbn [option_map].
  cbn in V', T'. injection V' as <-. injection T' as <-.
  assert (d' = d).
  { destruct deltas as [|x [|y l]]; [destruct j; discriminate| |cbn [pick] in DD; congruence].
    cbn in DD. destruct j as [|[|j]]; try discriminate. cbn in Ed. congruence. }
  subst d'. f_equal. apply nth_error_In in Ed. specialize (D1 d Ed). specialize (Hlow d Ed).
  set (a := radians is_degree d) in *.
  assert (Hc : 0 < cos a) by (apply cos_gt_0; lra).
  assert (Q : one a v t = Some (vplus (vmul (cos a) v) (vmul (sin a) u))).
  { destruct (combination_unit a u v N2 Hv Uv) as [W1 _].
    unfold one. rewrite N1. cbn [omap obind].
    assert (K : vplus v (vmul (tan a) u) = vmul (/ cos a) (vplus (vmul (cos a) v) (vmul (sin a) u))).
    { clearbody u. destruct v as [[x y] z], u as [[p q] s].
      unfold vmul, vplus, tan. f_equal; [f_equal|]; field; lra. }
    set (w := vplus (vmul (cos a) v) (vmul (sin a) u)) in *. rewrite K.
    assert (I : 0 < / cos a) by (apply Rinv_0_lt_compat, Hc).
    assert (Nw : norm (vmul (/ cos a) w) = / cos a).
    { apply norm_unique; [lra|]. unfold unit in W1.
      rewrite dot_vmul, dot_comm, dot_vmul, W1. ring. }
    unfold normalised. rewrite Nw. destruct (Reqb (/ cos a) 0) eqn:F.
    - apply Reqb_true in F. lra.
    - f_equal. clearbody w. destruct w as [[x y] z]. unfold vmul. f_equal; [f_equal|]; field; lra. }
  rewrite Q. reflexivity.
Qed.

(** As zenith and azimuth: in their ranges and at the requested angle *)
Theorem C58_angles : forall draw angles deltas (each is_degree : bool) rows,
  (forall n, length (draw n) = n) ->
  get_delta_psi_vector draw angles deltas each is_degree = Ok rows ->
  forall j row, nth_error rows j = Some row ->
  exists zenith azimuth d t, pick angles j = Some (zenith, azimuth) /\ pick deltas j = Some d /\
    pick (draw (if each then Nat.max (length angles) (length deltas) else length angles)) j = Some t /\
    (~ parallel (direction zenith azimuth) t -> - (PI / 2) < radians is_degree d ->
     exists zen azi, row = Some (zen, azi) /\ 0 <= zen <= PI /\ 0 <= azi < 2 * PI /\
       angle_between (direction zenith azimuth) (direction zen azi) = Rabs (radians is_degree d)).
Proof.
  intros draw angles deltas each is_degree rows Hdraw E j row Hj.
  unfold get_delta_psi_vector in E.
  destruct (get_delta_psi_vector_dir draw (map (fun a => to_vec (fst a) (snd a)) angles) deltas
              each is_degree) as [l|e] eqn:G; [|discriminate].
  assert (R : rows = map (omap to_angles) l) by (cbn [bind] in E; congruence). clear E.
  rewrite R, nth_error_map in Hj. destruct (nth_error l j) as [r|] eqn:El; [|discriminate].
  destruct (C58_direction draw _ deltas each is_degree l Hdraw G j r El)
    as (v & d & t & V & DD & T & Spec).
  rewrite pick_map in V. destruct (pick angles j) as [[zenith azimuth]|]; [|discriminate].
  injection V as V. rewrite map_length in T. exists zenith, azimuth, d, t.
  split; [reflexivity|]. split; [exact DD|]. split; [exact T|]. intros Hp Hd.
  assert (V' : v = direction zenith azimuth) by (rewrite <- V; reflexivity).
  destruct Spec as (w & u & -> & W1 & W2 & _).
  { rewrite V'. apply direction_unit. } { rewrite V'. exact Hp. } { exact Hd. }
  pose proof (to_angles_spec w W1) as S. destruct (to_angles w) as [zen azi] eqn:Ez.
  destruct S as (S1 & S2 & S3). exists zen, azi. split; [|split; [exact S1|split; [exact S2|]]].
  - cbn in Hj. rewrite Ez in Hj. congruence.
  - rewrite S3, <- V'. exact W2.
Qed.

(** For a vector of another length the angle is wrong: its tangent is divided by
    the length. *)
Theorem C58_length : forall draw v d t w,
  draw 1%nat = [t] -> ~ parallel v t -> - (PI / 2) < d < PI / 2 ->
  get_delta_psi_vector_dir draw [v] [d] true false = Ok [Some w] ->
  unit w /\ angle_between v w = Rabs (atan (tan d / sqrt (dot v v))).
Proof.
  intros draw v d t w Hd Hp Hr E. pose proof PI_RGT_0 as PP.
  assert (Hc : 0 < cos d) by (apply cos_gt_0; lra).
  unfold get_delta_psi_vector_dir in E. cbn [existsb length Nat.max] in E.
  rewrite Hd in E. destruct (Rleb (deg2rad 90) d || false) eqn:Q; [discriminate|].
  cbn [broadcast length Nat.eqb combine map bind fst snd] in E.
  assert (E1 : one d v t = Some w) by (unfold one; congruence).
  destruct (one_general d v t Hp ltac:(lra)) as (u & r & Hr0 & Rp & U1 & U2 & U3 & O).
  assert (Ew : w = vmul (/ sqrt (r ^ 2 + tan d ^ 2)) (vplus v (vmul (tan d) u))) by congruence.
  rewrite Ew. clear Ew E1.
  rewrite <- norm_dot, <- Hr0.
  set (s := sqrt (r ^ 2 + tan d ^ 2)) in *.
  assert (S2 : s ^ 2 = r ^ 2 + tan d ^ 2) by (apply sq_sqrt; nra).
  assert (Sp : 0 < s) by (apply sqrt_lt_R0; nra).
  set (x := vplus v (vmul (tan d) u)) in *.
  assert (Xv : dot v x = r ^ 2).
  { unfold x. rewrite dot_comm, dot_vplus, dot_vmul, U2, <- norm_sq, <- Hr0. ring. }
  assert (Xx : dot x x = s ^ 2).
  { unfold x at 1. rewrite dot_vplus, dot_vmul, Xv. unfold x.
    rewrite (dot_comm u), dot_vplus, dot_vmul, (dot_comm v u), U2. unfold unit in U1. rewrite U1, S2. ring. }
  assert (W : unit (vmul (/ s) x)).
  { unfold unit. rewrite dot_vmul, dot_comm, dot_vmul, Xx. field. lra. }
  split; [exact W|]. unfold angle_between. unfold unit in W. rewrite W, sqrt_1.
  rewrite dot_comm, dot_vmul, (dot_comm x v), Xv, <- norm_dot, <- Hr0.
  replace (/ s * r ^ 2 / (r * 1)) with (r / s) by (field; split; lra).
  set (a := atan (tan d / r)). pose proof (atan_bound (tan d / r)) as B. fold a in B.
  rewrite <- (acos_cos_abs a) by lra. f_equal. unfold a. rewrite cos_atan.
  assert (K : sqrt (1 + (tan d / r)²) = s / r).
  { apply sqrt_lem_1; [apply Rplus_le_le_0_compat; [lra|apply Rle_0_sqr]| |].
    - apply Rmult_le_pos; [lra|]. left. apply Rinv_0_lt_compat, Rp.
    - unfold Rsqr. replace (s / r * (s / r)) with (s ^ 2 / r ^ 2) by (field; lra).
      rewrite S2. field. lra. }
  rewrite K. field. split; lra.
Qed.

Theorem C58_length_refuted : exists draw v d w,
  - (PI / 2) < d < PI / 2 /\
  get_delta_psi_vector_dir draw [v] [d] true false = Ok [Some w] /\
  angle_between v w <> Rabs d.
Proof.
  pose proof PI_RGT_0 as PP.
  assert (P4 : - (PI / 2) < PI / 4 < PI / 2) by lra.
  exists (fun n => repeat (0, 1, 0) n), (2, 0, 0), (PI / 4).
  assert (NP : ~ parallel (2, 0, 0) (0, 1, 0)) by (unfold parallel; lra).
  assert (Hc : 0 < cos (PI / 4)) by (apply cos_gt_0; lra).
  destruct (one_general (PI / 4) (2, 0, 0) (0, 1, 0) NP ltac:(lra)) as (u & r & _ & _ & _ & _ & _ & O).
  match type of O with _ = Some ?x => set (w := x) in * end.
  exists w. split; [exact P4|].
  assert (G : get_delta_psi_vector_dir (fun n => repeat (0, 1, 0) n) [(2, 0, 0)] [PI / 4] true false
              = Ok [Some w]).
  { unfold get_delta_psi_vector_dir. cbn [existsb].
    destruct (Rleb (deg2rad 90) (PI / 4)) eqn:Q.
    { apply Rleb_true in Q. unfold deg2rad in Q. lra. }
    cbn [orb length Nat.max repeat broadcast Nat.eqb combine map bind fst snd].
    unfold one in O. rewrite O. reflexivity. }
  split; [exact G|].
  destruct (C58_length (fun n => repeat (0, 1, 0) n) (2, 0, 0) (PI / 4) (0, 1, 0) w eq_refl NP P4 G)
    as [_ ->].
  rewrite tan_PI4.
  assert (S2 : sqrt (dot (2, 0, 0) (2, 0, 0)) = 2).
  { unfold dot. apply sqrt_lem_1; lra. }
  rewrite S2. assert (B1 : 0 < atan (1 / 2)).
  { rewrite <- atan_0. apply atan_increasing. lra. }
  assert (B2 : atan (1 / 2) < PI / 4).
  { rewrite <- atan_1. apply atan_increasing. lra. }
  rewrite !Rabs_right by lra. lra.
Qed.

(** Only large positive angles are refused: below minus 90 degrees the call
    succeeds with a wrong angle. *)
Theorem C58_negative : forall draw v d t,
  draw 1%nat = [t] -> unit v -> ~ parallel v t -> - PI < d < - (PI / 2) ->
  exists w, get_delta_psi_vector_dir draw [v] [d] true false = Ok [Some w] /\ unit w /\
    angle_between v w = PI - Rabs d.
Proof.
  intros draw v d t Hd Hv Hp Hr. pose proof PI_RGT_0 as PP.
  set (e := d + PI).
  assert (Te : tan d = tan e).
  { unfold e, tan. rewrite neg_sin, neg_cos. field.
    intro F. assert (0 < cos (d + PI)) by (apply cos_gt_0; lra). rewrite neg_cos in H. lra. }
  assert (Hc : 0 < cos e) by (apply cos_gt_0; unfold e; lra).
  destruct (one_unit e v t Hv Hp Hc) as (u & U1 & U2 & _ & O).
  destruct (combination_unit e u v U1 Hv U2) as [W1 W2].
  exists (vplus (vmul (cos e) v) (vmul (sin e) u)). split; [|split; [exact W1|]].
  - unfold get_delta_psi_vector_dir. cbn [existsb length Nat.max]. rewrite Hd.
    destruct (Rleb (deg2rad 90) d) eqn:Q.
    { apply Rleb_true in Q. unfold deg2rad in Q. lra. }
    cbn [orb broadcast length Nat.eqb combine map bind fst snd]. rewrite Te.
    unfold one in O. rewrite O. reflexivity.
  - unfold angle_between. unfold unit in W1, Hv. rewrite W2, W1, Hv, sqrt_1.
    replace (cos e / (1 * 1)) with (cos e) by field.
    rewrite acos_cos by (unfold e; lra). rewrite Rabs_left by lra. unfold e. ring.
Qed.

(** ** C95: the angle between two vectors *)

Lemma ratio_bound a b : a <> (0, 0, 0) -> b <> (0, 0, 0) ->
  -1 <= dot a b / (norm a * norm b) <= 1.
Proof.
  intros Ha Hb.
  assert (Na : 0 < norm a).
  { destruct (norm_nonneg a) as [P|E]; [exact P|]. exfalso. apply Ha, norm_zero. symmetry. exact E. }
  assert (Nb : 0 < norm b).
  { destruct (norm_nonneg b) as [P|E]; [exact P|]. exfalso. apply Hb, norm_zero. symmetry. exact E. }
  assert (Nab : 0 < norm a * norm b) by (apply Rmult_lt_0_compat; assumption).
  pose proof (cauchy a b) as C. rewrite <- !norm_sq in C.
  set (q := dot a b / (norm a * norm b)).
  assert (Q : dot a b = q * (norm a * norm b)) by (unfold q; field; lra).
  rewrite Q in C. set (n := norm a * norm b) in *.
  assert (C2 : q ^ 2 * n ^ 2 <= n ^ 2).
  { replace (q ^ 2 * n ^ 2) with ((q * n) ^ 2) by ring.
    replace (n ^ 2) with (norm a ^ 2 * norm b ^ 2) by (unfold n; ring). exact C. }
  assert (Q2 : q ^ 2 <= 1).
  { apply Rmult_le_reg_r with (n ^ 2); [nra|lra]. }
  nra.
Qed.

(** The stable formula is the angle of the scalar product, for all vectors which
    are not zero. *)
Theorem C95_angle : forall a b, a <> (0, 0, 0) -> b <> (0, 0, 0) ->
  get_angle a b = angle_between a b.
Proof.
  intros a b Ha Hb. pose proof (ratio_bound a b Ha Hb) as RB.
  assert (Na : 0 < norm a).
  { destruct (norm_nonneg a) as [P|E]; [exact P|]. exfalso. apply Ha, norm_zero. symmetry. exact E. }
  assert (Nb : 0 < norm b).
  { destruct (norm_nonneg b) as [P|E]; [exact P|]. exfalso. apply Hb, norm_zero. symmetry. exact E. }
  unfold angle_between. rewrite <- !norm_dot. set (c := dot a b / (norm a * norm b)) in *.
  set (r := norm a * norm b). assert (Rp : 0 < r) by (apply Rmult_lt_0_compat; assumption).
  assert (Dc : dot a b = c * r) by (unfold c, r; field; lra).
  set (h := acos c / 2). pose proof (acos_bound c) as AB. pose proof PI_RGT_0 as PP.
  assert (Hh : 0 <= h <= PI / 2) by (unfold h; lra).
  assert (Ch : cos (2 * h) = c).
  { replace (2 * h) with (acos c) by (unfold h; field). apply cos_acos. lra. }
  assert (Sh : 0 <= sin h) by (apply sin_ge_0; lra).
  assert (Chn : 0 <= cos h) by (apply cos_ge_0; lra).
  pose proof (sin2_cos2 h) as P1. unfold Rsqr in P1. rewrite cos_2a in Ch.
  assert (N1 : norm (vminus (vmul (norm b) a) (vmul (norm a) b)) = 2 * r * sin h).
  { apply norm_unique; [nra|].
    rewrite dot_vminus, (dot_comm (vmul (norm b) a)), (dot_comm (vmul (norm a) b)), !dot_vminus.
    rewrite !dot_vmul, (dot_comm a (vmul _ _)), (dot_comm b (vmul _ _)), (dot_comm a (vmul _ _)),
      (dot_comm b (vmul _ _)), !dot_vmul, (dot_comm b a).
    rewrite <- !norm_sq, Dc. unfold r. rewrite <- Ch.
    replace ((2 * (norm a * norm b) * sin h) ^ 2) with ((norm a * norm b) ^ 2 * (4 * (sin h * sin h))) by ring.
    replace (cos h * cos h) with (1 - sin h * sin h) by lra. ring. }
  assert (N2 : norm (vplus (vmul (norm b) a) (vmul (norm a) b)) = 2 * r * cos h).
  { apply norm_unique; [nra|].
    rewrite dot_vplus, (dot_comm (vmul (norm b) a)), (dot_comm (vmul (norm a) b)), !dot_vplus.
    rewrite !dot_vmul, (dot_comm a (vmul _ _)), (dot_comm b (vmul _ _)), (dot_comm a (vmul _ _)),
      (dot_comm b (vmul _ _)), !dot_vmul, (dot_comm b a).
    rewrite <- !norm_sq, Dc. unfold r. rewrite <- Ch.
    replace ((2 * (norm a * norm b) * cos h) ^ 2) with ((norm a * norm b) ^ 2 * (4 * (cos h * cos h))) by ring.
    replace (sin h * sin h) with (1 - cos h * cos h) by lra. ring. }
  unfold get_angle. rewrite N1, N2, atan2_polar by (try assumption; lra). unfold h. field.
Qed.

(** It does not depend on the order or the lengths. *)
Theorem C95_invariant : forall a b k l, a <> (0, 0, 0) -> b <> (0, 0, 0) -> 0 < k -> 0 < l ->
  get_angle (scale k a) (scale l b) = get_angle b a /\ 0 <= get_angle a b <= PI.
Proof.
  intros a b k l Ha Hb Hk Hl.
  assert (Z : forall s v, 0 < s -> v <> (0, 0, 0) -> scale s v <> (0, 0, 0)).
  { intros s [[x y] z] Hs Hv E. apply Hv. unfold scale in E. injection E as E1 E2 E3.
    f_equal; [f_equal|]; nra. }
  rewrite !C95_angle by auto. split; [|apply acos_bound]. unfold angle_between. f_equal.
  assert (Q : forall s v, 0 < s -> sqrt (dot (scale s v) (scale s v)) = s * sqrt (dot v v)).
  { intros s v Hs. change (scale s v) with (vmul s v). rewrite <- !norm_dot.
    apply norm_unique; [pose proof (norm_nonneg v); nra|].
    rewrite dot_vmul, dot_comm, dot_vmul, <- norm_sq. ring. }
  rewrite !Q by assumption. change (scale k a) with (vmul k a). change (scale l b) with (vmul l b).
  rewrite dot_vmul, dot_comm, dot_vmul, <- !norm_dot.
  assert (Na : norm a <> 0) by (intro E; apply Ha, norm_zero, E).
  assert (Nb : norm b <> 0) by (intro E; apply Hb, norm_zero, E).
  field. repeat split; try assumption; lra.
Qed.

(** The formula with angles gives the same. *)
Theorem C95_deviation : forall azi1 zen1 azi2 zen2,
  get_angle_deviation azi1 zen1 azi2 zen2 =
  get_angle (direction zen1 azi1) (direction zen2 azi2).
Proof.
  intros azi1 zen1 azi2 zen2.
  pose proof (direction_unit zen1 azi1) as U1. pose proof (direction_unit zen2 azi2) as U2.
  assert (Z : forall v, unit v -> v <> (0, 0, 0)).
  { intros v U E. subst v. unfold unit, dot in U. lra. }
  rewrite C95_angle by auto. unfold angle_between.
  pose proof (dot_unit_bound _ _ U1 U2) as B. unfold unit in U1, U2. rewrite U1, U2, sqrt_1.
  unfold get_angle_deviation.
  assert (E : cos (azi1 - azi2) * sin zen1 * sin zen2 + cos zen1 * cos zen2 =
              dot (direction zen1 azi1) (direction zen2 azi2)).
  { unfold direction, dot, Rminus. rewrite cos_plus, cos_neg, sin_neg. ring. }
  rewrite E, Rmin_right, Rmax_right by lra. f_equal. field.
Qed.

(** With a zero vector the angle is zero, whatever the other one is. *)
Theorem C95_zero : forall v, get_angle (0, 0, 0) v = 0 /\ get_angle v (0, 0, 0) = 0.
Proof.
  intro v. assert (N0 : norm (0, 0, 0) = 0) by (apply norm_zero; reflexivity).
  assert (A : atan2 0 0 = 0).
  { unfold atan2. rewrite (proj2 (Rltb_false 0 0)) by lra. reflexivity. }
  destruct v as [[x y] z]. unfold get_angle. rewrite N0. unfold vmul, vminus, vplus.
  replace (norm (x, y, z) * 0) with 0 by ring.
  rewrite !Rmult_0_l, !Rminus_diag_eq, !Rplus_0_r by reflexivity. rewrite N0, A. split; ring.
Qed.

(** ** C96: the scan *)

(** The bound found by bisection is within one sixteenth of 90 degrees of the
    angle where the distribution function crosses the target. *)
Theorem C96_bisection : forall exceeds t, 0 <= t <= 90 ->
  (forall i c, exceeds i c = true <-> t < c) ->
  Rabs (bound_from_bisection exceeds - t) <= 90 / 16.
Proof.
  intros exceeds t Ht He. unfold bound_from_bisection.
  assert (F : forall i c, exceeds i c = false -> c <= t).
  { intros i c E. apply Rnot_lt_le. intro L. apply (He i) in L. congruence. }
  assert (T : forall i c, exceeds i c = true -> t < c) by (intros i c E; apply (He i), E).
  cbn [bisection]. unfold bisection_step.
  repeat match goal with
    | |- context [if exceeds ?i ?c then _ else _] =>
        let E := fresh "E" in destruct (exceeds i c) eqn:E; [apply T in E|apply F in E]
    end; cbv beta iota zeta;
    match goal with |- context [Rmin _ ?x] => rewrite (Rmin_right _ x) by lra end;
    apply Rabs_le; lra.
Qed.

(** Whatever the values of the distribution function, the bound is at least
    5.6 and at most 84.4 degrees. *)
Theorem C96_range : forall exceeds, 90 / 16 <= bound_from_bisection exceeds <= 90 - 90 / 16.
Proof.
  intro exceeds. unfold bound_from_bisection. cbn [bisection]. unfold bisection_step.
  repeat match goal with
    | |- context [if exceeds ?i ?c then _ else _] => destruct (exceeds i c)
    end; cbv beta iota zeta;
    match goal with |- context [Rmin _ ?x] => rewrite (Rmin_right _ x) by lra end; lra.
Qed.
Theorem C96_covariance : forall vz va z, 0 <= vz -> 0 <= va ->
  0 <= bound_from_covariance vz va z <= 899 / 10.
Proof.
  intros vz va z H1 H2. unfold bound_from_covariance. split; [|apply Rmin_l].
  apply Rmin_glb; [lra|]. unfold rad2deg. pose proof PI_RGT_0.
  apply Rmult_le_pos; [lra|]. apply Rmult_le_pos; [|left; apply Rinv_0_lt_compat; lra].
  apply Rmult_le_pos; [apply sqrt_pos|lra].
Qed.


(** It is twice the circularised uncertainty, in degrees: half the sum of the
    variances of zenith and of azimuth, the latter scaled with the length of the
    circle of latitude.  So at the poles azimuth does not matter. *)
Theorem C96_covariance_value : forall vz va z, 0 <= vz -> 0 <= va ->
  let bound := bound_from_covariance vz va z in
  let sigma := bound / 2 * PI / 180 in
  (bound < 899 / 10 -> 2 * sigma ^ 2 = vz + va * sin z ^ 2) /\
  (bound = 899 / 10 -> 2 * (899 / 10 / 2 * PI / 180) ^ 2 <= vz + va * sin z ^ 2).
Proof.
  intros vz va z H1 H2. cbv zeta. unfold bound_from_covariance, rad2deg. rewrite !pow2_sqrt by assumption.
  set (q := (vz + va * sin z ^ 2) / 2). pose proof PI_RGT_0 as P.
  assert (Q : 0 <= q).
  { pose proof (pow2_ge_0 (sin z)). pose proof (Rmult_le_pos _ _ H2 H). unfold q. lra. }
  assert (E : vz + va * sin z ^ 2 = 2 * q) by (unfold q; lra). rewrite E.
  set (b := 2 * (sqrt q * 180 / PI)). assert (B : sqrt q = b / 2 * PI / 180) by (unfold b; field; lra).
  assert (SQ : sqrt q ^ 2 = q) by (apply pow2_sqrt; exact Q). split.
  - intros L. rewrite Rmin_right; [rewrite <- B, SQ; reflexivity|].
    apply Rnot_lt_le. intros G. rewrite Rmin_left in L by lra. lra.
  - intros L. assert (899 / 10 <= b).
    { apply Rnot_lt_le. intros G. rewrite Rmin_right in L by lra. lra. }
    apply Rmult_le_compat_l; [lra|]. rewrite <- SQ. apply pow_incr. rewrite B. split.
    + apply Rmult_le_pos; [|lra]. apply Rmult_le_pos; lra.
    + apply Rmult_le_compat_r; [lra|]. apply Rmult_le_compat_r; lra.
Qed.

Lemma linspace_bound b n d : 0 <= b -> In d (linspace b n) -> 0 <= d <= b.
Proof.
  intros Hb H. unfold linspace in H. apply in_map_iff in H. destruct H as [i [<- Hi]].
  apply in_seq in Hi.
  assert (0 <= INR i) by apply pos_INR.
  destruct (Nat.eq_dec (n - 1) 0) as [E|E].
  { assert (i = 0)%nat by lia. subst i. simpl. lra. }
  assert (P : 0 < INR (n - 1)) by (apply lt_0_INR; lia).
  assert (L : INR i <= INR (n - 1)) by (apply le_INR; lia).
  assert (Q : 0 <= b / INR (n - 1)) by (apply Rmult_le_pos; [lra|left; apply Rinv_0_lt_compat, P]).
  split; [apply Rmult_le_pos; lra|].
  apply Rle_trans with (INR (n - 1) * (b / INR (n - 1))); [apply Rmult_le_compat_r; lra|].
  right. field. lra.
Qed.

(** One event: the scan is never refused and gives one direction per point, from
    the best fit itself up to the bound. *)
Theorem C96_scan : forall draw zenith azimuth bound num,
  (forall n, length (draw n) = n) -> 0 <= bound <= 899 / 10 ->
  (forall t, In t (draw (Nat.max 1 num)) -> ~ parallel (direction zenith azimuth) t) ->
  exists rows, scan draw [(zenith, azimuth)] bound num = Ok rows /\ length rows = num /\
    forall j, (j < num)%nat -> exists zen azi, nth_error rows j = Some (Some (zen, azi)) /\
      angle_between (direction zenith azimuth) (direction zen azi) =
        PI / 180 * (INR j * bound / INR (num - 1)).
Proof.
  intros draw zenith azimuth bound num Hdraw Hb Hp. unfold scan. pose proof PI_RGT_0 as PP.
  assert (Ll : length (linspace bound num) = num) by (unfold linspace; rewrite map_length, seq_length; reflexivity).
  assert (Hlin : forall d, In d (linspace bound num) -> 0 <= radians true d < PI / 2).
  { intros d Hd. apply linspace_bound in Hd; [|lra]. unfold radians. split; [|nra].
    apply Rmult_le_pos; [apply Rmult_le_pos; lra|lra]. }
  destruct (get_delta_psi_vector draw [(zenith, azimuth)] (linspace bound num) true true) as [rows|e] eqn:E.
  2: { exfalso. unfold get_delta_psi_vector in E.
       pose proof (dir_spec draw (map (fun a : R * R => to_vec (fst a) (snd a)) [(zenith, azimuth)])
                    (linspace bound num) true true Hdraw) as D.
       destruct (get_delta_psi_vector_dir draw _ (linspace bound num) true true) as [l|e'];
         [discriminate|].
       destruct D as (_ & [(d & Hd & Hle)|(_ & N & _)]).
       - apply Hlin in Hd. lra.
       - apply N. reflexivity. }
  assert (Lr : length rows = num).
  { revert E. unfold get_delta_psi_vector.
    pose proof (dir_spec draw (map (fun a : R * R => to_vec (fst a) (snd a)) [(zenith, azimuth)])
                    (linspace bound num) true true Hdraw) as D.
    destruct (get_delta_psi_vector_dir draw _ (linspace bound num) true true) as [l|e'];
      [|discriminate].
    destruct D as (_ & _ & D3 & _). cbn [bind]. intro E.
    assert (R : rows = map (omap to_angles) l) by congruence. rewrite R, map_length, D3.
    cbn [map length Nat.eqb]. exact Ll. }
  exists rows. split; [reflexivity|]. split; [exact Lr|]. intros j Hj.
  destruct (nth_error rows j) as [row|] eqn:Er.
  2: { apply nth_error_None in Er. lia. }
  destruct (C58_angles draw _ _ true true rows Hdraw E j row Er)
    as (zen0 & azi0 & d & t & P1 & P2 & P3 & Spec).
  cbn in P1. injection P1 as <- <-.
  assert (Ed : d = INR j * (bound / INR (num - 1))).
  { clear - P2 Hj Ll. unfold linspace in P2. rewrite pick_map in P2.
    destruct (pick (seq 0 num) j) as [i|] eqn:Ei; [|discriminate]. cbn in P2. injection P2 as <-.
    assert (i = j); [|subst i; reflexivity].
    destruct num as [|[|num]]; [lia| |].
    - cbn in Ei. injection Ei as <-. lia.
    - cbn [seq pick] in Ei. change (nth_error (seq 0 (Datatypes.S (Datatypes.S num))) j = Some i) in Ei.
      rewrite (nth_error_nth' _ 0%nat) in Ei by (rewrite seq_length; exact Hj).
      assert (Ej : nth j (seq 0 (Datatypes.S (Datatypes.S num))) 0%nat = i) by congruence.
      rewrite <- Ej. apply seq_nth. exact Hj. }
  assert (Hd : In d (linspace bound num)).
  { rewrite Ed. unfold linspace. apply (in_map (fun i => INR i * (bound / INR (num - 1)))).
    apply in_seq. lia. }
  apply Hlin in Hd. destruct Spec as (zen & azi & -> & _ & _ & A).
  - apply Hp. cbn [length] in P3. rewrite Ll in P3. clear - P3.
    destruct (draw (Nat.max 1 num)) as [|x [|y l]]; cbn [pick] in P3.
    + destruct j; discriminate.
    + injection P3 as <-. left. reflexivity.
    + apply nth_error_In in P3. exact P3.
  - lra.
  - exists zen, azi. split; [reflexivity|]. rewrite A, Rabs_right by lra.
    rewrite Ed. unfold radians, Rdiv. ring.
Qed.

(** Several events cannot be scanned together unless there are as many events as
    points. *)
Theorem C96_events : forall draw angles bound num,
  (forall n, length (draw n) = n) ->
  (2 <= length angles)%nat -> num <> 1%nat -> num <> length angles ->
  scan draw angles bound num = Err ValueError.
Proof.
  intros draw angles bound num Hdraw H1 H2 H3. unfold scan, get_delta_psi_vector.
  pose proof (dir_spec draw (map (fun a : R * R => to_vec (fst a) (snd a)) angles)
                (linspace bound num) true true Hdraw) as D.
  assert (Ll : length (linspace bound num) = num) by (unfold linspace; rewrite map_length, seq_length; reflexivity).
  destruct (get_delta_psi_vector_dir draw _ (linspace bound num) true true) as [l|e].
  - destruct D as (_ & D & _). rewrite map_length, Ll in D. lia.
  - destruct D as (-> & _). reflexivity.
Qed.

(** The fit cannot tell a negative uncertainty from a positive one: with every
    minimum its negative is a minimum. *)
Theorem C96_sign : forall delta_psi cdf_values sigma,
  (forall s, loss_cdf sigma delta_psi cdf_values <= loss_cdf s delta_psi cdf_values) ->
  forall s, loss_cdf (- sigma) delta_psi cdf_values <= loss_cdf s delta_psi cdf_values.
Proof.
  intros delta_psi cdf_values sigma H s.
  assert (E : loss_cdf (- sigma) delta_psi cdf_values = loss_cdf sigma delta_psi cdf_values).
  { unfold loss_cdf, zipw. f_equal. apply map_ext. intros [c d]. cbn [fst snd].
    unfold rayleigh_cdf. f_equal. f_equal. f_equal. f_equal. f_equal.
    unfold Rdiv. rewrite Rinv_opp. ring. }
  rewrite E. apply H.
Qed.

(** ** Examples: the hypotheses are met *)

Example draw_ex : forall n, length (repeat (0, 1, 0) n : list vec) = n.
Proof. intro n. apply repeat_length. Qed.
Example not_parallel_ex : ~ parallel (direction 0 0) (0, 1, 0).
Proof. unfold direction, parallel. rewrite cos_0, sin_0. lra. Qed.
Example dir_ex :
  exists rows, get_delta_psi_vector_dir (fun n => repeat (0, 1, 0) n) [(1, 0, 0)] [10; 20] true true = Ok rows
    /\ length rows = 2%nat.
Proof.
  destruct (C58_shape (fun n => repeat (0, 1, 0) n) [(1, 0, 0)] [10; 20] true true
              (fun n => repeat_length _ n)) as [[_ H] _].
  cbn [length Nat.eqb] in H. apply H. split; [|auto].
  pose proof PI_RGT_0. intros d [<-|[<-|[]]]; unfold radians; lra.
Qed.
Example nonzero_ex : (1, 2, 3) <> (0, 0, 0) /\ get_angle (1, 0, 0) (2, 0, 0) = 0.
Proof.
  split. { intro E. injection E as E _ _. lra. }
  rewrite C95_angle by (intro E; injection E; lra). unfold angle_between, dot.
  assert (S1 : sqrt (1 * 1 + 0 * 0 + 0 * 0) = 1) by (apply sqrt_lem_1; lra). rewrite S1.
  assert (S2 : sqrt (2 * 2 + 0 * 0 + 0 * 0) = 2) by (apply sqrt_lem_1; lra). rewrite S2.
  replace ((1 * 2 + 0 * 0 + 0 * 0) / (1 * 2)) with 1 by field. apply acos_1.
Qed.
Example exceeds_ex : forall (i : nat) c, Rltb 30 c = true <-> 30 < c.
Proof. intros i c. apply Rltb_true. Qed.

Print Assumptions C58_direction.
Print Assumptions C58_shape.
Print Assumptions C58_parallel.
Print Assumptions C58_geodesic.
Print Assumptions C58_angles.
Print Assumptions C58_length.
Print Assumptions C58_length_refuted.
Print Assumptions C58_negative.
Print Assumptions C95_angle.
Print Assumptions C95_invariant.
Print Assumptions C95_deviation.
Print Assumptions C95_zero.
Print Assumptions C96_bisection.
Print Assumptions C96_range.
Print Assumptions C96_covariance.
Print Assumptions C96_scan.
Print Assumptions C96_events.
Print Assumptions C96_sign.
Print Assumptions C96_covariance_value.
