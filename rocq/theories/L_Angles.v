(** Lemmas about the helpers for angles. *)
From Coq Require Import Reals Lra Lia Psatz.
From Verif Require Import Py RList M_Sphere S_Sphere L_Sphere M_Basis M_Angles S_Angles.
Open Scope R_scope.

Lemma norm_dot v : norm v = sqrt (dot v v).
Proof. destruct v as [[x y] z]. unfold norm, dot. f_equal. ring. Qed.
Lemma dot_pos v : 0 <= dot v v.
Proof. destruct v as [[x y] z]. unfold dot. nra. Qed.
Lemma dot_zero v : dot v v = 0 -> v = (0, 0, 0).
Proof.
  destruct v as [[x y] z]. unfold dot. intro H.
  assert (x = 0) by nra. assert (y = 0) by nra. assert (z = 0) by nra. subst. reflexivity.
Qed.
Lemma norm_sq v : norm v ^ 2 = dot v v.
Proof. rewrite norm_dot. apply sq_sqrt, dot_pos. Qed.
Lemma norm_nonneg v : 0 <= norm v.
Proof. rewrite norm_dot. apply sqrt_pos. Qed.
Lemma norm_unique v r : 0 <= r -> dot v v = r ^ 2 -> norm v = r.
Proof. intros Hr H. rewrite norm_dot, H, <- Rsqr_pow2. apply sqrt_Rsqr, Hr. Qed.
Lemma norm_zero v : norm v = 0 <-> v = (0, 0, 0).
Proof.
  split.
  - intro H. apply dot_zero. rewrite <- norm_sq, H. ring.
  - intros ->. apply norm_unique; [lra|]. unfold dot. ring.
Qed.
Lemma dot_vmul k a b : dot (vmul k a) b = k * dot a b.
Proof. destruct a as [[x y] z], b as [[x' y'] z']. unfold dot, vmul. ring. Qed.
Lemma dot_comm a b : dot a b = dot b a.
Proof. destruct a as [[x y] z], b as [[x' y'] z']. unfold dot. ring. Qed.
Lemma dot_vplus a b c : dot (vplus a b) c = dot a c + dot b c.
Proof. destruct a as [[x y] z], b as [[x' y'] z'], c as [[p q] r]. unfold dot, vplus. ring. Qed.
Lemma dot_vminus a b c : dot (vminus a b) c = dot a c - dot b c.
Proof. destruct a as [[x y] z], b as [[x' y'] z'], c as [[p q] r]. unfold dot, vminus. ring. Qed.
Lemma cross_orth_l a b : dot a (cross a b) = 0.
Proof. destruct a as [[x y] z], b as [[x' y'] z']. unfold dot, cross. ring. Qed.
Lemma cross_orth_r a b : dot b (cross a b) = 0.
Proof. destruct a as [[x y] z], b as [[x' y'] z']. unfold dot, cross. ring. Qed.
Lemma cross_zero a b : cross a b = (0, 0, 0) <-> parallel a b.
Proof.
  destruct a as [[x y] z], b as [[x' y'] z']. unfold cross, parallel. split.
  - intro H. injection H as H1 H2 H3. repeat split; lra.
  - intros (H1 & H2 & H3). f_equal; [f_equal|]; lra.
Qed.
Lemma cauchy a b : dot a b ^ 2 <= dot a a * dot b b.
Proof.
  destruct a as [[x y] z], b as [[x' y'] z']. unfold dot.
  assert (0 <= (y * z' - z * y') ^ 2 + (z * x' - x * z') ^ 2 + (x * y' - y * x') ^ 2)
    by (pose proof (pow2_ge_0 (y * z' - z * y')); pose proof (pow2_ge_0 (z * x' - x * z'));
        pose proof (pow2_ge_0 (x * y' - y * x')); lra).
  nra.
Qed.

Lemma normalised_some v : v <> (0, 0, 0) ->
  normalised v = Some (vmul (/ norm v) v) /\ unit (vmul (/ norm v) v).
Proof.
  intro H. assert (N : norm v <> 0) by (intro E; apply H, norm_zero, E). split.
  - unfold normalised. destruct (Reqb (norm v) 0) eqn:E; [|reflexivity].
    apply Reqb_true in E. contradiction.
  - unfold unit. rewrite dot_vmul, dot_comm, dot_vmul, <- norm_sq. field. exact N.
Qed.
Lemma normalised_none : normalised (0, 0, 0) = None.
Proof.
  unfold normalised. rewrite (proj2 (norm_zero (0, 0, 0)) eq_refl).
  rewrite (proj2 (Reqb_true 0 0) eq_refl). reflexivity.
Qed.

(** One new direction *)
Definition one (d : R) (v t : vec3) : option vec3 :=
  obind (omap (vplus v) (omap (vmul (tan d)) (normalised (cross v t)))) normalised.

Lemma one_none d v t : parallel v t -> one d v t = None.
Proof.
  intro H. unfold one. rewrite (proj2 (cross_zero v t) H), normalised_none. reflexivity.
Qed.

(** The direction for a vector of length [r] and a cosine which is not zero *)
Lemma one_general d v t : ~ parallel v t -> cos d <> 0 ->
  exists u r, r = norm v /\ 0 < r /\ unit u /\ dot u v = 0 /\ dot u t = 0 /\
    one d v t = Some (vmul (/ sqrt (r ^ 2 + tan d ^ 2)) (vplus v (vmul (tan d) u))).
Proof.
  intros H Hc.
  assert (HC : cross v t <> (0, 0, 0)) by (intro E; apply H, cross_zero, E).
  destruct (normalised_some _ HC) as [N1 N2].
  set (u := vmul (/ norm (cross v t)) (cross v t)) in *.
  assert (Uv : dot u v = 0) by (unfold u; rewrite dot_vmul, dot_comm, cross_orth_l; ring).
  assert (Ut : dot u t = 0) by (unfold u; rewrite dot_vmul, dot_comm, cross_orth_r; ring).
  assert (Hr : 0 < norm v).
  { destruct (norm_nonneg v) as [P|E]; [exact P|]. exfalso. apply H. symmetry in E.
    apply norm_zero in E. subst v. destruct t as [[x y] z]. unfold parallel. repeat split; ring. }
  exists u, (norm v). split; [reflexivity|]. split; [exact Hr|]. split; [exact N2|].
  split; [exact Uv|]. split; [exact Ut|].
  unfold one. rewrite N1. cbn [omap obind].
  set (w := vplus v (vmul (tan d) u)).
  assert (Ww : dot w w = norm v ^ 2 + tan d ^ 2).
  { unfold w. rewrite dot_vplus, (dot_comm v), (dot_comm (vmul _ _) (vplus _ _)), !dot_vplus.
    rewrite !dot_vmul, (dot_comm v (vmul _ _)), (dot_comm u (vmul _ _)), !dot_vmul, Uv.
    unfold unit in N2. rewrite N2, norm_sq. ring. }
  assert (Nw : norm w = sqrt (norm v ^ 2 + tan d ^ 2)) by (rewrite norm_dot, Ww; reflexivity).
  assert (Wz : w <> (0, 0, 0)).
  { intro E. rewrite E in Ww. unfold dot in Ww. nra. }
  destruct (normalised_some w Wz) as [M1 _]. rewrite M1, Nw. reflexivity.
Qed.

Lemma one_unit d v t : unit v -> ~ parallel v t -> 0 < cos d ->
  exists u, unit u /\ dot u v = 0 /\ dot u t = 0 /\
    one d v t = Some (vplus (vmul (cos d) v) (vmul (sin d) u)).
Proof.
  intros Hv H Hc. destruct (one_general d v t H ltac:(lra)) as (u & r & Hr & _ & U1 & U2 & U3 & E).
  exists u. split; [exact U1|]. split; [exact U2|]. split; [exact U3|]. rewrite E.
  assert (R1 : r = 1).
  { rewrite Hr. apply norm_unique; [lra|]. unfold unit in Hv. rewrite Hv. ring. }
  assert (S : sqrt (r ^ 2 + tan d ^ 2) = / cos d).
  { apply sqrt_lem_1.
    - subst r. pose proof (pow2_ge_0 (tan d)). nra.
    - left. apply Rinv_0_lt_compat, Hc.
    - rewrite R1. unfold tan. pose proof (sin2_cos2 d) as P. unfold Rsqr in P.
      apply Rmult_eq_reg_l with (cos d ^ 2); [|nra]. field_simplify; [|lra|lra]. nra. }
  rewrite S, Rinv_inv. f_equal. destruct v as [[x y] z], u as [[p q] s].
  unfold vmul, vplus, tan. f_equal; [f_equal|]; field; lra.
Qed.

Lemma combination_unit d u v : unit u -> unit v -> dot u v = 0 ->
  unit (vplus (vmul (cos d) v) (vmul (sin d) u)) /\
  dot v (vplus (vmul (cos d) v) (vmul (sin d) u)) = cos d.
Proof.
  unfold unit. intros U V O.
  assert (D : dot v (vplus (vmul (cos d) v) (vmul (sin d) u)) = cos d).
  { rewrite dot_comm, dot_vplus, !dot_vmul, V, O. ring. }
  split; [|exact D]. rewrite dot_vplus, !dot_vmul, D.
  rewrite (dot_comm u (vplus _ _)), dot_vplus, !dot_vmul, U, (dot_comm v u), O.
  pose proof (sin2_cos2 d) as P. unfold Rsqr in P. nra.
Qed.

(** Broadcasting *)
Lemma nth_error_combine {A B} (a : list A) : forall (b : list B) k x y,
  nth_error a k = Some x -> nth_error b k = Some y -> nth_error (combine a b) k = Some (x, y).
Proof.
  induction a as [|p a IH]; intros [|q b] [|k] x y H1 H2; try discriminate.
  - injection H1 as <-. injection H2 as <-. reflexivity.
  - apply IH; assumption.
Qed.

Lemma pick_nth {A} (l : list A) j : length l <> 1%nat -> pick l j = nth_error l j.
Proof. destruct l as [|x [|y l]]; simpl; intro H; [reflexivity|lia|reflexivity]. Qed.

Lemma broadcast_spec {A B C} (f : A -> B -> C) a b :
  match broadcast f a b with
  | Ok l =>
      (length a = length b \/ length a = 1%nat \/ length b = 1%nat) /\
      length l = (if Nat.eqb (length a) 1 then length b else length a) /\
      (forall j, (j < length l)%nat -> exists x y, pick a j = Some x /\ pick b j = Some y /\
         nth_error l j = Some (f x y))
  | Err e => e = ValueError /\ length a <> length b /\ length a <> 1%nat /\ length b <> 1%nat
  end.
Proof.
  unfold broadcast. destruct (Nat.eqb_spec (length a) (length b)) as [E|E].
  - split; [auto|]. split.
    { rewrite map_length, combine_length, E, Nat.min_id. destruct (Nat.eqb _ _); reflexivity. }
    intros j Hj. rewrite map_length, combine_length in Hj.
    destruct (nth_error a j) as [x|] eqn:Ea; [|apply nth_error_None in Ea; lia].
    destruct (nth_error b j) as [y|] eqn:Eb; [|apply nth_error_None in Eb; lia].
    exists x, y. split; [|split].
    + destruct a as [|x0 [|]]; [exact Ea| |exact Ea].
      destruct j as [|j]; [exact Ea|destruct j; discriminate].
    + destruct b as [|y0 [|]]; [exact Eb| |exact Eb].
      destruct j as [|j]; [exact Eb|destruct j; discriminate].
    + rewrite nth_error_map, (nth_error_combine _ _ _ _ _ Ea Eb). reflexivity.
  - destruct a as [|x [|x' a]].
    + destruct b as [|y [|y' b]]; [exfalso; apply E; reflexivity| |simpl; repeat split; lia].
      simpl. split; [auto|]. split; [reflexivity|]. intros j Hj. lia.
    + assert (Lb : length b <> 1%nat) by (simpl in E; lia).
      split; [auto|]. split; [rewrite map_length; reflexivity|]. intros j Hj. rewrite map_length in Hj.
      destruct (nth_error b j) as [y|] eqn:Eb; [|apply nth_error_None in Eb; lia].
      exists x, y. split; [reflexivity|]. split; [rewrite pick_nth by exact Lb; exact Eb|].
      rewrite nth_error_map, Eb. reflexivity.
    + destruct b as [|y [|y' b]]; [simpl; repeat split; lia| |simpl; repeat split; simpl in E; lia].
      split; [auto|]. split; [rewrite map_length; reflexivity|]. intros j Hj. rewrite map_length in Hj.
      destruct (nth_error (x :: x' :: a) j) as [x0|] eqn:Ea; [|apply nth_error_None in Ea; lia].
      exists x0, y. split; [exact Ea|]. split; [reflexivity|]. rewrite nth_error_map, Ea. reflexivity.
Qed.

Lemma deg2rad_radians d : deg2rad d = radians true d.
Proof. unfold deg2rad, radians. field. Qed.

Lemma map_radians (is_degree : bool) l :
  (if is_degree then map deg2rad l else l) = map (radians is_degree) l.
Proof.
  destruct is_degree; [|symmetry; apply map_id]. apply map_ext. exact deg2rad_radians.
Qed.

Lemma pick_map {A B} (f : A -> B) l j : pick (map f l) j = option_map f (pick l j).
Proof. destruct l as [|x [|y l]]; try reflexivity; [destruct j; reflexivity|]. apply (nth_error_map _ j (x :: y :: l)). Qed.

Lemma pick_pick {A} (l : list A) j x : length l = 1%nat -> nth_error l 0 = Some x -> pick l j = Some x.
Proof. destruct l as [|y [|]]; simpl; intros H E; try discriminate; try lia. exact E. Qed.

(** All rows *)
Lemma dir_spec draw vec delta each is_degree :
  (forall n, length (draw n) = n) ->
  match get_delta_psi_vector_dir draw vec delta each is_degree with
  | Ok rows =>
      (forall d, In d delta -> radians is_degree d < PI / 2) /\
      (length vec = length delta \/ length vec = 1%nat \/ length delta = 1%nat) /\
      length rows = (if Nat.eqb (length vec) 1 then length delta else length vec) /\
      (forall j, (j < length rows)%nat -> exists v d t,
         pick vec j = Some v /\ pick delta j = Some d /\
         pick (draw (if each then Nat.max (length vec) (length delta) else length vec)) j = Some t /\
         nth_error rows j = Some (one (radians is_degree d) v t))
  | Err e => e = ValueError /\
      ((exists d, In d delta /\ PI / 2 <= radians is_degree d) \/
       (length vec <> length delta /\ length vec <> 1%nat /\ length delta <> 1%nat))
  end.
Proof.
  intro Hdraw. unfold get_delta_psi_vector_dir. rewrite map_radians.
  set (ds := map (radians is_degree) delta).
  assert (Lds : length ds = length delta) by apply map_length.
  assert (D90 : deg2rad 90 = PI / 2) by (unfold deg2rad; field).
  destruct (existsb (fun d => Rleb (deg2rad 90) d) ds) eqn:Ex.
  { split; [reflexivity|]. left. apply existsb_exists in Ex. destruct Ex as [x [Hx Hle]].
    apply in_map_iff in Hx. destruct Hx as [d [<- Hd]]. exists d. split; [exact Hd|].
    apply Rleb_true in Hle. lra. }
  assert (Hsmall : forall d, In d delta -> radians is_degree d < PI / 2).
  { intros d Hd. apply Rnot_le_lt. intro Hle.
    assert (existsb (fun d0 => Rleb (deg2rad 90) d0) ds = true); [|congruence].
    apply existsb_exists. exists (radians is_degree d). split; [apply in_map, Hd|].
    apply Rleb_true. lra. }
  rewrite Lds. set (temp := draw _).
  assert (Lt : length temp = if each then Nat.max (length vec) (length delta) else length vec)
    by apply Hdraw.
  pose proof (broadcast_spec (fun v t => normalised (cross v t)) vec temp) as B1.
  destruct (broadcast (fun v t => normalised (cross v t)) vec temp) as [orth|e1]; cbn [bind].
  2: { destruct B1 as (-> & N1 & N2 & N3). split; [reflexivity|]. right.
       destruct each; lia. }
  destruct B1 as (A1 & L1 & P1).
  pose proof (broadcast_spec (fun d o => omap (vmul (tan d)) o) ds orth) as B2.
  destruct (broadcast (fun d o => omap (vmul (tan d)) o) ds orth) as [steps|e2]; cbn [bind].
  2: { destruct B2 as (-> & N1 & N2 & N3). split; [reflexivity|]. right. rewrite Lds in *.
       destruct (Nat.eqb_spec (length vec) 1); destruct each; lia. }
  destruct B2 as (A2 & L2 & P2).
  pose proof (broadcast_spec (fun v s => omap (vplus v) s) vec steps) as B3.
  destruct (broadcast (fun v s => omap (vplus v) s) vec steps) as [new|e3]; cbn [bind].
  2: { destruct B3 as (-> & N1 & N2 & N3). split; [reflexivity|]. right. rewrite Lds in *.
       destruct (Nat.eqb_spec (length vec) 1); destruct (Nat.eqb_spec (length delta) 1);
         destruct each; lia. }
  destruct B3 as (A3 & L3 & P3). rewrite Lds in *.
  assert (Hshape : length vec = length delta \/ length vec = 1%nat \/ length delta = 1%nat).
  { destruct (Nat.eqb_spec (length vec) 1); destruct (Nat.eqb_spec (length delta) 1);
      destruct each; lia. }
  assert (Lnew : length new = if Nat.eqb (length vec) 1 then length delta else length vec).
  { rewrite L3. destruct (Nat.eqb_spec (length vec) 1); [|reflexivity].
    rewrite L2, L1. destruct (Nat.eqb_spec (length delta) 1); destruct each; lia. }
  split; [exact Hsmall|]. split; [exact Hshape|]. split; [rewrite map_length; exact Lnew|].
  intros j Hj. rewrite map_length in Hj.
  destruct (P3 j Hj) as (v & s & V & S3 & E3).
  (* the step *)
  assert (Hs : exists d o, pick ds j = Some d /\ pick orth j = Some o /\ s = omap (vmul (tan d)) o).
  { destruct (Nat.eq_dec (length steps) 1) as [E1|E1].
    - destruct (P2 0%nat ltac:(lia)) as (d & o & D & O & E2).
      rewrite (pick_pick steps j _ E1 E2) in S3. injection S3 as <-.
      assert (Ld1 : length ds = 1%nat).
      { rewrite Lds. rewrite L2 in E1. rewrite L1 in E1.
        destruct (Nat.eqb_spec (length delta) 1); [assumption|].
        exact E1. }
      assert (Lo1 : length orth = 1%nat).
      { destruct (Nat.eqb_spec (length delta) 1); [congruence|]. rewrite Lds in Ld1. contradiction. }
      exists d, o. rewrite <- D, <- O. repeat split.
      + destruct ds as [|? [|]]; try discriminate. reflexivity.
      + destruct orth as [|? [|]]; try discriminate. reflexivity.
    - rewrite pick_nth in S3 by exact E1.
      assert (Hj2 : (j < length steps)%nat) by (apply nth_error_Some; congruence).
      destruct (P2 j Hj2) as (d & o & D & O & E2). exists d, o.
      split; [exact D|]. split; [exact O|]. congruence. }
  destruct Hs as (d & o & D & O & ->).
  assert (Ho : exists v' t, pick vec j = Some v' /\ pick temp j = Some t /\ o = normalised (cross v' t)).
  { destruct (Nat.eq_dec (length orth) 1) as [E1|E1].
    - destruct (P1 0%nat ltac:(lia)) as (v' & t & V' & T & E2).
      rewrite (pick_pick orth j _ E1 E2) in O. injection O as <-.
      assert (Lv1 : length vec = 1%nat).
      { destruct (Nat.eqb_spec (length vec) 1); [assumption|]. congruence. }
      assert (Lt1 : length temp = 1%nat).
      { destruct (Nat.eqb_spec (length vec) 1); congruence. }
      exists v', t. rewrite <- V', <- T. repeat split.
      + destruct vec as [|? [|]]; try discriminate. reflexivity.
      + destruct temp as [|? [|]]; try discriminate. reflexivity.
    - rewrite pick_nth in O by exact E1.
      assert (Hj2 : (j < length orth)%nat) by (apply nth_error_Some; congruence).
      destruct (P1 j Hj2) as (v' & t & V' & T & E2). exists v', t.
      split; [exact V'|]. split; [exact T|]. congruence. }
  destruct Ho as (v' & t & V' & T & ->).
  assert (v' = v) by congruence. subst v'.
  unfold ds in D. rewrite pick_map in D. destruct (pick delta j) as [d0|] eqn:Ed; [|discriminate].
  injection D as <-. exists v, d0, t. split; [exact V|]. split; [reflexivity|]. split; [exact T|].
  rewrite nth_error_map, E3. reflexivity.
Qed.

(** Angles from a unit vector *)
Lemma to_angles_spec w : unit w ->
  let '(zen, azi) := to_angles w in
  0 <= zen <= PI /\ 0 <= azi < 2 * PI /\ direction zen azi = w.
Proof.
  intro U. pose proof (cart_unit_id (mk_spher 0 0 (fst (fst w)) (snd (fst w)) (snd w) 0 0 0 0)) as I.
  destruct w as [[x y] z]. cbn in *. unfold to_angles.
  assert (Z : -1 <= z <= 1). { unfold unit, dot in U. nra. }
  rewrite (Rmin_right 1 z), (Rmax_right (-1) z) by lra.
  pose proof PI_RGT_0 as PP.
  split; [apply acos_bound|]. split; [apply fmod_range; lra|].
  pose proof (cart_coherent (mk_spher 0 0 x y z 0 0 0 0)) as [C _].
  destruct C as (_ & _ & _ & _ & C). specialize (I U). rewrite C in I. clear C.
  revert I. unfold fill_from_cart. cbn [sx sy sz].
  assert (S : sqrt (x ^ 2 + y ^ 2 + z ^ 2) = 1).
  { replace (x ^ 2 + y ^ 2 + z ^ 2) with 1; [apply sqrt_1|]. unfold unit, dot in U. lra. }
  rewrite S, (proj2 (Rltb_true 0 1)) by lra. cbn [zen az].
  replace (x / 1) with x by field. replace (y / 1) with y by field. replace (z / 1) with z by field.
  intro I. unfold xyz in I. cbn [sx sy sz] in I. rewrite <- I. unfold direction.
  rewrite !cos_fmod, !sin_fmod.
  assert (C2 : cos (atan2 y x + 2 * PI) = cos (atan2 y x)).
  { rewrite <- (cos_period_Z (atan2 y x) 1). f_equal. ring. }
  assert (S2 : sin (atan2 y x + 2 * PI) = sin (atan2 y x)).
  { rewrite <- (sin_period_Z (atan2 y x) 1). f_equal. ring. }
  rewrite C2, S2. reflexivity.
Qed.

(** [atan2] of the two sides of a right triangle *)
Lemma atan2_polar k t : 0 < k -> 0 <= t <= PI / 2 -> atan2 (k * sin t) (k * cos t) = t.
Proof.
  intros Hk Ht. pose proof PI_RGT_0 as PP. unfold atan2.
  destruct (Req_dec t (PI / 2)) as [->|N].
  - rewrite cos_PI2, sin_PI2, Rmult_0_r.
    rewrite (proj2 (Rltb_false 0 0)) by lra. rewrite (proj2 (Rltb_true 0 (k * 1))) by lra. reflexivity.
  - assert (C : 0 < cos t) by (apply cos_gt_0; lra).
    rewrite (proj2 (Rltb_true 0 (k * cos t))) by (apply Rmult_lt_0_compat; assumption).
    replace (k * sin t / (k * cos t)) with (tan t) by (unfold tan; field; lra).
    apply atan_tan. lra.
Qed.
