(** Lemmas for segments of tracks. *)
From Coq Require Import Reals Lra Lia Psatz.
From Verif Require Import Py PyFacts PyStr RList M_Source S_Source L_Source M_Basis M_Noise S_Noise L_Noise M_Cascade S_Cascade L_Cascade
  M_Segment S_Segment.
From Verif Require M_Angles.
Open Scope R_scope.

Lemma softplus_pos x : 0 < softplus x.
Proof. unfold softplus. rewrite <- ln_1. apply ln_increasing; [lra |]. pose proof (exp_pos x). lra. Qed.

Lemma softplus_exp x : exp (softplus x) = 1 + exp x.
Proof. unfold softplus. apply exp_ln. pose proof (exp_pos x). lra. Qed.

Lemma softplus_neg x : x + softplus (- x) = softplus x.
Proof.
  apply exp_inv. rewrite exp_plus, !softplus_exp, exp_Ropp. field. pose proof (exp_pos x). lra.
Qed.

Lemma softplus_mono x y : x < y -> softplus x < softplus y.
Proof. intros H. apply exp_lt_inv. rewrite !softplus_exp. pose proof (exp_increasing _ _ H). lra. Qed.

Lemma softplus_le x y : x <= y -> softplus x <= softplus y.
Proof. intros [H | ->]; [left; apply softplus_mono, H | right; reflexivity]. Qed.

Lemma softplus_ln2 x : x <= 0 -> softplus x <= ln 2.
Proof. intros H. replace (ln 2) with (softplus 0); [apply softplus_le, H |]. unfold softplus. rewrite exp_0. reflexivity. Qed.

Lemma softplus_ln2_lt x : x < 0 -> softplus x < ln 2.
Proof. intros H. replace (ln 2) with (softplus 0); [apply softplus_mono, H |]. unfold softplus. rewrite exp_0. reflexivity. Qed.

Lemma ln_1_plus y : 0 < y -> ln (1 + y) < y.
Proof.
  intros H. apply exp_lt_inv. rewrite exp_ln by lra. apply exp_ineq1. lra.
Qed.

Lemma softplus_small x : softplus x < exp x.
Proof. unfold softplus. apply ln_1_plus, exp_pos. Qed.

Lemma softplus_lip x d : 0 < d -> softplus (x + d) < softplus x + d.
Proof.
  intros H. apply exp_lt_inv. rewrite exp_plus, !softplus_exp, exp_plus.
  pose proof (exp_increasing 0 d H) as E. rewrite exp_0 in E. pose proof (exp_pos x). nra.
Qed.

Lemma shift_eq len d : shift_on_track len d = softplus d - softplus (d - len).
Proof. unfold shift_on_track. rewrite softplus_neg. reflexivity. Qed.

Lemma shift_range len d : 0 < len -> 0 < shift_on_track len d < len.
Proof.
  intros H. rewrite shift_eq. split.
  - pose proof (softplus_mono (d - len) d). lra.
  - pose proof (softplus_lip (d - len) len H) as L. replace (d - len + len) with d in L by ring. lra.
Qed.

Lemma shift_negative len d : len < 0 -> len < shift_on_track len d < 0.
Proof.
  intros H. rewrite shift_eq. split.
  - pose proof (softplus_lip d (- len) ltac:(lra)) as L. replace (d + - len) with (d - len) in L by ring. lra.
  - pose proof (softplus_mono d (d - len)). lra.
Qed.

Lemma shift_mono len d1 d2 : 0 < len -> d1 < d2 -> shift_on_track len d1 < shift_on_track len d2.
Proof.
  intros L H. rewrite !shift_eq.
  enough (softplus d1 + softplus (d2 - len) < softplus d2 + softplus (d1 - len)) by lra.
  apply exp_lt_inv. rewrite !exp_plus, !softplus_exp. unfold Rminus. rewrite !exp_plus.
  pose proof (exp_increasing _ _ H) as E. pose proof (exp_increasing (- len) 0 ltac:(lra)) as E'. rewrite exp_0 in E'.
  pose proof (exp_pos (- len)). pose proof (exp_pos d1). pose proof (exp_pos d2). nra.
Qed.

Lemma shift_le len d1 d2 : 0 < len -> d1 <= d2 -> shift_on_track len d1 <= shift_on_track len d2.
Proof. intros L [H | ->]; [left; apply shift_mono; assumption | right; reflexivity]. Qed.

Lemma shift_symmetric len d : shift_on_track len (len - d) = len - shift_on_track len d.
Proof.
  rewrite !shift_eq. replace (len - d - len) with (- d) by ring. pose proof (softplus_neg d) as A.
  pose proof (softplus_neg (d - len)) as B. replace (- (d - len)) with (len - d) in B by ring. lra.
Qed.

Lemma clamp_cases len d : 0 < len ->
  (d <= 0 /\ clamp len d = 0) \/ (0 <= d <= len /\ clamp len d = d) \/ (len <= d /\ clamp len d = len).
Proof.
  intros H. unfold clamp. destruct (Rle_lt_dec d 0).
  - left. rewrite Rmin_left, Rmax_left by lra. lra.
  - destruct (Rle_lt_dec d len).
    + right; left. rewrite Rmin_left, Rmax_right by lra. lra.
    + right; right. rewrite Rmin_right, Rmax_right by lra. lra.
Qed.

(** The shift is the clamped value up to the overlap at the two ends. *)
Lemma shift_clamp len d : 0 < len -> exists a b, shift_on_track len d - clamp len d = a - b /\
  0 < a <= ln 2 /\ 0 < b <= ln 2 /\ a <= exp (- Rmin (Rabs d) (Rabs (d - len))) /\ b <= exp (- Rmin (Rabs d) (Rabs (d - len))).
Proof.
  intros H.
  assert (M : forall x y, x <= 0 -> y <= 0 -> (- x = Rabs d /\ - y = Rabs (d - len)) \/ - x = Rmin (Rabs d) (Rabs (d - len)) /\ y <= x ->
    0 < softplus x <= ln 2 /\ 0 < softplus y <= ln 2 /\
    softplus x <= exp (- Rmin (Rabs d) (Rabs (d - len))) /\ softplus y <= exp (- Rmin (Rabs d) (Rabs (d - len)))).
  { intros x y X Y Q. pose proof (softplus_pos x). pose proof (softplus_pos y). pose proof (softplus_ln2 _ X). pose proof (softplus_ln2 _ Y).
    pose proof (softplus_small x). pose proof (softplus_small y). do 2 (split; [lra |]).
    assert (EE : forall u v, u <= v -> exp u <= exp v).
    { intros u v [U | ->]; [left; apply exp_increasing, U | right; reflexivity]. }
    destruct Q as [[Q1 Q2] | [Q1 Q2]].
    - pose proof (Rmin_l (Rabs d) (Rabs (d - len))). pose proof (Rmin_r (Rabs d) (Rabs (d - len))).
      pose proof (EE x (- Rmin (Rabs d) (Rabs (d - len))) ltac:(lra)). pose proof (EE y (- Rmin (Rabs d) (Rabs (d - len))) ltac:(lra)). lra.
    - pose proof (EE x (- Rmin (Rabs d) (Rabs (d - len))) ltac:(lra)). pose proof (EE y x Q2). lra. }
  destruct (clamp_cases len d H) as [(D & ->) | [(D & ->) | (D & ->)]].
  - exists (softplus d), (softplus (d - len)). split; [rewrite shift_eq; ring |]. apply M; [lra | lra |].
    right. rewrite !Rabs_left1 by lra. rewrite Rmin_left by lra. lra.
  - exists (softplus (- d)), (softplus (d - len)). split; [unfold shift_on_track; ring |]. apply M; [lra | lra |].
    left. rewrite Rabs_right, Rabs_left1 by lra. lra.
  - exists (softplus (- d)), (softplus (len - d)). split.
    + rewrite shift_eq. pose proof (softplus_neg d) as A. pose proof (softplus_neg (d - len)) as B.
      replace (- (d - len)) with (len - d) in B by ring. lra.
    + assert (Q := M (len - d) (- d) ltac:(lra) ltac:(lra)). destruct Q as (A & B & C & E); [| tauto].
      right. rewrite !Rabs_right by lra. rewrite Rmin_right by lra. lra.
Qed.

Lemma shift_error len d : 0 < len -> Rabs (shift_on_track len d - clamp len d) < ln 2 /\
  Rabs (shift_on_track len d - clamp len d) <= exp (- Rmin (Rabs d) (Rabs (d - len))).
Proof.
  intros H. destruct (shift_clamp len d H) as (a & b & -> & A & B & C & D). split; [apply Rabs_def1; lra | apply Rabs_le; lra].
Qed.

(** Energies *)

Lemma dep_mono e len d1 d2 : 0 < len -> d1 <= d2 ->
  dep_energy e len d1 d2 = e * ((shift_on_track len d2 - shift_on_track len d1) / len).
Proof.
  intros L H. unfold dep_energy. rewrite Rabs_right; [reflexivity |]. pose proof (shift_le len d1 d2 L H). lra.
Qed.

Lemma dep_symmetric e len d1 d2 : dep_energy e len d1 d2 = dep_energy e len d2 d1.
Proof. unfold dep_energy. rewrite Rabs_minus_sym. reflexivity. Qed.

Lemma share_range len d1 d2 : 0 < len -> 0 <= Rabs (shift_on_track len d2 - shift_on_track len d1) / len < 1.
Proof.
  intros H. pose proof (shift_range len d1 H). pose proof (shift_range len d2 H). split.
  - apply Rmult_le_pos; [apply Rabs_pos | left; apply Rinv_0_lt_compat, H].
  - apply (Rmult_lt_reg_r len); [exact H |]. unfold Rdiv. rewrite Rmult_assoc, Rinv_l, Rmult_1_r, Rmult_1_l by lra.
    unfold Rabs. destruct (Rcase_abs _); lra.
Qed.

Lemma share_negative len d1 d2 : len < 0 -> -1 < Rabs (shift_on_track len d2 - shift_on_track len d1) / len <= 0.
Proof.
  intros H. pose proof (shift_negative len d1 H). pose proof (shift_negative len d2 H).
  assert (0 < / - len) by (apply Rinv_0_lt_compat; lra).
  replace (Rabs (shift_on_track len d2 - shift_on_track len d1) / len)
    with (- (Rabs (shift_on_track len d2 - shift_on_track len d1) * / - len)) by (field; lra).
  set (x := Rabs _). assert (X : 0 <= x < - len).
  { unfold x. split; [apply Rabs_pos |]. unfold Rabs. destruct (Rcase_abs _); lra. }
  assert (- len * / - len = 1) by (apply Rinv_r; lra). nra.
Qed.

(** Geometry *)

Lemma flight_direction row : flight row = direction (nth 3 row 0) (nth 4 row 0).
Proof. unfold flight, scale, origin, direction. f_equal; [f_equal |]; ring. Qed.

Lemma flight_unit row : norm2 (flight row) = 1.
Proof.
  rewrite flight_direction. unfold norm2, dot, direction.
  pose proof (sin2_cos2 (nth 3 row 0)) as A. pose proof (sin2_cos2 (nth 4 row 0)) as B. unfold Rsqr in *.
  set (s := sin (nth 3 row 0)) in *. set (c := cos (nth 3 row 0)) in *. set (s' := sin (nth 4 row 0)) in *. set (c' := cos (nth 4 row 0)) in *.
  transitivity (s * s * (s' * s' + c' * c') + c * c); [ring |]. rewrite B. lra.
Qed.

Lemma pythagoras p v u a s : norm2 u = 1 -> Foot p v u a ->
  norm2 (minus p (along v u s)) = norm2 (minus p (along v u a)) + (s - a) ^ 2.
Proof.
  destruct p as [[px py] pz], v as [[vx vy] vz], u as [[ux uy] uz]. unfold Foot, norm2, dot, minus, along. intros U F.
  apply Rminus_diag_uniq.
  replace (_ - _) with ((s - a) ^ 2 * (ux * ux + uy * uy + uz * uz - 1)
    - 2 * (s - a) * ((px - (vx + a * ux)) * ux + (py - (vy + a * uy)) * uy + (pz - (vz + a * uz)) * uz)) by ring.
  rewrite F, U. ring.
Qed.

Lemma norm2_nonneg p : 0 <= norm2 p.
Proof. destruct p as [[x y] z]. unfold norm2, dot. nra. Qed.

Lemma away_foot p v u a s : norm2 u = 1 -> Foot p v u a ->
  away p (along v u s) = sqrt (away p (along v u a) ^ 2 + (s - a) ^ 2).
Proof.
  intros U F. unfold away at 2. rewrite pow2_sqrt by apply norm2_nonneg. unfold away. rewrite (pythagoras _ _ _ _ _ U F). reflexivity.
Qed.

Lemma sqrt_lipschitz m x y : 0 <= m -> sqrt (m + x ^ 2) <= sqrt (m + y ^ 2) + Rabs (x - y).
Proof.
  intros M. pose proof (sqrt_pos (m + y ^ 2)) as P. pose proof (Rabs_pos (x - y)) as A.
  rewrite <- (sqrt_pow2 (sqrt (m + y ^ 2) + Rabs (x - y))) by lra. apply sqrt_le_1_alt.
  assert (Q : sqrt (m + y ^ 2) * sqrt (m + y ^ 2) = m + y ^ 2) by (apply sqrt_sqrt; nra).
  assert (Y : Rabs y <= sqrt (m + y ^ 2)).
  { rewrite <- sqrt_Rsqr_abs. apply sqrt_le_1_alt. unfold Rsqr. nra. }
  assert (X : Rabs (x - y) * Rabs (x - y) = (x - y) ^ 2) by (rewrite <- Rabs_mult, Rabs_right; [ring | apply Rle_ge, Rle_0_sqr]).
  assert (Z : y * (x - y) <= Rabs y * Rabs (x - y)) by (rewrite <- Rabs_mult; apply Rle_abs).
  assert (W : Rabs y * Rabs (x - y) <= sqrt (m + y ^ 2) * Rabs (x - y)) by (apply Rmult_le_compat_r; assumption).
  replace ((sqrt (m + y ^ 2) + Rabs (x - y)) ^ 2) with (sqrt (m + y ^ 2) * sqrt (m + y ^ 2) + 2 * (sqrt (m + y ^ 2) * Rabs (x - y)) + Rabs (x - y) * Rabs (x - y)) by ring.
  rewrite Q, X. replace (x ^ 2) with (y ^ 2 + 2 * (y * (x - y)) + (x - y) ^ 2) by ring. lra.
Qed.

Lemma track_distance p v u a len s d : norm2 u = 1 -> Foot p v u a -> 0 < len -> 0 <= s <= len ->
  TrackDistance p v u len d -> d <= away p (along v u s) <= d + Rabs (s - clamp len a).
Proof.
  intros U F L S ((s0 & S0 & D0) & D). split; [apply D, S |].
  assert (M : 0 <= away p (along v u a) ^ 2) by apply pow2_ge_0.
  assert (C : away p (along v u (clamp len a)) <= d).
  { rewrite <- D0. rewrite (away_foot p v u a (clamp len a) U F), (away_foot p v u a s0 U F). apply sqrt_le_1_alt.
    apply Rplus_le_compat_l. destruct (clamp_cases len a L) as [(Q & ->) | [(Q & ->) | (Q & ->)]].
    - apply pow_incr. lra.
    - replace ((a - a) ^ 2) with 0 by ring. apply pow2_ge_0.
    - replace ((len - a) ^ 2) with ((a - len) ^ 2) by ring. replace ((s0 - a) ^ 2) with ((a - s0) ^ 2) by ring. apply pow_incr. lra. }
  rewrite (away_foot p v u a (clamp len a) U F) in C. rewrite (away_foot p v u a s U F).
  pose proof (sqrt_lipschitz _ (s - a) (clamp len a - a) M) as T. replace (s - a - (clamp len a - a)) with (s - clamp len a) in T by ring. lra.
Qed.

Lemma cherenkov_from p v u a : norm2 u = 1 -> Foot p v u a ->
  CherenkovFrom p v u (a - away p (along v u a) / tan (acos (1 / (13195 / 10000)))).
Proof.
  intros U F. set (th := acos (1 / (13195 / 10000))).
  assert (CO : cos th = 1 / (13195 / 10000)) by (apply cos_acos; lra).
  assert (SI : sin th = sqrt (1 - (1 / (13195 / 10000))²)) by (apply sin_acos; lra).
  assert (SP : 0 < sin th) by (rewrite SI; apply sqrt_lt_R0; unfold Rsqr; lra).
  unfold CherenkovFrom. rewrite (away_foot p v u a (a - away p (along v u a) / tan th) U F).
  set (m := away p (along v u a)). assert (M : 0 <= m) by apply sqrt_pos.
  set (k := a - m / tan th).
  assert (DK : dot (minus p (along v u k)) u = a - k).
  { clear - F U. destruct p as [[px py] pz], v as [[vx vy] vz], u as [[ux uy] uz]. unfold Foot, norm2, dot, minus, along in *.
    transitivity ((px - (vx + a * ux)) * ux + (py - (vy + a * uy)) * uy + (pz - (vz + a * uz)) * uz + (a - k) * (ux * ux + uy * uy + uz * uz)); [ring |].
    rewrite F, U. ring. }
  rewrite DK. unfold k. unfold tan. rewrite CO.
  replace (m ^ 2 + _) with ((m / sin th) ^ 2).
  - rewrite sqrt_pow2; [field; lra |]. apply Rmult_le_pos; [exact M |]. left. apply Rinv_0_lt_compat, SP.
  - assert (S2 : sin th * sin th = 1 - (1 / (13195 / 10000)) * (1 / (13195 / 10000))).
    { pose proof (sin2_cos2 th) as E. rewrite CO in E. unfold Rsqr in E. lra. }
    assert (NZ : sin th <> 0) by lra. 
    transitivity (m ^ 2 * (sin th * sin th + (1 / (13195 / 10000)) * (1 / (13195 / 10000))) / (sin th * sin th)).
    + replace (sin th * sin th + 1 / (13195 / 10000) * (1 / (13195 / 10000))) with 1 by (rewrite S2; ring). field. exact NZ.
    + field. lra.
Qed.

Lemma foot_exists p v u : norm2 u = 1 -> Foot p v u (dot u (minus p v)).
Proof.
  destruct p as [[px py] pz], v as [[vx vy] vz], u as [[ux uy] uz]. unfold Foot, norm2, dot, minus, along. intros U.
  set (a := ux * (px - vx) + uy * (py - vy) + uz * (pz - vz)).
  transitivity (a - a * (ux * ux + uy * uy + uz * uz)); [unfold a; ring | rewrite U; ring].
Qed.

Section Tensors.
  Variable format : string -> nat -> string.
  Variable trafo : nat -> R -> R.
  Variables mean std : nat -> R.
  Variable norm_const : R.
  Variable coords : cell -> R * R * R.
  Variable local_vars : cell -> list R.
  Variable lgamma : R -> R.
  Variable rel_eff : cell -> R.
  Variable net : list (list (list ext)) -> nat -> cell -> list R.

  Notation seg := (segment_get_tensors format trafo mean std norm_const coords local_vars lgamma rel_eff net).
  Notation event := (segment_event trafo mean std norm_const coords local_vars).
  Notation sinput := (segment_input trafo mean std norm_const coords local_vars).

  Lemma segment_names_eq h : segment_names format h = cascade_names format (common h).
  Proof. reflexivity. Qed.

  Lemma segment_parameters_eq h : segment_parameters h = num_parameters (common h).
  Proof. reflexivity. Qed.

  Lemma segment_inputs_eq h : segment_inputs h =
    (segment_parameters h + 7 + (if h_opening h then 1 else 0) + (if h_coordinates h then 3 else 0) + h_local h)%nat.
  Proof. unfold segment_inputs, segment_parameters. destruct (h_snowstorm h); rewrite ?fold_snow; lia. Qed.

  Lemma sinput_length h row c : (7 <= length row)%nat -> length (local_vars c) = h_local h ->
    length (sinput h row c) = (length row + 7 + (if h_opening h then 1 else 0) + (if h_coordinates h then 3 else 0) + h_local h)%nat.
  Proof.
    intros L V. unfold segment_input. destruct (coords c) as [[x y] z].
    destruct (direction (nth 3 row 0) (nth 4 row 0)) as [[ux uy] uz].
    rewrite !app_length, !map_length, !app_length, map_length, seq_length, V. destruct (h_opening h), (h_coordinates h); cbn [length]; lia.
  Qed.

  Lemma seg_short rows row : In row rows -> (length row < 9)%nat -> existsb (fun row : list R => Nat.ltb (length row) 9) rows = true.
  Proof. intros I L. apply existsb_exists. exists row. split; [exact I |]. apply Nat.ltb_lt. exact L. Qed.

  Lemma seg_shape h rows : (forall c, length (local_vars c) = h_local h) ->
    (Forall (fun row => length row = segment_parameters h) rows <->
     existsb (fun row : list R => Nat.ltb (length row) 9) rows = false /\
     existsb (fun l => existsb (fun v : list ext => negb (Nat.eqb (length v) (segment_inputs h))) l) (map (event h) rows) = false).
  Proof.
    intros V. assert (P : (9 <= segment_parameters h)%nat) by (unfold segment_parameters; lia). split.
    - intros S. rewrite Forall_forall in S. split.
      + apply not_true_is_false. intros H. apply existsb_exists in H. destruct H as (row & I & H).
        apply Nat.ltb_lt in H. specialize (S row I). lia.
      + apply not_true_is_false. intros H. apply existsb_exists in H. destruct H as (l & I & H).
        apply in_map_iff in I. destruct I as (row & <- & I). apply existsb_exists in H. destruct H as (v & J & H).
        unfold segment_event in J. apply in_map_iff in J. destruct J as (c & <- & J).
        rewrite sinput_length in H by (first [apply V | rewrite (S row I); lia]).
        rewrite (S row I), segment_inputs_eq, Nat.eqb_refl in H. discriminate H.
    - intros (A & B). apply Forall_forall. intros row I.
      assert (L : (9 <= length row)%nat).
      { apply Nat.nlt_ge. intros H. rewrite (seg_short rows row I H) in A. discriminate A. }
      destruct (Nat.eq_dec (length row) (segment_parameters h)) as [E | N]; [exact E | exfalso].
      apply not_true_iff_false in B. apply B. apply existsb_exists. exists (event h row). split; [apply in_map; exact I |].
      apply existsb_exists. exists (sinput h row (0, 0)%nat). split.
      + unfold segment_event. apply in_map. apply cells_in. split; cbn; lia.
      + rewrite sinput_length by (first [apply V | lia]). rewrite segment_inputs_eq. apply negb_true_iff. apply Nat.eqb_neq. lia.
  Qed.

  Definition seg_q h rows i (e : nat) (c : cell) : R :=
    raw_charge rel_eff (common h) (nth e rows []) (net (map (event h) rows) e c) c (nth i (nth e rows []) 0) + 1 / 10000000.

  (** The checks of a call *)
  Record Checked h (trafo_log : option (list bool)) (is_training : bool) (rows : list (list R)) (charges : nat -> cell -> R) (i : nat) : Prop := {
    z_short : existsb (fun row : list R => Nat.ltb (length row) 9) rows = false;
    z_log : exists l, trafo_log = Some l /\ nth_error l 5 = Some true;
    z_shape : existsb (fun l => existsb (fun v : list ext => negb (Nat.eqb (length v) (segment_inputs h))) l) (map (event h) rows) = false;
    z_eff : (if h_global h then name_index (segment_names format h) "DOMEfficiency" else Ok 0%nat) = Ok i;
    z_layout : (h_models h * 4 + n_charge (mode (common h)) = h_filters h)%nat;
    z_models : (1 < h_models h)%nat;
    z_params : is_training = true -> Forall (fun row => - (1 / 1000) <= nth 5 row 0 /\ - 1000 <= nth 7 row 0) rows;
    z_some : is_training = true -> rows <> [];
    z_finite : is_training = true -> forall row c v, In row rows -> In c detector_cells -> In v (sinput h row c) -> is_finite v = true;
    z_terms : is_training = true -> forall e c, (e < length rows)%nat -> In c detector_cells ->
      finite_terms (common h) (seg_q h rows i e c) (charges e c)
        (charge_terms lgamma (common h) (net (map (event h) rows) e c) (seg_q h rows i e c) (charges e c)) = true }.

  Definition seg_rest h rows charges pulses i : result cascade_tensors :=
    let terms e c := charge_terms lgamma (common h) (net (map (event h) rows) e c) (seg_q h rows i e c) (charges e c) in
    let comps e c := components (common h) (net (map (event h) rows) e c) in
    bind (pulse_densities (length rows) (fun e c t => pulse_density (comps e c) None (nth 6 (nth e rows []) 0) t) pulses) (fun pdf =>
    Ok {| a_comps := comps; a_excl := None; a_excl_sum := None; a_charges := seg_q h rows i;
          a_unc := fun e c => fst (fst (terms e c)); a_var := fun e c => snd (fst (terms e c));
          a_llh := match mode (common h) with
                   | Poisson => None
                   | _ => Some (fun e c => match snd (terms e c) with Some v => v | None => NaN end)
                   end;
          a_pdf := pdf |}).

  Lemma finite_inputs h rows : forallb (forallb (forallb is_finite)) (map (event h) rows) = true <->
    forall row c v, In row rows -> In c detector_cells -> In v (sinput h row c) -> is_finite v = true.
  Proof.
    rewrite forallb_forall. split.
    - intros H row c v I C V. specialize (H _ (in_map (event h) _ _ I)). rewrite forallb_forall in H.
      specialize (H _ (in_map (sinput h row) _ _ C)). rewrite forallb_forall in H. exact (H v V).
    - intros H l I. apply in_map_iff in I. destruct I as (row & <- & I). apply forallb_forall. intros k K.
      apply in_map_iff in K. destruct K as (c & <- & C). apply forallb_forall. intros v V. exact (H row c v I C V).
  Qed.

  Lemma params_ok rows : existsb (fun row => Rltb (nth 5 row 0) (- (1 / 1000)) || Rltb (nth 7 row 0) (- 1000)) rows = false <->
    Forall (fun row => - (1 / 1000) <= nth 5 row 0 /\ - 1000 <= nth 7 row 0) rows.
  Proof.
    induction rows as [| row rows IH]; [split; [constructor | reflexivity] |]. cbn [existsb].
    rewrite !orb_false_iff, IH, !Rltb_false. split.
    - intros ((A & B) & C). constructor; [lra | exact C].
    - intros F. inversion F; subst. repeat split; [lra | lra | assumption].
  Qed.

  Lemma seg_run h tl tr rows charges pulses i : Checked h tl tr rows charges i ->
    seg h tl tr rows charges pulses = seg_rest h rows charges pulses i.
  Proof.
    intros Z. cbv beta delta [segment_get_tensors]. cbv zeta. rewrite (z_short _ _ _ _ _ _ Z).
    destruct (z_log _ _ _ _ _ _ Z) as (l & -> & ->). cbn [bind]. rewrite (z_shape _ _ _ _ _ _ Z), (z_eff _ _ _ _ _ _ Z). cbn [bind].
    rewrite (z_layout _ _ _ _ _ _ Z), Nat.eqb_refl. cbv beta iota delta [negb].
    pose proof (z_models _ _ _ _ _ _ Z) as NM. destruct (Nat.leb_spec (h_models h) 1); [lia |].
    destruct tr; cbv beta iota delta [andb]; [| reflexivity].
    rewrite (proj2 (params_ok rows) (z_params _ _ _ _ _ _ Z eq_refl)).
    pose proof (z_some _ _ _ _ _ _ Z eq_refl) as NE. destruct (Nat.eqb_spec (length rows) 0) as [L0 |].
    { destruct rows; [contradiction | discriminate L0]. }
    rewrite (proj2 (finite_inputs h rows) (z_finite _ _ _ _ _ _ Z eq_refl)). cbv beta iota delta [orb].
    match goal with |- context[forallb ?f (seq 0 (length rows))] => assert (F : forallb f (seq 0 (length rows)) = true) end.
    { apply forallb_forall. intros e E. apply in_seq in E. apply forallb_forall. intros c C.
      exact (z_terms _ _ _ _ _ _ Z eq_refl e c ltac:(lia) C). }
    rewrite F. reflexivity.
  Qed.

  Lemma seg_inv h tl tr rows charges pulses r : seg h tl tr rows charges pulses = Ok r ->
    exists i, Checked h tl tr rows charges i /\ seg_rest h rows charges pulses i = Ok r.
  Proof.
    intros H. assert (H0 := H). revert H. cbv beta delta [segment_get_tensors]. cbv zeta.
    destruct (existsb _ rows) eqn:SH; [discriminate |].
    intros H. apply bind_ok in H. destruct H as ([] & LOG & H).
    destruct (existsb _ (map _ rows)) eqn:SI; [discriminate |].
    apply bind_ok in H. destruct H as (i & EFF & H).
    destruct (Nat.eqb_spec (h_models h * 4 + n_charge (mode (common h))) (h_filters h)) as [LAY |]; [| discriminate].
    cbv beta iota delta [negb] in H. destruct (Nat.leb_spec (h_models h) 1) as [| NM]; [discriminate |].
    assert (Z : Checked h tl tr rows charges i).
    { constructor; try assumption.
      - destruct tl as [l |]; [| discriminate]. exists l. split; [reflexivity |]. destruct (nth_error l 5) as [[] |]; [reflexivity | discriminate | discriminate].
      - intros ->. cbv beta iota delta [andb] in H. apply params_ok. match goal with |- ?x = false => destruct x end; [discriminate | reflexivity].
      - intros ->. cbv beta iota delta [andb] in H. intros ->. discriminate H.
      - intros ->. cbv beta iota delta [andb] in H. match type of H with (if ?x then _ else _) = _ => destruct x end; [discriminate |].
        apply finite_inputs. destruct (Nat.eqb (length rows) 0); [discriminate |]. cbv beta iota delta [orb] in H.
        destruct (forallb (forallb (forallb is_finite)) _); [reflexivity | discriminate].
      - intros -> e c E C. cbv beta iota delta [andb] in H. match type of H with (if ?x then _ else _) = _ => destruct x end; [discriminate |].
        destruct (Nat.eqb (length rows) 0 || _); [discriminate |].
        match type of H with context[forallb ?f (seq 0 (length rows))] => destruct (forallb f (seq 0 (length rows))) eqn:F end; [| discriminate H].
        rewrite forallb_forall in F. specialize (F e ltac:(apply in_seq; lia)). rewrite forallb_forall in F. exact (F c C). }
    exists i. split; [exact Z |]. rewrite <- (seg_run h tl tr rows charges pulses i Z). exact H0.
  Qed.

  Variable erf : R -> R.
  Notation casc h rows := (cascade_get_tensors format trafo mean std norm_const coords local_vars erf lgamma rel_eff
    (fun _ => net (map (event h) rows)) (common h) rows).

  (** After the checks the source is the cascade source with the same latent
      variables and no excluded windows. *)
  Lemma seg_cascade h tl tr rows charges i pulses : (forall c, length (local_vars c) = h_local h) ->
    Checked h tl tr rows charges i -> seg h tl tr rows charges pulses = casc h rows charges None pulses.
  Proof.
    intros V Z. rewrite (seg_run _ _ _ _ _ _ _ Z).
    destruct (shape_ok trafo mean std norm_const coords local_vars (common h) rows) as (A & B).
    { rewrite <- segment_parameters_eq. apply seg_shape; [exact V |]. split; [exact (z_short _ _ _ _ _ _ Z) | exact (z_shape _ _ _ _ _ _ Z)]. }
    { exact V. }
    cbv beta delta [cascade_get_tensors]. rewrite A. cbv zeta. rewrite B.
    change (g_models (common h)) with (h_models h). change (g_filters (common h)) with (h_filters h).
    rewrite (z_layout _ _ _ _ _ _ Z), Nat.eqb_refl. cbv beta iota delta [negb].
    pose proof (z_models _ _ _ _ _ _ Z) as NM. destruct (Nat.leb_spec (h_models h) 1); [lia |].
    change (g_global (common h)) with (h_global h). rewrite <- segment_names_eq, (z_eff _ _ _ _ _ _ Z). reflexivity.
  Qed.

  Lemma sinput_ext h row row' c : length row' = length row ->
    (forall i, i <> 3%nat -> i <> 4%nat -> i <> 6%nat -> nth i row' 0 = nth i row 0) ->
    direction (nth 3 row' 0) (nth 4 row' 0) = direction (nth 3 row 0) (nth 4 row 0) ->
    sinput h row' c = sinput h row c.
  Proof.
    intros L H D. unfold segment_input. rewrite D, L.
    rewrite (H 0%nat), (H 1%nat), (H 2%nat), (H 5%nat), (H 7%nat) by lia.
    rewrite (map_ext_in (fun i => trafo i (nth i row' 0)) (fun i => trafo i (nth i row 0)) (seq 7 (length row - 7))); [reflexivity |].
    intros i I. apply in_seq in I. rewrite H by lia. reflexivity.
  Qed.

  (** Events with the same inputs, up to a shift of the time *)
  Lemma seg_shift h tl tr rows rows' d charges pulses : length rows' = length rows ->
    (forall e, (e < length rows)%nat ->
      length (nth e rows' []) = length (nth e rows []) /\ event h (nth e rows' []) = event h (nth e rows []) /\
      (forall i, i <> 3%nat -> i <> 4%nat -> i <> 6%nat -> nth i (nth e rows' []) 0 = nth i (nth e rows []) 0) /\
      nth 6 (nth e rows' []) 0 = nth 6 (nth e rows []) 0 + d e) ->
    SameTensors (length rows) (seg h tl tr rows' charges (map (shift_pulse d) pulses)) (seg h tl tr rows charges pulses).
  Proof.
    intros LR H. cbv beta delta [segment_get_tensors]. rewrite LR.
    rewrite (existsb_ext_nth (fun row => Nat.ltb (length row) 9) rows rows' [] LR).
    2:{ intros e E. destruct (H e E) as (L & _). rewrite L. reflexivity. }
    rewrite (existsb_ext_nth (fun row => Rltb (nth 5 row 0) (- (1 / 1000)) || Rltb (nth 7 row 0) (- 1000)) rows rows' [] LR).
    2:{ intros e E. destruct (H e E) as (_ & _ & I & _). rewrite !I by lia. reflexivity. }
    rewrite (map_ext_nth (event h) rows rows' [] LR).
    2:{ intros e E. destruct (H e E) as (_ & I & _). exact I. }
    cbv zeta. destruct (existsb _ rows); [exact eq_refl |].
    match goal with |- context[bind ?x] => match type of x with result unit => destruct x as [[] |] end end; [| exact eq_refl]. cbn [bind].
    set (inputs := map (event h) rows). clearbody inputs.
    destruct (existsb _ inputs); [exact eq_refl |].
    set (n := length rows) in *.
    assert (T : forall e, (e < n)%nat -> nth 6 (nth e rows' []) 0 = nth 6 (nth e rows []) 0 + d e)
      by (intros e E; exact (proj2 (proj2 (proj2 (H e E))))).
    set (ef := if h_global h then name_index (segment_names format h) "DOMEfficiency" else Ok 0%nat).
    assert (EF : forall i, ef = Ok i -> forall e, (e < n)%nat -> nth i (nth e rows' []) 0 = nth i (nth e rows []) 0).
    { intros i E e I. assert (i <> 3%nat /\ i <> 4%nat /\ i <> 6%nat) as (N3 & N4 & N6).
      { unfold ef in E. destruct (h_global h); [exact (eff_index format (common h) i E) |]. injection E as <-. lia. }
      apply (H e I); assumption. }
    assert (E5 : forall e, (e < n)%nat -> nth 5 (nth e rows' []) 0 = nth 5 (nth e rows []) 0).
    { intros e I. apply (H e I); lia. }
    clearbody ef. destruct ef as [i |]; [| exact eq_refl]. specialize (EF i eq_refl). cbn [bind].
    destruct (negb (Nat.eqb (h_models h * 4 + n_charge (mode (common h))) (h_filters h))); [exact eq_refl |].
    destruct (Nat.leb (h_models h) 1); [exact eq_refl |].
    destruct (tr && existsb _ rows); [exact eq_refl |].
    destruct (tr && (Nat.eqb n 0 || _)); [exact eq_refl |].
    assert (Q : forall e c, (e < n)%nat ->
      raw_charge rel_eff (common h) (nth e rows' []) (net inputs e c) c (nth i (nth e rows' []) 0)
      = raw_charge rel_eff (common h) (nth e rows []) (net inputs e c) c (nth i (nth e rows []) 0)).
    { intros e c E. unfold raw_charge. rewrite (E5 e E), (EF e E). reflexivity. }
    match goal with |- SameTensors n (if tr && negb (forallb ?f' (seq 0 n)) then _ else _) (if tr && negb (forallb ?f (seq 0 n)) then _ else _) =>
      assert (FF : forallb f' (seq 0 n) = forallb f (seq 0 n)) end.
    { apply forallb_ext_in. intros e E. apply in_seq in E. apply forallb_ext_in. intros c _. rewrite Q by lia. reflexivity. }
    rewrite FF. clear FF. destruct (tr && negb _); [exact eq_refl |].
    match goal with |- SameTensors n (bind (pulse_densities n ?f' _) _) (bind (pulse_densities n ?f _) _) =>
      rewrite (densities_shift d n f f' pulses) end.
    2:{ intros e c t E. cbn beta. rewrite T by exact E. apply density_shift. }
    destruct (pulse_densities _ _ _) as [pdf |]; [| exact eq_refl]. cbn [bind].
    cbn [SameTensors a_comps a_excl a_excl_sum a_charges a_unc a_var a_llh a_pdf].
    split; [intros e c _; reflexivity |]. split; [exact I |]. split; [exact I |].
    split; [intros e c E; cbn beta; rewrite (Q e c E); reflexivity |].
    split; [intros e c E; cbn beta; rewrite (Q e c E); reflexivity |].
    split; [intros e c E; cbn beta; rewrite (Q e c E); reflexivity |].
    split; [| reflexivity].
    destruct (mode (common h)); cbn [AgreesO]; try exact I; intros e c E; cbn beta; rewrite (Q e c E); reflexivity.
  Qed.
End Tensors.
