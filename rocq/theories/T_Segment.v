(** Properties of the source for segments of tracks: distances on the track (C129),
    deposited energies (C130), inputs of the network (C131), which calls are accepted
    (C132), charges and times (C133). *)
From Coq Require Import Reals Lra Lia Psatz.
From Verif Require Import Py PyFacts PyStr RList M_Source S_Source L_Source M_Basis S_Basis M_Noise S_Noise L_Noise
  M_Cascade S_Cascade L_Cascade T_Cascade M_Segment S_Segment L_Segment.
From Verif Require M_Angles S_Angles T_Angles S_Sphere M_Labels.
Open Scope R_scope.

(** ** C129 *)

(** Every distance is moved strictly between the start and the end of the track. *)
Theorem C129_on_track : forall len d, 0 < len -> 0 < shift_on_track len d < len.
Proof. exact shift_range. Qed.

(** The order of points is kept. *)
Theorem C129_order : forall len d1 d2, 0 < len -> (d1 < d2 <-> shift_on_track len d1 < shift_on_track len d2).
Proof.
  intros len d1 d2 L. split; [apply shift_mono, L |]. intros H. destruct (Rlt_le_dec d1 d2) as [A | A]; [exact A |].
  pose proof (shift_le len d2 d1 L A). lra.
Qed.

(** The result is the closest point of the track up to ln 2 (0.69 m), and up to an
    amount that falls off exponentially with the distance from the two ends. *)
Theorem C129_error : forall len d, 0 < len ->
  Rabs (shift_on_track len d - clamp len d) < ln 2 /\
  Rabs (shift_on_track len d - clamp len d) <= exp (- Rmin (Rabs d) (Rabs (d - len))).
Proof. exact shift_error. Qed.

(** Seen from the end of the track the result is the same. *)
Theorem C129_symmetric : forall len d, shift_on_track len (len - d) = len - shift_on_track len d.
Proof. exact shift_symmetric. Qed.

(** A track of negative length extends backwards; one of length zero is a point. *)
Theorem C129_negative : forall len d,
  (len < 0 -> len < shift_on_track len d < 0) /\ (len = 0 -> shift_on_track len d = 0).
Proof.
  intros len d. split; [apply shift_negative |]. intros ->. rewrite shift_eq. replace (d - 0) with d by ring. ring.
Qed.

(** Points of the track do not stay where they are. *)
Theorem C129_fixed_refuted : exists len d, 0 < len /\ 0 <= d <= len /\ shift_on_track len d <> d /\
  shift_on_track len (shift_on_track len d) <> shift_on_track len d.
Proof.
  exists 1, 0. pose proof (shift_range 1 0 ltac:(lra)) as A.
  pose proof (shift_mono 1 0 (shift_on_track 1 0) ltac:(lra) ltac:(lra)). repeat split; lra.
Qed.

(** ** C130 *)

Theorem C130_range : forall e len d1 d2, 0 < len -> 0 < e ->
  0 <= dep_energy e len d1 d2 < e /\ dep_energy e len d1 d2 = dep_energy e len d2 d1 /\
  (d1 <> d2 -> 0 < dep_energy e len d1 d2).
Proof.
  intros e len d1 d2 L E. pose proof (share_range len d1 d2 L) as S. split; [| split].
  - unfold dep_energy. split; [apply Rmult_le_pos; lra |]. nra.
  - apply dep_symmetric.
  - intros N. unfold dep_energy. apply Rmult_lt_0_compat; [exact E |]. apply Rdiv_lt_0_compat; [| exact L].
    apply Rabs_pos_lt. destruct (Rtotal_order d1 d2) as [A | [A | A]]; [| contradiction |].
    + pose proof (shift_mono len _ _ L A). lra.
    + pose proof (shift_mono len _ _ L A). lra.
Qed.

(** The energies of adjacent pieces add up; twice the energy gives twice the
    deposit. *)
Theorem C130_additive : forall e len d1 d2 d3, 0 < len -> d1 <= d2 <= d3 ->
  dep_energy e len d1 d3 = dep_energy e len d1 d2 + dep_energy e len d2 d3.
Proof. intros e len d1 d2 d3 L H. rewrite !dep_mono by lra. field. lra. Qed.

Theorem C130_linear : forall k e len d1 d2, dep_energy (k * e) len d1 d2 = k * dep_energy e len d1 d2.
Proof. intros. unfold dep_energy. ring. Qed.

(** The deposit is the share of the track between the two points, up to twice
    ln 2 (1.4 m) of track. *)
Theorem C130_value : forall e len d1 d2, 0 < len -> 0 <= e -> d1 <= d2 ->
  Rabs (dep_energy e len d1 d2 - e * ((clamp len d2 - clamp len d1) / len)) <= e * (2 * ln 2 / len).
Proof.
  intros e len d1 d2 L E H. rewrite dep_mono by assumption.
  pose proof (shift_error len d1 L) as (A & _). pose proof (shift_error len d2 L) as (B & _).
  replace (_ - _) with (e * (/ len) * ((shift_on_track len d2 - clamp len d2) - (shift_on_track len d1 - clamp len d1))) by (field; lra).
  rewrite !Rabs_mult, (Rabs_right e), (Rabs_right (/ len)).
  - replace (e * (2 * ln 2 / len)) with (e * / len * (2 * ln 2)) by (field; lra). apply Rmult_le_compat_l.
    + apply Rmult_le_pos; [exact E |]. left. apply Rinv_0_lt_compat, L.
    + eapply Rle_trans; [apply Rabs_triang |]. rewrite Rabs_Ropp. lra.
  - apply Rle_ge. left. apply Rinv_0_lt_compat, L.
  - lra.
Qed.

(** Over a range that contains the track, all of the energy but an exponentially
    small part is found. *)
Theorem C130_whole : forall e len d1 d2, 0 < len -> 0 <= e -> d1 <= 0 -> len <= d2 ->
  e * (1 - (exp d1 + exp (len - d2)) / len) <= dep_energy e len d1 d2 <= e.
Proof.
  intros e len d1 d2 L E A B. rewrite dep_mono by lra.
  pose proof (shift_range len d1 L) as R1. pose proof (shift_range len d2 L) as R2.
  assert (S1 : shift_on_track len d1 <= exp d1).
  { rewrite shift_eq. pose proof (softplus_small d1). pose proof (softplus_pos (d1 - len)). lra. }
  assert (S2 : len - shift_on_track len d2 <= exp (len - d2)).
  { rewrite <- shift_symmetric, shift_eq. pose proof (softplus_small (len - d2)). pose proof (softplus_pos (len - d2 - len)). lra. }
  assert (I : 0 < / len) by apply Rinv_0_lt_compat, L. assert (LI : len * / len = 1) by (apply Rinv_r; lra).
  split.
  - apply Rmult_le_compat_l; [exact E |]. unfold Rdiv. nra.
  - rewrite <- (Rmult_1_r e) at 2. apply Rmult_le_compat_l; [exact E |]. unfold Rdiv. nra.
Qed.

(** With a negative length the energies are negative. *)
Theorem C130_negative : forall e len d1 d2, len < 0 -> 0 < e -> - e < dep_energy e len d1 d2 <= 0.
Proof.
  intros e len d1 d2 L E. pose proof (share_negative len d1 d2 L) as S. unfold dep_energy. split; nra.
Qed.

(** The point of closest approach has been moved on the track already when the
    energies next to it are computed, and is moved again: of a track of one metre
    that ends a kilometre before the DOM, a fifth of the energy counts as deposited
    after the closest approach. *)
Theorem C130_twice_refuted : exists len a, 0 < len /\ len + 1000 < a /\
  forall e, 0 < e -> e / 5 < dep_energy e len (shift_on_track len a) (shift_on_track len a + 100).
Proof.
  exists 1, 1002. split; [lra |]. split; [lra |]. intros e E. set (s := shift_on_track 1 1002).
  pose proof (shift_range 1 1002 ltac:(lra)) as S. fold s in S. rewrite dep_mono by lra.
  assert (A : shift_on_track 1 s < 3 / 4).
  { pose proof (shift_mono 1 s 1 ltac:(lra) ltac:(lra)) as M. enough (shift_on_track 1 1 <= 3 / 4) by lra.
    replace 1 with (1 - 0) at 2 by ring. rewrite shift_symmetric. enough (1 / 4 <= shift_on_track 1 0) by lra.
    apply Rnot_lt_le. intros H. apply exp_increasing in H.
    assert (X : exp (shift_on_track 1 0) * (1 + exp (-1)) = 2).
    { rewrite <- softplus_exp. rewrite <- exp_plus, shift_eq. replace (0 - 1) with (-1) by ring.
      replace (softplus 0 - softplus (-1) + softplus (-1)) with (softplus 0) by ring. rewrite softplus_exp, exp_0. ring. }
    assert (EI : exp (-1) * exp 1 = 1) by (rewrite <- exp_plus; replace (-1 + 1) with 0 by ring; apply exp_0).
    pose proof exp_le_3 as E3. assert (E2 : 2 < exp 1) by (pose proof (exp_ineq1 1 ltac:(lra)); lra).
    assert (Q : exp (1 / 4) * exp (1 / 4) * (exp (1 / 4) * exp (1 / 4)) = exp 1).
    { rewrite <- !exp_plus. f_equal. field. }
    pose proof (exp_pos (1 / 4)) as P. pose proof (exp_pos (shift_on_track 1 0)) as P0. pose proof (exp_pos (-1)) as PM.
    assert (M1 : exp (-1) < 1 / 2) by nra.
    assert (B1 : 4 / 3 < exp (1 / 4)) by nra.
    assert (B2 : 16 / 9 < exp (1 / 4) * exp (1 / 4)) by nra.
    assert (B3 : 256 / 81 < exp (1 / 4) * exp (1 / 4) * (exp (1 / 4) * exp (1 / 4))) by nra. lra. }
  assert (B : 99 / 100 < shift_on_track 1 (s + 100)).
  { pose proof (shift_mono 1 100 (s + 100) ltac:(lra) ltac:(lra)) as M. enough (99 / 100 <= shift_on_track 1 100) by lra.
    replace 100 with (1 - - 99) at 2 by ring. rewrite shift_symmetric, shift_eq.
    pose proof (softplus_pos (- 99 - 1)). pose proof (softplus_small (- 99)) as X.
    assert (exp (- 99) * exp 99 = 1) by (rewrite <- exp_plus; replace (- 99 + 99) with 0 by ring; apply exp_0).
    pose proof (exp_ineq1 99 ltac:(lra)). pose proof (exp_pos (- 99)). nra. }
  replace (e / 5) with (e * (1 / 5)) by field. apply Rmult_lt_compat_l; [exact E |]. lra.
Qed.

(** ** C131 *)

Section Inputs.
  Variable format : string -> nat -> string.
  Variable trafo : nat -> R -> R.
  Variables mean std : nat -> R.
  Variable norm_const : R.
  Variable coords : cell -> R * R * R.
  Variable local_vars : cell -> list R.

  Notation sinput := (segment_input trafo mean std norm_const coords local_vars).

  Lemma dep_above e len d1 d2 : len <> 0 -> 0 <= e -> 0 < len \/ e < 1 -> 0 < 1 + dep_energy e len d1 d2.
  Proof.
    intros N E H. unfold dep_energy. destruct (Rtotal_order len 0) as [A | [A | A]]; [| contradiction |].
    - pose proof (share_negative len d1 d2 A). destruct H as [H | H]; [lra |]. nra.
    - pose proof (share_range len d1 d2 A). nra.
  Qed.

  Lemma energy_fin len e : len <> 0 -> 0 < 1 + e ->
    energy_trafo mean std norm_const len e = Fin ((ln (1 + e) - mean 5) / (std 5 + norm_const)).
  Proof.
    intros N P. unfold energy_trafo, elog. destruct (Reqb len 0) eqn:Z; [apply Reqb_true in Z; contradiction |].
    rewrite (proj2 (Rltb_true 0 (1 + e)) P). cbn [eadd escale]. f_equal. unfold Rdiv. ring.
  Qed.

  Lemma ediv_fin x len : len <> 0 -> ediv x len = Fin (x / len).
  Proof. intros N. unfold ediv. destruct (Reqb len 0) eqn:Z; [apply Reqb_true in Z; contradiction | reflexivity]. Qed.

  (** What the network is given for a DOM: the flight direction; the transformed
      parameters without vertex, angles and time; and where the track passes.  [a]
      is the closest point of the infinite line, [s] that of the track up to ln 2
      (so the distance is right up to ln 2), [k] the point of which Cherenkov light
      reaches the DOM. *)
  Theorem C131_input h row c : let len := nth 7 row 0 + 1 in let e := nth 5 row 0 + 1 / 10 in
    let v := vertex row in let u := flight row in let p := coords c in
    let size := sqrt (std 0 ^ 2 + std 1 ^ 2 + std 2 ^ 2) + norm_const in
    let en x := (ln (1 + x) - mean 5) / (std 5 + norm_const) in
    0 < len -> 0 <= e ->
    exists a s k n d o,
      Foot p v u a /\ 0 < s < len /\ Rabs (s - clamp len a) < ln 2 /\ CherenkovFrom p v u k /\
      d = away p (along v u s) /\ (forall d0, TrackDistance p v u len d0 -> d0 <= d <= d0 + ln 2) /\
      scale (d + 1 / 10) n = minus p (along v u s) /\
      (0 < d -> o = S_Angles.angle_between u (minus p (along v u s))) /\
      sinput h row c = map Fin
        ([fst (fst u); snd (fst u); snd u; trafo 5%nat (nth 5 row 0)]
         ++ map (fun i => trafo i (nth i row 0)) (seq 7 (length row - 7))
         ++ [fst (fst n); snd (fst n); snd n; (d + 1 / 10) / size; (a - s) / size;
             en (dep_energy e len (s - 100) s); en (dep_energy e len s (s + 100)); en (dep_energy e len k a);
             s / len; tanh (a / len / 10)]
         ++ (if h_opening h then [(o - mean 3) / (norm_const + std 3)] else [])
         ++ (if h_coordinates h then [fst (fst p) / 284; snd (fst p) / 284; snd p / 284] else [])
         ++ local_vars c).
  Proof.
    intros len e v u p size en L E. assert (LN : len <> 0) by lra.
    pose proof (flight_unit row) as U. fold u in U. pose proof (foot_exists p v u U) as F.
    set (a := dot u (minus p v)) in *. set (s := shift_on_track len a).
    pose proof (shift_range len a L) as RS. fold s in RS. pose proof (shift_error len a L) as (SE & _). fold s in SE.
    set (d := away p (along v u s)). assert (D0 : 0 <= d) by apply sqrt_pos.
    exists a, s, (a - away p (along v u a) / tan (acos (1 / (13195 / 10000)))), (scale (/ (d + 1 / 10)) (minus p (along v u s))), d,
      (M_Angles.get_angle u (scale (/ (d + 1 / 10)) (minus p (along v u s)))).
    split; [exact F |]. split; [exact RS |]. split; [exact SE |]. split; [exact (cherenkov_from p v u a U F) |].
    split; [reflexivity |].
    split. { intros d0 T. pose proof (track_distance p v u a len s d0 U F L ltac:(lra) T). unfold d. lra. }
    split. { destruct (minus p (along v u s)) as [[x y] z]. cbn [scale]. f_equal; [f_equal |]; field; lra. }
    split.
    { intros DP. assert (NU : u <> (0, 0, 0)). { intros Z. rewrite Z in U. unfold norm2, dot in U. lra. }
      assert (NM : minus p (along v u s) <> (0, 0, 0)).
      { intros Z. unfold d, away in DP. rewrite Z in DP. unfold norm2, dot in DP. replace (0 * 0 + 0 * 0 + 0 * 0) with 0 in DP by ring. rewrite sqrt_0 in DP. lra. }
      assert (I : 0 < / (d + 1 / 10)) by (apply Rinv_0_lt_compat; lra).
      rewrite <- T_Angles.C95_angle by assumption.
      destruct (T_Angles.C95_invariant (minus p (along v u s)) u (/ (d + 1 / 10)) 1 NM NU I Rlt_0_1) as (Q & _).
      destruct (T_Angles.C95_invariant (scale (/ (d + 1 / 10)) (minus p (along v u s))) u 1 1) as (Q' & _); [| exact NU | lra | lra |].
      { intros Z. apply NM. destruct (minus p (along v u s)) as [[x y] z]. cbn [scale] in Z. injection Z as Zx Zy Zz.
        f_equal; [f_equal |]; apply (Rmult_eq_reg_l (/ (d + 1 / 10))); lra. }
      assert (S1 : forall q : point, S_Sphere.scale 1 q = q).
      { intros [[x y] z]. cbn. f_equal; [f_equal |]; ring. }
      rewrite !S1 in *. rewrite <- Q'. exact Q. }
    unfold segment_input. pose proof (flight_direction row) as FD. fold u in FD. rewrite <- FD. clear FD.
    change (nth 7 row 0 + 1) with len. change (nth 5 row 0 + 1 / 10) with e. fold p.
    clearbody e len. clear U F SE RS. destruct p as [[x y] z]. destruct u as [[ux uy] uz].
    change (ux * (x - nth 0 row 0) + uy * (y - nth 1 row 0) + uz * (z - nth 2 row 0)) with a.
    change (shift_on_track len a) with s. cbv zeta.
    assert (AW : forall t, sqrt ((x - (nth 0 row 0 + t * ux)) ^ 2 + (y - (nth 1 row 0 + t * uy)) ^ 2 + (z - (nth 2 row 0 + t * uz)) ^ 2)
      = away (x, y, z) (along v (ux, uy, uz) t)).
    { intros t. unfold away, norm2, dot, minus, along, v, vertex. f_equal. ring. }
    rewrite !AW. change (away (x, y, z) (along v (ux, uy, uz) s)) with d.
    rewrite !energy_fin by (first [exact LN | apply dep_above; [exact LN | exact E | left; exact L]]).
    rewrite !ediv_fin by exact LN. cbn [escale tanh_ext].
    rewrite !map_app. cbn [map app]. rewrite map_map.
    assert (SC : forall q, q / (d + 1 / 10) = / (d + 1 / 10) * q) by (intros; unfold Rdiv; ring).
    rewrite !SC. replace (1 / 10 * (a / len)) with (a / len / 10) by (field; exact LN).
    destruct (h_opening h), (h_coordinates h); cbn [map app]; rewrite <- ?app_assoc; cbn [app]; reflexivity.
  Qed.

  (** The position of the track enters only relative to the DOM; the time does not
      enter. *)
  Theorem C131_translation h row row' c c' : h_coordinates h = false -> local_vars c' = local_vars c ->
    length row' = length row -> minus (coords c') (vertex row') = minus (coords c) (vertex row) ->
    (forall i, (3 <= i)%nat -> i <> 6%nat -> nth i row' 0 = nth i row 0) ->
    sinput h row' c' = sinput h row c.
  Proof.
    intros HC LV L M H. unfold segment_input. rewrite HC, LV, L.
    destruct (coords c) as [[x y] z], (coords c') as [[x' y'] z']. cbn [minus vertex] in M. injection M as Mx My Mz.
    rewrite (H 3%nat), (H 4%nat), (H 5%nat), (H 7%nat) by lia.
    destruct (direction (nth 3 row 0) (nth 4 row 0)) as [[ux uy] uz]. cbv zeta.
    assert (R : forall t w, x' - (nth 0 row' 0 + t * w) = x - (nth 0 row 0 + t * w) /\ y' - (nth 1 row' 0 + t * w) = y - (nth 1 row 0 + t * w) /\
      z' - (nth 2 row' 0 + t * w) = z - (nth 2 row 0 + t * w)) by (intros; repeat split; lra).
    rewrite Mx, My, Mz.
    rewrite !(fun t => proj1 (R t ux)), !(fun t => proj1 (proj2 (R t uy))), !(fun t => proj2 (proj2 (R t uz))).
    rewrite (map_ext_in (fun i => trafo i (nth i row' 0)) (fun i => trafo i (nth i row 0)) (seq 7 (length row - 7))); [reflexivity |].
    intros i I. apply in_seq in I. rewrite H by lia. reflexivity.
  Qed.

  (** All inputs are numbers if the length is positive, or below it if the energy is
      small; with a length of zero some are not. *)
  Lemma inputs_finite h row c x : nth 7 row 0 + 1 <> 0 -> 0 <= nth 5 row 0 + 1 / 10 ->
    0 < nth 7 row 0 + 1 \/ nth 5 row 0 + 1 / 10 < 1 -> In x (sinput h row c) -> is_finite x = true.
  Proof.
    intros N E H. unfold segment_input. destruct (coords c) as [[cx cy] cz].
    destruct (direction (nth 3 row 0) (nth 4 row 0)) as [[ux uy] uz]. cbv zeta.
    rewrite !energy_fin by (first [exact N | apply dep_above; assumption]). rewrite !ediv_fin by exact N. cbn [escale tanh_ext].
    assert (MF : forall l x, In x (map Fin l) -> is_finite x = true).
    { intros l y I. apply in_map_iff in I. destruct I as (z & <- & _). reflexivity. }
    rewrite !in_app_iff. intros [I | [I | [I | [I | I]]]].
    - exact (MF _ _ I).
    - cbn [In] in I. repeat (destruct I as [<- | I]; [reflexivity |]). destruct I.
    - destruct (h_opening h); cbn [In] in I; [destruct I as [<- | []]; reflexivity | destruct I].
    - destruct (h_coordinates h); cbn [In] in I; [| destruct I]. repeat (destruct I as [<- | I]; [reflexivity |]). destruct I.
    - exact (MF _ _ I).
  Qed.

  Theorem C131_zero_length h row c : nth 7 row 0 = -1 -> exists i, nth_error (sinput h row c) i = Some NaN.
  Proof.
    intros Z. unfold segment_input. rewrite Z. replace (-1 + 1) with 0 by ring. destruct (coords c) as [[x y] z].
    destruct (direction (nth 3 row 0) (nth 4 row 0)) as [[ux uy] uz]. cbv zeta.
    match goal with |- exists i, nth_error (map Fin ?l ++ _) i = _ => exists (length l + 5)%nat; rewrite nth_error_app2; rewrite map_length end; [| lia].
    rewrite Nat.add_comm, Nat.add_sub. cbn [app nth_error]. unfold energy_trafo.
    replace (Reqb 0 0) with true by (symmetry; apply Reqb_true; reflexivity). reflexivity.
  Qed.

  (** What is left of the position along a track of length zero: whether the DOM is
      ahead of the vertex or behind it. *)
  Theorem C131_zero_position h row c : nth 7 row 0 = -1 ->
    exists a k, Foot (coords c) (vertex row) (flight row) a /\ k = (4 + (length row - 7))%nat /\
      nth_error (sinput h row c) (k + 5) = Some NaN /\ nth_error (sinput h row c) (k + 6) = Some NaN /\
      nth_error (sinput h row c) (k + 7) = Some NaN /\ nth_error (sinput h row c) (k + 8) = Some NaN /\
      (0 < a -> nth_error (sinput h row c) (k + 9) = Some (Fin 1)) /\
      (a < 0 -> nth_error (sinput h row c) (k + 9) = Some (Fin (-1))) /\
      (a = 0 -> nth_error (sinput h row c) (k + 9) = Some NaN).
  Proof.
    intros Z. pose proof (flight_unit row) as U. pose proof (foot_exists (coords c) (vertex row) (flight row) U) as F.
    exists (dot (flight row) (minus (coords c) (vertex row))), (4 + (length row - 7))%nat. split; [exact F |].
    split; [reflexivity |]. clear U F. pose proof (flight_direction row) as FD.
    unfold segment_input. rewrite <- FD. clear FD. rewrite Z. replace (-1 + 1) with 0 by ring.
    destruct (coords c) as [[x y] z]. destruct (flight row) as [[ux uy] uz].
    change (ux * (x - nth 0 row 0) + uy * (y - nth 1 row 0) + uz * (z - nth 2 row 0))
      with (dot (ux, uy, uz) (minus (x, y, z) (vertex row))).
    set (a := dot _ _). clearbody a. cbv zeta.
    assert (N : forall m l l' j, length l = m -> nth_error (map Fin l ++ l') (m + j) = nth_error l' j).
    { intros m l l' j L. rewrite nth_error_app2; rewrite map_length, L; [| lia]. f_equal. lia. }
    rewrite !N by (rewrite app_length, map_length, seq_length; reflexivity). cbn [app nth_error]. unfold energy_trafo, ediv.
    replace (Reqb 0 0) with true by (symmetry; apply Reqb_true; reflexivity).
    rewrite !shift_eq. replace (a - 0) with a by ring. replace (softplus a - softplus a) with 0 by ring.
    assert (R0 : forall q, ~ 0 < q -> Rltb 0 q = false).
    { intros q H. destruct (Rltb 0 q) eqn:E; [apply Rltb_true in E; contradiction | reflexivity]. }
    assert (R1 : forall q, ~ q < 0 -> Rltb q 0 = false).
    { intros q H. destruct (Rltb q 0) eqn:E; [apply Rltb_true in E; contradiction | reflexivity]. }
    rewrite (R0 0) by lra. repeat split; try reflexivity; intros H.
    - rewrite (proj2 (Rltb_true 0 a) H). cbn [escale]. try (replace (Rltb 0 (1 / 10)) with true by (symmetry; apply Rltb_true; lra)). reflexivity.
    - rewrite (R0 a), (proj2 (Rltb_true a 0) H) by lra. cbn [escale]. try (replace (Rltb 0 (1 / 10)) with true by (symmetry; apply Rltb_true; lra)). reflexivity.
    - rewrite (R0 a), (R1 a) by lra. reflexivity.
  Qed.
End Inputs.

Section Source.
  Variable format : string -> nat -> string.
  Variable trafo : nat -> R -> R.
  Variables mean std : nat -> R.
  Variable norm_const : R.
  Variable coords : cell -> R * R * R.
  Variable local_vars : cell -> list R.
  Variable lgamma : R -> R.
  Variable rel_eff : cell -> R.
  Variable net : list (list (list ext)) -> nat -> cell -> list R.

  Notation seg := (segment_get_tensors format trafo mean std norm_const coords local_vars lgamma rel_eff net).
  Notation sinput := (segment_input trafo mean std norm_const coords local_vars).
  Notation out h rows := (net (map (segment_event trafo mean std norm_const coords local_vars h) rows)).

  (** ** C132 *)

  (** The settings fit together, and the batch has the documented columns. *)
  Definition Fits h (trafo_log : option (list bool)) (rows : list (list R)) : Prop :=
    (forall c, length (local_vars c) = h_local h) /\
    Forall (fun row => length row = segment_parameters h) rows /\
    (exists l, trafo_log = Some l /\ nth_error l 5 = Some true) /\
    (4 * h_models h + n_charge (mode (common h)) = h_filters h)%nat /\ (1 < h_models h)%nat /\
    (h_global h = true -> In "DOMEfficiency"%string (segment_names format h)).

  Lemma fits_eff h : (h_global h = true -> In "DOMEfficiency"%string (segment_names format h)) ->
    exists i, (if h_global h then name_index (segment_names format h) "DOMEfficiency" else Ok 0%nat) = Ok i /\
      (h_global h = true -> nth_error (segment_names format h) i = Some "DOMEfficiency"%string).
  Proof.
    intros EFF. destruct (h_global h); [| exists 0%nat; split; [reflexivity | discriminate]]. specialize (EFF eq_refl).
    destruct (fold_dset_some (combine (segment_names format h) (seq 0 (length (segment_names format h)))) [] "DOMEfficiency"%string) as (i & E).
    - left. rewrite map_fst_combine by apply seq_length. exact EFF.
    - exists i. assert (N : name_index (segment_names format h) "DOMEfficiency" = Ok i) by (apply lookup_ok; exact E).
      split; [exact N |]. intros _. apply name_index_nth. exact N.
  Qed.

  Theorem C132_accepted h trafo_log rows charges pulses : Fits h trafo_log rows -> ValidPulses (length rows) pulses ->
    exists r, seg h trafo_log false rows charges pulses = Ok r /\ length (a_pdf r) = length pulses.
  Proof.
    intros (V & SH & LOG & LAY & NM & EFF) VP. destruct (fits_eff h EFF) as (i & E & _).
    apply (seg_shape trafo mean std norm_const coords local_vars h rows V) in SH. destruct SH as (A & B).
    assert (Z : Checked format trafo mean std norm_const coords local_vars lgamma rel_eff net h trafo_log false rows charges i).
    { constructor; try assumption; try discriminate. lia. }
    rewrite (seg_run _ _ _ _ _ _ _ _ _ _ _ _ _ _ _ _ _ Z). unfold seg_rest. rewrite densities_ok by exact VP. cbn [bind].
    eexists. split; [reflexivity |]. cbn [a_pdf]. apply map_length.
  Qed.

  Lemma elu_above x : -1 < elu x.
  Proof. unfold elu. destruct (Rltb x 0) eqn:E; [pose proof (exp_pos x); lra |]. apply Rltb_false in E. lra. Qed.

  Lemma terms_finite h o q t : 0 < q -> finite_terms (common h) q t (charge_terms lgamma (common h) o q t) = true.
  Proof.
    intros Q. unfold finite_terms, charge_terms. destruct (mode (common h)).
    - cbn [fst snd]. apply andb_true_iff. split.
      + apply orb_true_iff. right. apply Rleb_true. lra.
      + destruct (Rltb 5 t).
        * assert (P : 0 < asymmetric_gauss t q (sqrt (Rmax q (1 / 10000)) * sigma_scale (nth 1 o 0)) (charge_r (nth 2 o 0)) + 1 / 10000000).
          { assert (0 <= asymmetric_gauss t q (sqrt (Rmax q (1 / 10000)) * sigma_scale (nth 1 o 0)) (charge_r (nth 2 o 0))); [| lra].
            assert (S : 0 < sqrt (Rmax q (1 / 10000)) * sigma_scale (nth 1 o 0)).
            { apply Rmult_lt_0_compat; [apply sqrt_lt_R0; pose proof (Rmax_l q (1 / 10000)); lra |]. unfold sigma_scale. pose proof (elu_above (1 / 10 * nth 1 o 0 - 2)). lra. }
            assert (RR : 0 < charge_r (nth 2 o 0)) by (unfold charge_r; pose proof (elu_above (1 / 100 * nth 2 o 0 - 2)); lra).
            left. exact (proj1 (T_Basis.C59_density _ _ _ _ S RR)). }
          unfold elog. rewrite (proj2 (Rltb_true _ _) P). reflexivity.
        * unfold elog. rewrite (proj2 (Rltb_true 0 (q + 1 / 10000000))) by lra. reflexivity.
    - cbn [fst snd]. assert (A : 0 < charge_alpha (nth 1 o 0)) by (unfold charge_alpha; pose proof (elu_above (nth 1 o 0 - 5)); lra).
      pose proof (Rmult_lt_0_compat _ _ A Q) as AQ. apply andb_true_iff. split.
      + apply Rleb_true. nra.
      + unfold log_negative_binomial, elog. rewrite (proj2 (Rltb_true 0 (1 + charge_alpha (nth 1 o 0) * q))) by lra.
        rewrite (proj2 (Rltb_true 0 (charge_alpha (nth 1 o 0) * q / (1 + charge_alpha (nth 1 o 0) * q)))) by (apply Rdiv_lt_0_compat; lra).
        reflexivity.
    - cbn [fst snd]. rewrite andb_true_r. apply Rleb_true. lra.
  Qed.

  (** Parameters and efficiencies are not negative. *)
  Definition Sound h (row : list R) : Prop :=
    0 <= nth 5 row 0 /\ forall i, nth_error (segment_names format h) i = Some "DOMEfficiency"%string -> 0 <= nth i row 0.

  Lemma training_ok h trafo_log rows charges pulses : Fits h trafo_log rows -> ValidPulses (length rows) pulses -> rows <> [] ->
    Forall (fun row => Sound h row /\ - 1000 <= nth 7 row 0 /\ nth 7 row 0 <> -1 /\ (-1 < nth 7 row 0 \/ nth 5 row 0 < 9 / 10)) rows ->
    (forall c, 0 <= rel_eff c) ->
    exists r, seg h trafo_log true rows charges pulses = Ok r /\ length (a_pdf r) = length pulses.
  Proof.
    intros (V & SH & LOG & LAY & NM & EFF) VP NE SO RE. destruct (fits_eff h EFF) as (i & E & EN).
    apply (seg_shape trafo mean std norm_const coords local_vars h rows V) in SH. destruct SH as (A & B).
    assert (Z : Checked format trafo mean std norm_const coords local_vars lgamma rel_eff net h trafo_log true rows charges i).
    { constructor; try assumption; try lia; intros _.
      - eapply Forall_impl; [| exact SO]. cbn beta. intros row ((S5 & _) & S7 & _). lra.
      - exact NE.
      - intros row c v I C. rewrite Forall_forall in SO. destruct (SO row I) as ((S5 & _) & S7 & S8 & S9).
        apply inputs_finite; [lra | lra |]. destruct S9; [left | right]; lra.
      - intros e c EL C. apply terms_finite. unfold seg_q, raw_charge.
        rewrite Forall_forall in SO. destruct (SO (nth e rows []) (nth_In _ _ EL)) as ((S5 & SE) & _).
        match goal with |- 0 < ?x + _ => assert (0 <= x); [| lra] end.
        pose proof (exp_pos (nth 0 (out h rows e c) 0)) as X. specialize (RE c).
        assert (S : 0 <= nth 5 (nth e rows []) 0 / 10000) by lra.
        change (g_scale (common h)) with (h_scale h). change (g_relative (common h)) with (h_relative h). change (g_global (common h)) with (h_global h).
        assert (G : 0 <= if h_global h then nth i (nth e rows []) 0 else 1).
        { destruct (h_global h); [| lra]. apply SE. apply EN. reflexivity. }
        destruct (h_scale h), (h_relative h), (h_global h); repeat apply Rmult_le_pos; lra. }
    rewrite (seg_run _ _ _ _ _ _ _ _ _ _ _ _ _ _ _ _ _ Z). unfold seg_rest. rewrite densities_ok by exact VP. cbn [bind].
    eexists. split; [reflexivity |]. cbn [a_pdf]. apply map_length.
  Qed.

  (** In training also if energies, lengths and efficiencies are not negative. *)
  Theorem C132_training h trafo_log rows charges pulses : Fits h trafo_log rows -> ValidPulses (length rows) pulses -> rows <> [] ->
    Forall (fun row => Sound h row /\ 0 <= nth 7 row 0) rows -> (forall c, 0 <= rel_eff c) ->
    exists r, seg h trafo_log true rows charges pulses = Ok r /\ length (a_pdf r) = length pulses.
  Proof.
    intros F VP NE SO RE. apply training_ok; try assumption. eapply Forall_impl; [| exact SO]. cbn beta. intros row (S & L).
    split; [exact S |]. split; [lra |]. split; [lra |]. left. lra.
  Qed.

  (** With the asymmetric Gaussian, DOMs with more than five photo electrons pass whatever charge the network expects, and those with fewer
      only if it is positive. *)
  Theorem C132_charge_assertion h trafo_log rows charges pulses r : Fits h trafo_log rows -> ValidPulses (length rows) pulses -> rows <> [] ->
    mode (common h) = Asymmetric -> Forall (fun row => - (1 / 1000) <= nth 5 row 0 /\ 0 <= nth 7 row 0) rows ->
    seg h trafo_log false rows charges pulses = Ok r ->
    (exists r', seg h trafo_log true rows charges pulses = Ok r') <->
    (forall e c, (e < length rows)%nat -> InDetector c -> 5 < charges e c \/ 0 < a_charges r e c + 1 / 10000000).
  Proof.
    intros (V & SH & LOG & LAY & NM & EFF) VP NE MO SO G0. destruct (seg_inv _ _ _ _ _ _ _ _ _ _ _ _ _ _ _ _ _ G0) as (i & Z0 & RS).
    assert (Q : forall e c, a_charges r e c = seg_q trafo mean std norm_const coords local_vars rel_eff net h rows i e c).
    { unfold seg_rest in RS. apply bind_ok in RS. destruct RS as (pdf & _ & RS). injection RS as <-. reflexivity. }
    assert (T : forall q t o, finite_terms (common h) q t (charge_terms lgamma (common h) o q t) = true <-> 5 < t \/ 0 < q + 1 / 10000000).
    { intros q t o. unfold finite_terms, charge_terms. rewrite MO. cbn [fst snd]. rewrite andb_true_iff, orb_true_iff. destruct (Rltb 5 t) eqn:L.
      - apply Rltb_true in L. split; [intros _; left; exact L |]. intros _. split; [left; reflexivity |].
        assert (P : 0 < asymmetric_gauss t q (sqrt (Rmax q (1 / 10000)) * sigma_scale (nth 1 o 0)) (charge_r (nth 2 o 0)) + 1 / 10000000).
        { assert (0 <= asymmetric_gauss t q (sqrt (Rmax q (1 / 10000)) * sigma_scale (nth 1 o 0)) (charge_r (nth 2 o 0))); [| lra].
          assert (S : 0 < sqrt (Rmax q (1 / 10000)) * sigma_scale (nth 1 o 0)).
          { apply Rmult_lt_0_compat; [apply sqrt_lt_R0; pose proof (Rmax_r q (1 / 10000)); lra |]. unfold sigma_scale. pose proof (elu_above (1 / 10 * nth 1 o 0 - 2)). lra. }
          assert (RR : 0 < charge_r (nth 2 o 0)) by (unfold charge_r; pose proof (elu_above (1 / 100 * nth 2 o 0 - 2)); lra).
          left. exact (proj1 (T_Basis.C59_density _ _ _ _ S RR)). }
        unfold elog. rewrite (proj2 (Rltb_true _ _) P). reflexivity.
      - apply Rltb_false in L. unfold elog. destruct (Rltb 0 (q + 1 / 10000000)) eqn:P.
        + apply Rltb_true in P. split; [intros _; right; exact P |]. intros _. split; [right; apply Rleb_true; lra | reflexivity].
        + apply Rltb_false in P. split; [| intros [H | H]; lra]. intros (_ & F). exfalso. revert F.
          destruct (Reqb _ 0); cbn; [| discriminate]. destruct (Rltb 0 t); [discriminate |]. destruct (Rltb t 0); discriminate. }
    split.
    - intros (r' & G) e c He Hc. destruct (seg_inv _ _ _ _ _ _ _ _ _ _ _ _ _ _ _ _ _ G) as (j & Z & _).
      assert (j = i) by (pose proof (z_eff _ _ _ _ _ _ _ _ _ _ _ _ _ _ _ _ Z) as E1; pose proof (z_eff _ _ _ _ _ _ _ _ _ _ _ _ _ _ _ _ Z0) as E2; congruence). subst j.
      rewrite Q. exact (proj1 (T _ _ _) (z_terms _ _ _ _ _ _ _ _ _ _ _ _ _ _ _ _ Z eq_refl e c He (proj2 (cells_in c) Hc))).
    - intros H. assert (Z : Checked format trafo mean std norm_const coords local_vars lgamma rel_eff net h trafo_log true rows charges i).
      { destruct Z0. constructor; try assumption; intros _.
        - eapply Forall_impl; [| exact SO]. cbn beta. intros row (S5 & S7). lra.
        - exact NE.
        - intros row c v I C. rewrite Forall_forall in SO. destruct (SO row I) as (S5 & S7). apply inputs_finite; [lra | lra |]. left. lra.
        - intros e c He Hc. apply T. rewrite <- Q. apply H; [exact He | apply cells_in, Hc]. }
      rewrite (seg_run _ _ _ _ _ _ _ _ _ _ _ _ _ _ _ _ _ Z). exists r. exact RS.
  Qed.

  (** The assertion that is meant to ensure positive lengths lets negative lengths
      through, down to minus a kilometre. *)
  Theorem C132_negative_length_refuted h trafo_log rows charges pulses : Fits h trafo_log rows -> ValidPulses (length rows) pulses -> rows <> [] ->
    Forall (fun row => Sound h row /\ nth 5 row 0 < 9 / 10 /\ - 1000 <= nth 7 row 0 < -1) rows -> (forall c, 0 <= rel_eff c) ->
    exists r, seg h trafo_log true rows charges pulses = Ok r.
  Proof.
    intros F VP NE SO RE. destruct (training_ok h trafo_log rows charges pulses F VP NE) as (r & G & _); [| exact RE | exists r; exact G].
    eapply Forall_impl; [| exact SO]. cbn beta. intros row (S & L5 & L).
    split; [exact S |]. split; [lra |]. split; [lra |]. right. lra.
  Qed.

  (** What a result of training says about the batch *)
  Theorem C132_asserted h trafo_log rows charges pulses r : seg h trafo_log true rows charges pulses = Ok r ->
    rows <> [] /\ Forall (fun row => - (1 / 1000) <= nth 5 row 0 /\ - 1000 <= nth 7 row 0 /\ nth 7 row 0 <> -1) rows /\
    (forall row c x, In row rows -> InDetector c -> In x (sinput h row c) -> exists y, x = Fin y) /\
    (forall e c, (e < length rows)%nat -> InDetector c ->
       match a_llh r with Some f => exists y, f e c = Fin y | None => 0 <= a_charges r e c end).
  Proof.
    intros G. destruct (seg_inv _ _ _ _ _ _ _ _ _ _ _ _ _ _ _ _ _ G) as (i & Z & RS).
    assert (FI : forall row c x, In row rows -> InDetector c -> In x (sinput h row c) -> exists y, x = Fin y).
    { intros row c x I C X. apply cells_in in C. pose proof (z_finite _ _ _ _ _ _ _ _ _ _ _ _ _ _ _ _ Z eq_refl row c x I C X) as F.
      destruct x as [y | | |]; try discriminate F. exists y. reflexivity. }
    split; [exact (z_some _ _ _ _ _ _ _ _ _ _ _ _ _ _ _ _ Z eq_refl) |]. split; [| split].
    - pose proof (z_params _ _ _ _ _ _ _ _ _ _ _ _ _ _ _ _ Z eq_refl) as P. rewrite Forall_forall in P |- *. intros row I.
      destruct (P row I) as (P1 & P2). split; [exact P1 |]. split; [exact P2 |]. intros N.
      destruct (C131_zero_length trafo mean std norm_const coords local_vars h row (0, 0)%nat N) as (j & J).
      destruct (FI row (0, 0)%nat NaN I) as (y & Y); [split; cbn; lia | eapply nth_error_In; exact J | discriminate Y].
    - exact FI.
    - intros e c E C. apply cells_in in C. pose proof (z_terms _ _ _ _ _ _ _ _ _ _ _ _ _ _ _ _ Z eq_refl e c E C) as T.
      unfold seg_rest in RS. apply bind_ok in RS. destruct RS as (pdf & _ & RS). injection RS as <-. cbn [a_llh a_charges].
      unfold finite_terms in T. destruct (mode (common h)) eqn:MO.
      + apply andb_true_iff in T. destruct T as (_ & T). destruct (snd _) as [[y | | |] |] eqn:SN; try discriminate T; [exists y; reflexivity |].
        unfold charge_terms in SN. rewrite MO in SN. discriminate SN.
      + apply andb_true_iff in T. destruct T as (_ & T). destruct (snd _) as [[y | | |] |] eqn:SN; try discriminate T; [exists y; reflexivity |].
        unfold charge_terms in SN. rewrite MO in SN. discriminate SN.
      + apply andb_true_iff in T. destruct T as (T & _). apply Rleb_true in T. exact T.
  Qed.

  (** Energies or lengths below the bounds of the assertions, and empty batches, are
      rejected in training. *)
  Theorem C132_training_rejected h trafo_log rows charges pulses : Fits h trafo_log rows ->
    rows = [] \/ (exists row, In row rows /\ (nth 5 row 0 < - (1 / 1000) \/ nth 7 row 0 < - 1000 \/ nth 7 row 0 = -1)) ->
    seg h trafo_log true rows charges pulses = Err AssertionError.
  Proof.
    intros (V & SH & (l & -> & LOG) & LAY & NM & EFF) H. destruct (fits_eff h EFF) as (i & E & _).
    apply (seg_shape trafo mean std norm_const coords local_vars h rows V) in SH. destruct SH as (A & B).
    cbv beta delta [segment_get_tensors]. cbv zeta. rewrite A, LOG. cbn [bind]. rewrite B, E. cbn [bind].
    replace (h_models h * 4 + n_charge (mode (common h)))%nat with (h_filters h) by lia. rewrite Nat.eqb_refl. cbv beta iota delta [negb].
    destruct (Nat.leb_spec (h_models h) 1); [lia |]. cbv beta iota delta [andb].
    match goal with |- (if ?x then _ else _) = _ => destruct x eqn:PE end; [reflexivity |].
    match goal with |- (if ?x then _ else _) = _ => destruct x eqn:FE end; [reflexivity |]. exfalso. destruct H as [-> | (row & I & H)]; [discriminate FE |].
    apply params_ok in PE. rewrite Forall_forall in PE. specialize (PE row I). destruct H as [H | [H | H]]; [lra | lra |].
    apply orb_false_iff in FE. destruct FE as (_ & FE).
    match type of FE with (if ?b then false else true) = false => destruct b eqn:FB; [| discriminate FE] end.
    pose proof (proj1 (finite_inputs trafo mean std norm_const coords local_vars h rows) FB) as F.
    destruct (C131_zero_length trafo mean std norm_const coords local_vars h row (0, 0)%nat H) as (j & J).
    specialize (F row (0, 0)%nat NaN I). discriminate F; [apply cells_in; split; cbn; lia | eapply nth_error_In; exact J].
  Qed.

  Theorem C132_names h : length (segment_names format h) = segment_parameters h /\
    (forall i name, In (i, name) [(0, "x"); (1, "y"); (2, "z"); (3, "zenith"); (4, "azimuth"); (5, "energy"); (6, "time");
                                  (7, "length"); (8, "stochasticity")]%nat%string ->
       nth_error (segment_names format h) i = Some name) /\
    (forall i label, In (i, label) [(0, "track_anchor_x"); (1, "track_anchor_y"); (2, "track_anchor_z"); (3, "zenith"); (4, "azimuth");
                                    (5, "track_energy"); (6, "track_anchor_time"); (7, "track_distance_end"); (8, "track_stochasticity")]%nat%string ->
       nth_error M_Labels.segment_labels i = Some label).
  Proof.
    split; [exact (names_length format (common h)) |]. split.
    - intros i name I. cbn in I. repeat (destruct I as [[= <- <-] | I]; [reflexivity |]). destruct I.
    - intros i name I. cbn in I. repeat (destruct I as [[= <- <-] | I]; [reflexivity |]). destruct I.
  Qed.

  (** Other numbers of columns are rejected. *)
  Theorem C132_rejected h trafo_log is_training rows charges pulses row :
    (forall c, length (local_vars c) = h_local h) -> (exists l, trafo_log = Some l /\ nth_error l 5 = Some true) ->
    In row rows -> length row <> segment_parameters h ->
    seg h trafo_log is_training rows charges pulses = Err IndexError \/ seg h trafo_log is_training rows charges pulses = Err ValueError.
  Proof.
    intros V (l & -> & LOG) I N. cbv beta delta [segment_get_tensors]. cbv zeta.
    destruct (existsb (fun row => Nat.ltb (length row) 9) rows) eqn:A; [left; reflexivity |]. right. rewrite LOG. cbn [bind].
    destruct (existsb _ (map _ rows)) eqn:B; [reflexivity |]. exfalso. apply N.
    pose proof (proj2 (seg_shape trafo mean std norm_const coords local_vars h rows V) (conj A B)) as F.
    rewrite Forall_forall in F. exact (F row I).
  Qed.

  Theorem C132_layout_rejected h trafo_log is_training rows charges pulses :
    (forall c, length (local_vars c) = h_local h) -> Forall (fun row => length row = segment_parameters h) rows ->
    (exists l, trafo_log = Some l /\ nth_error l 5 = Some true) ->
    (h_global h = true -> In "DOMEfficiency"%string (segment_names format h)) ->
    (4 * h_models h + n_charge (mode (common h)) <> h_filters h \/ h_models h <= 1)%nat ->
    seg h trafo_log is_training rows charges pulses = Err ValueError.
  Proof.
    intros V SH (l & -> & LOG) EFF H. destruct (fits_eff h EFF) as (i & E & _).
    apply (seg_shape trafo mean std norm_const coords local_vars h rows V) in SH. destruct SH as (A & B).
    cbv beta delta [segment_get_tensors]. cbv zeta. rewrite A, LOG. cbn [bind]. rewrite B, E. cbn [bind].
    destruct (Nat.eqb_spec (h_models h * 4 + n_charge (mode (common h))) (h_filters h)); cbn [negb]; [| reflexivity].
    destruct (Nat.leb_spec (h_models h) 1); [reflexivity |]. lia.
  Qed.

  (** The source can only be used if the transformation takes the logarithm of the
      energy: otherwise variables of the function are used before they are set. *)
  Theorem C132_logarithm h l is_training rows charges pulses : Forall (fun row => 9 <= length row)%nat rows ->
    nth_error l 5 = Some false -> seg h (Some l) is_training rows charges pulses = Err UnboundLocalError.
  Proof.
    intros F N. cbv beta delta [segment_get_tensors]. cbv zeta beta iota. rewrite N.
    assert (A : existsb (fun row : list R => Nat.ltb (length row) 9) rows = false).
    { apply not_true_is_false. intros H. apply existsb_exists in H. destruct H as (row & I & H). apply Nat.ltb_lt in H.
      rewrite Forall_forall in F. specialize (F row I). cbn beta in F. lia. }
    rewrite A. reflexivity.
  Qed.

  Theorem C132_logarithm_needed h trafo_log is_training rows charges pulses r :
    seg h trafo_log is_training rows charges pulses = Ok r -> exists l, trafo_log = Some l /\ nth_error l 5 = Some true.
  Proof.
    intros G. destruct (seg_inv _ _ _ _ _ _ _ _ _ _ _ _ _ _ _ _ _ G) as (i & Z & _). exact (z_log _ _ _ _ _ _ _ _ _ _ _ _ _ _ _ _ Z).
  Qed.

  (** ** C133 *)

  Lemma seg_casc erf h trafo_log is_training rows charges pulses r : (forall c, length (local_vars c) = h_local h) ->
    seg h trafo_log is_training rows charges pulses = Ok r -> forall pulses',
    seg h trafo_log is_training rows charges pulses' =
    cascade_get_tensors format trafo mean std norm_const coords local_vars erf lgamma rel_eff
      (fun _ => out h rows) (common h) rows charges None pulses'.
  Proof.
    intros V G pulses'. destruct (seg_inv _ _ _ _ _ _ _ _ _ _ _ _ _ _ _ _ _ G) as (i & Z & _).
    exact (seg_cascade _ _ _ _ _ _ _ _ _ _ _ _ _ _ _ _ _ _ V Z).
  Qed.

  (** The time distribution of every DOM is a mixture, and a density: positive, with
      an integral over all times of one thousand (in nanoseconds). *)
  Theorem C133_density erf h trafo_log is_training rows charges pulses r e c : IsErf erf ->
    (forall c, length (local_vars c) = h_local h) -> (forall inputs e c, length (net inputs e c) = h_filters h) ->
    seg h trafo_log is_training rows charges pulses = Ok r -> (e < length rows)%nat -> InDetector c ->
    Mixture (a_comps r e c) /\ length (a_comps r e c) = h_models h /\
    exists f, IsDensity (seg h trafo_log is_training rows charges) e c f /\ (forall t, 0 < f t) /\ TotalMass f 1000 /\
      forall t, f t = Rsum (map (fun k => k_scale k *
        asymmetric_gauss ((t - nth 6 (nth e rows []) 0) / 1000) (k_mu k) (k_sigma k) (k_r k)) (a_comps r e c)).
  Proof.
    intros HE V SH G E C.
    assert (SH' : forall (inputs : list (list (list R))) e c, length ((fun _ => out h rows) inputs e c) = g_filters (common h)) by (intros; apply SH).
    pose proof (seg_casc erf _ _ _ _ _ _ _ V G) as EQ. pose proof G as G0. rewrite EQ in G0.
    split; [exact (C106_mixture _ _ _ _ _ _ _ _ _ _ _ _ _ _ _ _ _ e c SH' G0) |].
    split; [exact (proj1 (proj2 (C105_layout _ _ _ _ _ _ _ _ _ _ _ _ _ _ _ _ _ e c SH' G0))) |].
    destruct (C106_density _ _ _ _ _ _ _ _ _ _ _ _ _ _ _ _ e c HE SH' G0 E C) as (f & D & P & T & F).
    exists f. split; [| split; [exact P | split; [exact T | exact F]]]. intros t. rewrite EQ. exact (D t).
  Qed.

  (** The output of the network is cut into the variables of the charge and four
      blocks, one value per component. *)
  Theorem C133_layout h trafo_log is_training rows charges pulses r e c :
    (forall c, length (local_vars c) = h_local h) -> (forall inputs e c, length (net inputs e c) = h_filters h) ->
    seg h trafo_log is_training rows charges pulses = Ok r ->
    exists q mu sigma skew weight,
      out h rows e c = q ++ mu ++ sigma ++ skew ++ weight /\
      length mu = h_models h /\ length sigma = h_models h /\ length skew = h_models h /\ length weight = h_models h /\
      length q = match h_charge h with
                 | VBool true => 3%nat
                 | VStr s => if String.eqb s "negative_binomial" then 2%nat else 1%nat
                 | _ => 1%nat
                 end /\
      forall k co, nth_error (a_comps r e c) k = Some co ->
        k_mu co = 1 + nth k mu 0 /\ k_sigma co = bend (2 + nth k sigma 0) + 1001 / 1000 /\
        k_r co = bend (1 + nth k skew 0) + 1001 / 1000 /\
        (exists total, total <> 0 /\ k_scale co = (bend (1 + nth k weight 0) + 100001 / 100000) / total).
  Proof.
    intros V SH G.
    assert (SH' : forall (inputs : list (list (list R))) e c, length ((fun _ => out h rows) inputs e c) = g_filters (common h)) by (intros; apply SH).
    pose proof (seg_casc (fun x => x) _ _ _ _ _ _ _ V G) as EQ. pose proof G as G0. rewrite EQ in G0.
    destruct (C105_layout _ _ _ _ _ _ _ _ _ _ _ _ _ _ _ _ _ e c SH' G0) as (_ & _ & q & mu & sigma & skew & weight & O & L1 & L2 & L3 & L4 & LQ & K).
    exists q, mu, sigma, skew, weight. do 5 (split; [assumption |]). split; [exact LQ |].
    intros k co N. destruct (K k co N) as (K1 & K2 & K3 & K4). split; [exact (K4 eq_refl) |]. auto.
  Qed.

  (** The density of a pulse does not depend on the other pulses. *)
  Theorem C133_pulses h trafo_log is_training rows charges pulses r j p f : (forall c, length (local_vars c) = h_local h) ->
    seg h trafo_log is_training rows charges pulses = Ok r -> nth_error pulses j = Some p ->
    IsDensity (seg h trafo_log is_training rows charges) (u_event p) (u_cell p) f ->
    nth_error (a_pdf r) j = Some (f (u_time p)).
  Proof.
    intros V G J D. pose proof (seg_casc (fun x => x) _ _ _ _ _ _ _ V G) as EQ. pose proof G as G0. rewrite EQ in G0.
    refine (C106_pulses _ _ _ _ _ _ _ _ _ _ _ _ _ _ charges _ _ _ _ _ f G0 J _).
    intros t. destruct (D t) as (r' & D1 & D2). exists r'. split; [rewrite <- EQ; exact D1 | exact D2].
  Qed.

  (** The expected charge *)
  Theorem C133_charge h trafo_log is_training rows charges pulses r e c : (forall c, length (local_vars c) = h_local h) ->
    seg h trafo_log is_training rows charges pulses = Ok r ->
    (exists eff, (h_global h = true -> exists i, nth_error (segment_names format h) i = Some "DOMEfficiency"%string /\
                                     eff = nth i (nth e rows []) 0) /\
     a_charges r e c = exp (nth 0 (out h rows e c) 0)
      * (if h_scale h then nth 5 (nth e rows []) 0 / 10000 else 1)
      * (if h_relative h then rel_eff c else 1) * (if h_global h then eff else 1) + 1 / 10000000) /\
    (a_llh r = None <-> h_charge h <> VBool true /\ h_charge h <> VStr "negative_binomial") /\
    (a_llh r = None -> a_var r e c = a_charges r e c /\ a_unc r e c = sqrt (a_charges r e c)) /\
    a_excl r = None /\ a_excl_sum r = None.
  Proof.
    intros V G. pose proof (seg_casc (fun x => x) _ _ _ _ _ _ _ V G) as EQ. pose proof G as G0. rewrite EQ in G0.
    split; [exact (C110_charge _ _ _ _ _ _ _ _ _ _ _ _ _ _ _ _ e c G0) |].
    split; [exact (C105_modes _ _ _ _ _ _ _ _ _ _ _ _ _ _ _ _ _ G0) |].
    split; [exact (C110_poisson _ _ _ _ _ _ _ _ _ _ _ _ _ _ _ _ _ e c G0) |].
    destruct (get_inv G0) as (i & Q). exact (q_excl Q).
  Qed.

  Theorem C133_positive h trafo_log is_training rows charges pulses r e c : (forall c, length (local_vars c) = h_local h) ->
    seg h trafo_log is_training rows charges pulses = Ok r -> Forall (Sound h) rows -> (forall c, 0 <= rel_eff c) ->
    1 / 10000000 <= a_charges r e c.
  Proof.
    intros V G S RE. pose proof (seg_casc (fun x => x) _ _ _ _ _ _ _ V G) as EQ. pose proof G as G0. rewrite EQ in G0.
    exact (C110_positive _ _ _ _ _ _ _ _ _ _ _ _ _ _ _ _ _ e c G0 S RE).
  Qed.

  (** A shift of an event in time, with its pulses, changes nothing. *)
  Theorem C133_translation h trafo_log is_training rows rows' d charges pulses : length rows' = length rows ->
    (forall e, (e < length rows)%nat -> Shifted (d e) (nth e rows []) (nth e rows' [])) ->
    (forall e, (e < length rows)%nat -> (7 <= length (nth e rows []))%nat) ->
    SameTensors (length rows) (seg h trafo_log is_training rows' charges (map (shift_pulse d) pulses))
      (seg h trafo_log is_training rows charges pulses).
  Proof.
    intros L SH L7. apply seg_shift; [exact L |]. intros e E. pose proof (SH e E) as S.
    assert (N : forall i, i <> 6%nat -> nth i (nth e rows' []) 0 = nth i (nth e rows []) 0).
    { intros i I. exact (shifted_nth _ _ _ _ S I). }
    split; [exact (proj1 S) |]. split.
    { apply map_ext. intros c. apply sinput_ext; [exact (proj1 S) | auto | rewrite !N by lia; reflexivity]. }
    split; [auto |]. destruct S as (_ & S). rewrite (S 6%nat) by (specialize (L7 e E); lia). reflexivity.
  Qed.

  (** Angles of the same direction give the same result. *)
  Theorem C133_direction h trafo_log is_training rows rows' charges pulses : length rows' = length rows ->
    (forall e, (e < length rows)%nat -> Turned (nth e rows []) (nth e rows' [])) ->
    SameTensors (length rows) (seg h trafo_log is_training rows' charges pulses) (seg h trafo_log is_training rows charges pulses).
  Proof.
    intros L T. pose proof (seg_shift format trafo mean std norm_const coords local_vars lgamma rel_eff net
      h trafo_log is_training rows rows' (fun _ => 0) charges pulses L) as G.
    replace (map (shift_pulse (fun _ => 0)) pulses) with pulses in G.
    2:{ symmetry. rewrite <- (map_id pulses) at 2. apply map_ext. intros [e c t]. unfold shift_pulse. cbn. rewrite Rplus_0_r. reflexivity. }
    apply G. intros e E. destruct (T e E) as (LE & N & A & B & Z).
    split; [exact LE |]. split.
    - apply map_ext. intros c. apply sinput_ext; [exact LE | auto |]. unfold direction.
      replace (- sin (nth 3 (nth e rows' []) 0) * cos (nth 4 (nth e rows' []) 0))
        with (- (sin (nth 3 (nth e rows' []) 0) * cos (nth 4 (nth e rows' []) 0))) by ring.
      replace (- sin (nth 3 (nth e rows' []) 0) * sin (nth 4 (nth e rows' []) 0))
        with (- (sin (nth 3 (nth e rows' []) 0) * sin (nth 4 (nth e rows' []) 0))) by ring.
      rewrite A, B, Z. rewrite !Ropp_mult_distr_l. reflexivity.
    - split; [auto |]. rewrite N by lia. ring.
  Qed.
End Source.

(** ** Examples *)

Section Witness.
  Variable format : string -> nat -> string.
  Variable trafo : nat -> R -> R.
  Variables mean std : nat -> R.
  Variable norm_const : R.
  Variable coords : cell -> R * R * R.
  Variable lgamma : R -> R.

  Definition small_segment : segment_config :=
    {| h_snowstorm := Some [("DOMEfficiency"%string, 1%nat)]; h_opening := true; h_coordinates := true; h_local := 2;
       h_filters := 10; h_models := 2; h_charge := VStr "negative_binomial"; h_scale := true; h_relative := true; h_global := true |}.
  Definition flags : list bool := [false; false; false; false; false; true; false; true; false; false].
  Definition muon (energy len time : R) : list R := [10; 20; -100; 1; 2; energy; time; len; 1 / 2; 1].

  Notation seg := (segment_get_tensors (fun s _ => s) trafo mean std norm_const coords (fun _ => [0; 1]) lgamma (fun _ => 1)
    (fun _ _ _ => [1; 0; 0; 1; 0; 0; 0; 0; 0; 0])).

  Lemma small_fits rows : Forall (fun row => length row = 10%nat) rows -> Fits (fun s _ => s) (fun _ => [0; 1]) small_segment (Some flags) rows.
  Proof.
    intros F. split; [reflexivity |]. split; [exact F |]. split; [exists flags; split; reflexivity |].
    split; [reflexivity |]. split; [cbn; lia |]. intros _. cbn. tauto.
  Qed.

  Lemma small_sound e len time : 0 <= e -> Sound (fun s _ => s) small_segment (muon e len time).
  Proof.
    intros E. split; [exact E |]. intros i I. do 9 (destruct i as [| i]; [discriminate I |]).
    destruct i as [| i]; [cbn; lra |]. destruct i; discriminate I.
  Qed.

  Example training_batch : exists r, seg small_segment (Some flags) true [muon 1000 500 50; muon 20 3 60] (fun _ _ => 2)
    [{| u_event := 1%nat; u_cell := (3, 5)%nat; u_time := 300 |}] = Ok r /\ length (a_pdf r) = 1%nat.
  Proof.
    apply C132_training; [apply small_fits; repeat constructor | repeat constructor; cbn; lia | discriminate | | intros; lra].
    repeat apply Forall_cons; try apply Forall_nil; (split; [apply small_sound; lra | cbn; lra]).
  Qed.

  (** Negative energies above the bound of the assertion, so that the expected charges are negative *)
  Definition asymmetric_segment : segment_config :=
    {| h_snowstorm := Some [("DOMEfficiency"%string, 1%nat)]; h_opening := true; h_coordinates := true; h_local := 2;
       h_filters := 11; h_models := 2; h_charge := VBool true; h_scale := true; h_relative := true; h_global := true |}.
  Example large_charges : exists r, seg asymmetric_segment (Some flags) true [muon (- (1 / 2000)) 500 50] (fun _ _ => 6) [] = Ok r.
  Proof.
    assert (F : Fits (fun s _ => s) (fun _ => [0; 1]) asymmetric_segment (Some flags) [muon (- (1 / 2000)) 500 50]).
    { split; [reflexivity |]. split; [repeat constructor |]. split; [exists flags; split; reflexivity |]. split; [reflexivity |]. split; [cbn; lia |]. intros _. cbn. tauto. }
    destruct (C132_accepted (fun s _ => s) trafo mean std norm_const coords (fun _ => [0; 1]) lgamma (fun _ => 1)
      (fun _ _ _ => [1; 0; 0; 1; 0; 0; 0; 0; 0; 0]) asymmetric_segment (Some flags) [muon (- (1 / 2000)) 500 50] (fun _ _ => 6) [] F) as (r & G & _); [constructor |].
    eapply C132_charge_assertion; [exact F | constructor | discriminate | reflexivity | | exact G | intros; left; lra].
    apply Forall_cons; [| apply Forall_nil]. cbn. lra.
  Qed.

  Example negative_track : exists r, seg small_segment (Some flags) true [muon (1 / 2) (-500) 50] (fun _ _ => 2) [] = Ok r.
  Proof.
    apply C132_negative_length_refuted; [apply small_fits; repeat constructor | constructor | discriminate | | intros; lra].
    apply Forall_cons; [| apply Forall_nil]. split; [apply small_sound; lra |]. cbn. lra.
  Qed.

  Example inference_batch : exists r, seg small_segment (Some flags) false [muon 1000 (-1) 50] (fun _ _ => 2) [] = Ok r /\ a_pdf r = [].
  Proof.
    destruct (C132_accepted (fun s _ => s) trafo mean std norm_const coords (fun _ => [0; 1]) lgamma (fun _ => 1)
      (fun _ _ _ => [1; 0; 0; 1; 0; 0; 0; 0; 0; 0]) small_segment (Some flags) [muon 1000 (-1) 50] (fun _ _ => 2) [])
      as (r & G & L); [apply small_fits; repeat constructor | constructor |]. exists r. split; [exact G |].
    destruct (a_pdf r); [reflexivity | discriminate L].
  Qed.

  Example missing_flag : nth_error [true; true; true; true; true; false; true; true; true] 5 = Some false /\
    seg small_segment (Some [true; true; true; true; true; false; true; true; true]) false [muon 1000 500 50] (fun _ _ => 2) [] = Err UnboundLocalError.
  Proof. split; [reflexivity |]. apply C132_logarithm; [repeat constructor; cbn; lia | reflexivity]. Qed.

  Example shifted_segment : Shifted 25 (muon 1000 500 50) (muon 1000 500 75).
  Proof. split; [reflexivity |]. intros i I. cbn in I. do 10 (destruct i as [| i]; [cbn; ring |]). lia. Qed.

  (** Every track has a distance from a DOM. *)
  Example some_distance row p len : 0 < len -> exists d0, TrackDistance p (vertex row) (flight row) len d0.
  Proof.
    intros L. pose proof (flight_unit row) as U. pose proof (foot_exists p (vertex row) (flight row) U) as F. set (a := dot _ _) in F.
    exists (away p (along (vertex row) (flight row) (clamp len a))). split.
    - exists (clamp len a). split; [| reflexivity]. destruct (clamp_cases len a L) as [(Q & ->) | [(Q & ->) | (Q & ->)]]; lra.
    - intros s S. rewrite (away_foot _ _ _ a (clamp len a) U F), (away_foot _ _ _ a s U F). apply sqrt_le_1_alt, Rplus_le_compat_l.
      destruct (clamp_cases len a L) as [(Q & ->) | [(Q & ->) | (Q & ->)]].
      + apply pow_incr. lra.
      + replace ((a - a) ^ 2) with 0 by ring. apply pow2_ge_0.
      + replace ((len - a) ^ 2) with ((a - len) ^ 2) by ring. replace ((s - a) ^ 2) with ((a - s) ^ 2) by ring. apply pow_incr. lra.
  Qed.

  (** A DOM beside the middle of a long track *)
  Example middle : 0 < 400 /\ clamp 400 150 = 150 /\ Rabs (shift_on_track 400 150 - 150) < ln 2 /\
    0 < dep_energy 1000 400 50 150 < 1000.
  Proof.
    assert (C : clamp 400 150 = 150) by (unfold clamp; rewrite Rmin_left, Rmax_right; lra).
    split; [lra |]. split; [exact C |]. split.
    - rewrite <- C at 2. apply C129_error. lra.
    - destruct (C130_range 1000 400 50 150) as ((_ & B) & _ & A); [lra | lra |]. split; [apply A; lra | exact B].
  Qed.
End Witness.
Print Assumptions C129_on_track.
Print Assumptions C129_order.
Print Assumptions C129_error.
Print Assumptions C129_symmetric.
Print Assumptions C129_negative.
Print Assumptions C129_fixed_refuted.
Print Assumptions C130_range.
Print Assumptions C130_additive.
Print Assumptions C130_linear.
Print Assumptions C130_value.
Print Assumptions C130_whole.
Print Assumptions C130_negative.
Print Assumptions C130_twice_refuted.
Print Assumptions C131_input.
Print Assumptions C131_translation.
Print Assumptions C131_zero_length.
Print Assumptions C131_zero_position.
Print Assumptions C132_accepted.
Print Assumptions C132_training.
Print Assumptions C132_charge_assertion.
Print Assumptions C132_negative_length_refuted.
Print Assumptions C132_asserted.
Print Assumptions C132_training_rejected.
Print Assumptions C132_names.
Print Assumptions C132_rejected.
Print Assumptions C132_layout_rejected.
Print Assumptions C132_logarithm.
Print Assumptions C132_logarithm_needed.
Print Assumptions C133_density.
Print Assumptions C133_layout.
Print Assumptions C133_pulses.
Print Assumptions C133_charge.
Print Assumptions C133_positive.
Print Assumptions C133_translation.
Print Assumptions C133_direction.
