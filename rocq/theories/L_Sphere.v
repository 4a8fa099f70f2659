(** Lemmas about the model of the spherical geometry. *)
From Coq Require Import Psatz Sorting.Sorted.
From Verif Require Import Py PyFacts RList M_Sphere S_Sphere.

Lemma sq_sqrt x : 0 <= x -> sqrt x ^ 2 = x.
Proof. intros H. rewrite <- Rsqr_pow2. apply Rsqr_sqrt. exact H. Qed.

Lemma atan2_pos_aux x y rho : 0 < x -> 0 < rho -> rho ^ 2 = x ^ 2 + y ^ 2 ->
  sqrt (1 + Rsqr (y / x)) = rho / x.
Proof.
  intros X P E. apply Rsqr_inj.
  - apply sqrt_pos.
  - apply Rlt_le. apply Rdiv_lt_0_compat; assumption.
  - rewrite Rsqr_sqrt by (pose proof (Rle_0_sqr (y / x)); lra).
    unfold Rsqr. apply Rmult_eq_reg_l with (x ^ 2); [| nra].
    field_simplify; [lra | lra | lra].
Qed.

Lemma atan2_neg_aux x y rho : x < 0 -> 0 < rho -> rho ^ 2 = x ^ 2 + y ^ 2 ->
  sqrt (1 + Rsqr (y / x)) = - rho / x.
Proof.
  intros X P E.
  replace (y / x) with ((- y) / (- x)) by (field; lra).
  replace (- rho / x) with (rho / - x) by (field; lra).
  apply atan2_pos_aux; [lra | exact P | rewrite E; ring].
Qed.

Lemma atan2_spec x y rho : 0 < rho -> rho ^ 2 = x ^ 2 + y ^ 2 ->
  cos (atan2 y x) = x / rho /\ sin (atan2 y x) = y / rho.
Proof.
  intros P E. unfold atan2.
  destruct (Rltb 0 x) eqn:X1.
  { apply (proj1 (Rltb_true _ _)) in X1.
    rewrite cos_atan, sin_atan, (atan2_pos_aux x y rho X1 P E).
    split; field; lra. }
  apply (proj1 (Rltb_false _ _)) in X1.
  destruct (Rltb x 0) eqn:X2.
  { apply (proj1 (Rltb_true _ _)) in X2.
    pose proof (atan2_neg_aux x y rho X2 P E) as S.
    destruct (Rleb 0 y).
    - rewrite neg_cos, neg_sin, cos_atan, sin_atan, S. split; field; lra.
    - unfold Rminus. rewrite cos_plus, sin_plus, cos_neg, sin_neg, cos_PI, sin_PI.
      rewrite cos_atan, sin_atan, S. split; field; lra. }
  apply (proj1 (Rltb_false _ _)) in X2.
  assert (X : x = 0) by lra. subst x.
  destruct (Rltb 0 y) eqn:Y1.
  { apply (proj1 (Rltb_true _ _)) in Y1. rewrite cos_PI2, sin_PI2.
    assert (rho = y) by nra. subst. split; field; lra. }
  apply (proj1 (Rltb_false _ _)) in Y1.
  destruct (Rltb y 0) eqn:Y2.
  { apply (proj1 (Rltb_true _ _)) in Y2.
    rewrite cos_neg, sin_neg, cos_PI2, sin_PI2.
    assert (rho = - y) by nra. subst. split; field; lra. }
  apply (proj1 (Rltb_false _ _)) in Y2. assert (y = 0) by lra. subst. nra.
Qed.

Lemma fmod_range a m : 0 < m -> 0 <= fmod a m < m.
Proof.
  intros M. unfold fmod. destruct (base_Int_part (a / m)) as (A & B).
  set (k := IZR (Int_part (a / m))) in *. clearbody k.
  assert (E : a = a / m * m) by (field; lra). split; nra.
Qed.

Lemma cos_period_Z x k : cos (x + 2 * IZR k * PI) = cos x.
Proof.
  destruct (Z_le_dec 0 k) as [H | H].
  - rewrite <- (Z2Nat.id k H), <- INR_IZR_INZ. apply cos_period.
  - rewrite <- (cos_period _ (Z.to_nat (- k))).
    rewrite INR_IZR_INZ, Z2Nat.id by lia. f_equal. rewrite opp_IZR. ring.
Qed.

Lemma sin_period_Z x k : sin (x + 2 * IZR k * PI) = sin x.
Proof.
  destruct (Z_le_dec 0 k) as [H | H].
  - rewrite <- (Z2Nat.id k H), <- INR_IZR_INZ. apply sin_period.
  - rewrite <- (sin_period _ (Z.to_nat (- k))).
    rewrite INR_IZR_INZ, Z2Nat.id by lia. f_equal. rewrite opp_IZR. ring.
Qed.

Lemma cos_fmod a : cos (fmod a (2 * PI)) = cos a.
Proof.
  unfold fmod. rewrite <- (cos_period_Z a (- Int_part (a / (2 * PI)))).
  f_equal. rewrite opp_IZR. ring.
Qed.

Lemma sin_fmod a : sin (fmod a (2 * PI)) = sin a.
Proof.
  unfold fmod. rewrite <- (sin_period_Z a (- Int_part (a / (2 * PI)))).
  f_equal. rewrite opp_IZR. ring.
Qed.

Lemma radius_pos x y z :
  0 < sqrt (x ^ 2 + y ^ 2 + z ^ 2) <-> ~ (x = 0 /\ y = 0 /\ z = 0).
Proof.
  split.
  - intros H (-> & -> & ->). replace (0 ^ 2 + 0 ^ 2 + 0 ^ 2) with 0 in H by ring.
    rewrite sqrt_0 in H. lra.
  - intros H. apply sqrt_lt_R0.
    destruct (Req_dec x 0); [| nra]. destruct (Req_dec y 0); [| nra].
    destruct (Req_dec z 0); [exfalso; auto | nra].
Qed.

Lemma cart_coherent s : coherent (fill_from_cart s) /\ standard (fill_from_cart s).
Proof.
  unfold fill_from_cart. set (r := sqrt _).
  pose proof PI_RGT_0 as PP.
  destruct (Rltb 0 r) eqn:E.
  - apply (proj1 (Rltb_true _ _)) in E.
    assert (R2 : r ^ 2 = sx s ^ 2 + sy s ^ 2 + sz s ^ 2)
      by (apply sq_sqrt; nra).
    set (x := sx s / r). set (y := sy s / r). set (z := sz s / r).
    assert (U : x ^ 2 + y ^ 2 + z ^ 2 = 1).
    { unfold x, y, z. apply Rmult_eq_reg_l with (r ^ 2); [| nra].
      field_simplify; [lra | lra]. }
    clearbody x y z.
    assert (Z1 : -1 <= z <= 1) by nra.
    assert (ST : 0 <= acos z <= PI /\ 0 <= fmod (atan2 y x) (2 * PI) < 2 * PI)
      by (split; [apply acos_bound | apply fmod_range; lra]).
    split; [| exact ST]. unfold coherent, xyz, direction. cbn.
    repeat split; try reflexivity.
    + symmetry. apply cos_acos. exact Z1.
    + rewrite sin_acos, cos_acos, cos_fmod, sin_fmod by exact Z1.
      unfold Rsqr. set (rho := sqrt (1 - z * z)).
      assert (RHO : rho ^ 2 = x ^ 2 + y ^ 2)
        by (unfold rho; rewrite sq_sqrt by nra; lra).
      assert (RP : 0 <= rho) by apply sqrt_pos.
      destruct (Req_dec rho 0) as [R0 | RN].
      * assert (x = 0) by nra. assert (y = 0) by nra. subst x y.
        rewrite R0. f_equal. f_equal; ring.
      * destruct (atan2_spec x y rho) as (-> & ->); [lra | lra |].
        f_equal. f_equal; field; exact RN.
  - apply (proj1 (Rltb_false _ _)) in E.
    assert (Z : sx s = 0 /\ sy s = 0 /\ sz s = 0).
    { destruct (Req_dec (sx s) 0), (Req_dec (sy s) 0), (Req_dec (sz s) 0);
        try tauto; exfalso; revert E; apply Rlt_not_le;
        apply (proj2 (radius_pos _ _ _)); tauto. }
    destruct Z as (-> & -> & _). split.
    + unfold coherent, xyz, direction. cbn.
      rewrite sin_0, cos_0. repeat split; try reflexivity.
      f_equal. f_equal; ring.
    + unfold standard. cbn. lra.
Qed.

Lemma direction_unit a b : unit (direction a b).
Proof.
  unfold unit, dot, direction. pose proof (sin2_cos2 a) as A.
  pose proof (sin2_cos2 b) as B. unfold Rsqr in *.
  replace (sin a * cos b * (sin a * cos b) + sin a * sin b * (sin a * sin b) +
           cos a * cos a)
    with (sin a * sin a * (sin b * sin b + cos b * cos b) + cos a * cos a) by ring.
  rewrite B. lra.
Qed.

Lemma coherent_unit s : coherent s -> unit (xyz s).
Proof. intros (_ & _ & _ & _ & ->). apply direction_unit. Qed.

Lemma cart_unit_id s : unit (xyz s) -> xyz (fill_from_cart s) = xyz s.
Proof.
  unfold unit, xyz, dot. intros U. unfold fill_from_cart.
  replace (sx s ^ 2 + sy s ^ 2 + sz s ^ 2) with 1 by lra.
  rewrite sqrt_1. rewrite (proj2 (Rltb_true 0 1)) by lra. cbn.
  f_equal; [f_equal |]; field.
Qed.

Lemma cart_direction s : xyz s <> (0, 0, 0) ->
  exists r, 0 < r /\ xyz s = scale r (xyz (fill_from_cart s)).
Proof.
  intros H. unfold xyz in *.
  exists (sqrt (sx s ^ 2 + sy s ^ 2 + sz s ^ 2)).
  assert (P : 0 < sqrt (sx s ^ 2 + sy s ^ 2 + sz s ^ 2)).
  { apply (proj2 (radius_pos _ _ _)). intros (E1 & E2 & E3).
    apply H. rewrite E1, E2, E3. reflexivity. }
  split; [exact P |]. unfold fill_from_cart.
  rewrite (proj2 (Rltb_true _ _)) by exact P.
  set (r := sqrt _) in *. clearbody r. cbn.
  f_equal; [f_equal |]; field; lra.
Qed.

Lemma cos_2PI_minus t : cos (2 * PI - t) = cos t.
Proof.
  rewrite <- (cos_neg t), <- (cos_period_Z (- t) 1). f_equal. ring.
Qed.

Lemma angles_inj a b : 0 <= a < 2 * PI -> 0 <= b < 2 * PI ->
  cos a = cos b -> sin a = sin b -> a = b.
Proof.
  intros A B C S.
  assert (D : cos (a - b) = 1).
  { unfold Rminus. rewrite cos_plus, cos_neg, sin_neg, C, S.
    pose proof (sin2_cos2 b). unfold Rsqr in *. lra. }
  destruct (Rtotal_order a b) as [L | [E | G]]; [| exact E |].
  - exfalso. assert (K : cos (b - a) = 1)
      by (rewrite <- D, <- cos_neg; f_equal; ring).
    destruct (Rle_dec (b - a) PI).
    + assert (cos (b - a) < cos 0) by (apply cos_decreasing_1; lra).
      rewrite cos_0 in *. lra.
    + assert (E2 : cos (2 * PI - (b - a)) = 1).
      { rewrite cos_2PI_minus. exact K. }
      assert (cos (2 * PI - (b - a)) < cos 0) by (apply cos_decreasing_1; lra).
      rewrite cos_0 in *. lra.
  - exfalso.
    destruct (Rle_dec (a - b) PI).
    + assert (cos (a - b) < cos 0) by (apply cos_decreasing_1; lra).
      rewrite cos_0 in *. lra.
    + assert (E2 : cos (2 * PI - (a - b)) = 1).
      { rewrite cos_2PI_minus. exact D. }
      assert (cos (2 * PI - (a - b)) < cos 0) by (apply cos_decreasing_1; lra).
      rewrite cos_0 in *. lra.
Qed.

Lemma reflect_xyz_spec v c : coherent c ->
  reflect_xyz v c = point_reflection (xyz v) (xyz c).
Proof.
  intros (A & B & C & D & E). unfold point_reflection. rewrite E.
  unfold reflect_xyz, direction, xyz, dot, scale, vsub. rewrite A, B, C, D.
  pose proof (sin2_cos2 (zen c)) as P. pose proof (sin2_cos2 (az c)) as Q.
  unfold Rsqr in *. set (cz := cos (zen c)) in *. set (sz := sin (zen c)) in *.
  set (ca := cos (az c)) in *. set (sa := sin (az c)) in *.
  clearbody cz sz ca sa. clear - P Q.
  assert (H1 : cz ^ 2 = 1 - sz ^ 2) by lra.
  assert (H2 : sa ^ 2 = 1 - ca ^ 2) by lra.
  assert (H3 : ca ^ 2 = 1 - sa ^ 2) by lra.
  f_equal; [f_equal |].
  - rewrite H1, H2. ring.
  - rewrite H1, H3. ring.
  - assert (H4 : sz ^ 2 = 1 - cz ^ 2) by lra. rewrite H4. ring.
Qed.

Lemma reflection_unit v c : unit v -> unit c -> unit (point_reflection v c).
Proof.
  destruct v as ((x, y), z), c as ((a, b), d).
  unfold unit, point_reflection, vsub, scale, dot. intros V C.
  set (k := a * x + b * y + d * z).
  replace (_ + _ + _) with
    (4 * k ^ 2 * (a * a + b * b + d * d) - 4 * k * (a * x + b * y + d * z) +
     (x * x + y * y + z * z)) by ring.
  fold k. rewrite V, C. ring.
Qed.

Lemma reflection_dot v c : unit c -> dot c (point_reflection v c) = dot c v.
Proof.
  destruct v as ((x, y), z), c as ((a, b), d).
  unfold unit, point_reflection, vsub, scale, dot. intros C.
  set (k := a * x + b * y + d * z).
  replace (_ + _ + _) with
    (2 * k * (a * a + b * b + d * d) - (a * x + b * y + d * z)) by ring.
  rewrite C. unfold k. ring.
Qed.

Lemma reflection_involutive v c : unit c ->
  point_reflection (point_reflection v c) c = v.
Proof.
  intros C. unfold point_reflection at 1. rewrite reflection_dot by exact C.
  unfold point_reflection. generalize (2 * dot c v). intros k.
  destruct v as ((x, y), z), c as ((a, b), d). unfold vsub, scale.
  f_equal; [f_equal |]; ring.
Qed.

Lemma dot_unit_bound a b : unit a -> unit b -> -1 <= dot a b <= 1.
Proof.
  destruct a as ((x, y), z), b as ((a, b), c). unfold unit, dot. intros A B.
  pose proof (pow2_ge_0 (x - a)). pose proof (pow2_ge_0 (y - b)).
  pose proof (pow2_ge_0 (z - c)). pose proof (pow2_ge_0 (x + a)).
  pose proof (pow2_ge_0 (y + b)). pose proof (pow2_ge_0 (z + c)).
  split; lra.
Qed.

Lemma dot_one a b : unit a -> unit b -> dot a b = 1 -> a = b.
Proof.
  destruct a as ((x, y), z), b as ((a, b), c). unfold unit, dot. intros A B D.
  assert (E : (x - a) ^ 2 + (y - b) ^ 2 + (z - c) ^ 2 = 0) by lra.
  pose proof (pow2_ge_0 (x - a)). pose proof (pow2_ge_0 (y - b)).
  pose proof (pow2_ge_0 (z - c)).
  assert (SQ : forall t, t ^ 2 <= 0 -> t = 0) by (intros; nra).
  assert (x - a = 0) by (apply SQ; lra). assert (y - b = 0) by (apply SQ; lra).
  assert (z - c = 0) by (apply SQ; lra). f_equal; [f_equal |]; lra.
Qed.

Lemma angular_dot p q : coherent p -> coherent q ->
  angular_dist p q = acos (dot (xyz p) (xyz q)).
Proof.
  intros (A & B & C & D & E) (A' & B' & C' & D' & E').
  unfold angular_dist. rewrite E, E', A, B, A', B'. f_equal.
  unfold direction, dot. unfold Rminus. rewrite cos_plus, cos_neg, sin_neg. ring.
Qed.

(** ** Replacement search *)

Lemma last_n_length {A} n (l : list A) : (n <= length l)%nat ->
  length (last_n n l) = n.
Proof. intros H. unfold last_n. rewrite skipn_length. lia. Qed.

Lemma less_thans_length old new a b : length a = length b ->
  length (less_thans old new a b) = length a.
Proof. intros H. unfold less_thans. rewrite zipw_length, H. lia. Qed.

Lemma filter_all_length {A} (f : A -> bool) l :
  length (filter f l) = length l -> forall x, In x l -> f x = true.
Proof.
  induction l as [| a l IH]; intros H x Hx; [contradiction |].
  simpl in H. destruct (f a) eqn:E.
  - simpl in H. destruct Hx as [<- | Hx]; [exact E |]. apply IH; [lia | exact Hx].
  - assert (length (filter f l) <= length l)%nat.
    { clear. induction l; simpl; [lia |]. destruct (f a); simpl; lia. }
    lia.
Qed.

Lemma filter_length_le {A} (f : A -> bool) l :
  (length (filter f l) <= length l)%nat.
Proof. induction l; simpl; [lia |]. destruct (f a); simpl; lia. Qed.

Lemma all_filter_length {A} (f : A -> bool) l :
  (forall x, In x l -> f x = true) -> length (filter f l) = length l.
Proof.
  induction l as [| a l IH]; intros H; [reflexivity |]. simpl.
  rewrite (H a) by (left; reflexivity). simpl. rewrite IH; [reflexivity |].
  intros x Hx. apply H. right. exact Hx.
Qed.

Lemma nth_skipn' {A} k (l : list A) i d : nth i (skipn k l) d = nth (k + i) l d.
Proof.
  revert l. induction k as [| k IH]; intros l; [reflexivity |].
  destruct l as [| a l]; [destruct i; reflexivity |]. apply IH.
Qed.

Lemma nth_last_n n (l : list nat) i d : (n <= length l)%nat -> (i < n)%nat ->
  nth i (last_n n l) d = nth (length l - n + i) l d.
Proof.
  intros H Hi. unfold last_n. apply nth_skipn'.
Qed.

Lemma nth_firstn' n (l : list nat) i d : (i < n)%nat ->
  nth i (firstn n l) d = nth i l d.
Proof.
  revert n i. induction l as [| a l IH]; intros [| n] [| i] H;
    simpl; try lia; try reflexivity. apply IH. lia.
Qed.

(** Which candidates are accepted. *)
Definition accepts (old new : list R) (so sn : list nat) (n : nat) : Prop :=
  forall i, (i < n)%nat ->
    nth (nth i sn 0%nat) new 0 < nth (nth (length so - n + i) so 0%nat) old 0.

Lemma try_replace_spec old new so sn n :
  (n <= length so)%nat -> (n <= length sn)%nat ->
  (accepts old new so sn n /\
   try_replace old new so sn n =
     Ok (Some (combine (last_n n so) (firstn n sn)))) \/
  (~ accepts old new so sn n /\ try_replace old new so sn n = Ok None).
Proof.
  intros HO HN. unfold try_replace.
  assert (LF : length (firstn n sn) = n) by (apply firstn_length_le; exact HN).
  rewrite last_n_length, LF by exact HO. rewrite Nat.eqb_refl. cbn [negb].
  set (lt := less_thans _ _ _ _).
  assert (LL : length lt = n)
    by (unfold lt; rewrite less_thans_length; rewrite last_n_length; lia).
  assert (NT : forall i, (i < n)%nat -> nth i lt false =
    Rltb (nth (nth i sn 0%nat) new 0) (nth (nth (length so - n + i) so 0%nat) old 0)).
  { intros i Hi. unfold lt, less_thans.
    rewrite nth_zipw with (da := 0%nat) (db := 0%nat)
      by (rewrite ?last_n_length; lia).
    rewrite nth_last_n, nth_firstn' by lia. reflexivity. }
  destruct (Nat.eqb_spec (length (filter (fun b => b) lt)) n) as [E | E].
  - left. split; [| reflexivity]. intros i Hi.
    apply (proj1 (Rltb_true _ _)). rewrite <- NT by exact Hi.
    apply (filter_all_length (fun b => b) lt); [lia |].
    apply nth_In. lia.
  - right. split; [| reflexivity]. intros A. apply E.
    rewrite all_filter_length; [exact LL |]. intros b Hb.
    apply In_nth with (d := false) in Hb. destruct Hb as (i & Hi & <-).
    rewrite NT by lia. apply (proj2 (Rltb_true _ _)). apply A. lia.
Qed.

Lemma search_spec old new so sn n :
  (n <= length so)%nat -> (n <= length sn)%nat ->
  exists k, (k <= n)%nat /\ accepts old new so sn k /\
    (forall m, (k < m <= n)%nat -> ~ accepts old new so sn m) /\
    search_replace old new so sn n =
      Ok (combine (last_n k so) (firstn k sn)).
Proof.
  induction n as [| n IH]; intros HO HN.
  - exists 0%nat. split; [lia |]. split; [intros i Hi; lia |].
    split; [intros; lia |]. simpl. rewrite combine_nil. reflexivity.
  - destruct (try_replace_spec old new so sn (S n) HO HN) as [(A & E) | (A & E)].
    + exists (S n). split; [lia |]. split; [exact A |]. split; [intros; lia |].
      cbn [search_replace]. rewrite E. reflexivity.
    + destruct IH as (k & K1 & K2 & K3 & K4); [lia | lia |].
      exists k. split; [lia |]. split; [exact K2 |]. split.
      * intros m Hm. destruct (Nat.eq_dec m (S n)) as [-> | N]; [exact A |].
        apply K3. lia.
      * cbn [search_replace]. rewrite E. exact K4.
Qed.

Lemma sorted_nth {A} (P : A -> A -> Prop) l d :
  StronglySorted P l -> forall i j, (i < j < length l)%nat ->
  P (nth i l d) (nth j l d).
Proof.
  induction 1 as [| a l H IH F]; intros i j Hij; [simpl in Hij; lia |].
  destruct j as [| j]; [lia |]. destruct i as [| i]; simpl.
  - rewrite Forall_forall in F. apply F. apply nth_In. simpl in Hij. lia.
  - apply IH. simpl in Hij. lia.
Qed.

Lemma sorted_by_le vals idx i j : sorted_by vals idx ->
  (i <= j < length idx)%nat ->
  nth (nth i idx 0%nat) vals 0 <= nth (nth j idx 0%nat) vals 0.
Proof.
  intros (_ & _ & S) H. destruct (Nat.eq_dec i j) as [-> | N]; [lra |].
  apply (sorted_nth (fun i j => nth i vals 0 <= nth j vals 0) idx 0%nat S). lia.
Qed.

Lemma NoDup_app_both {A} (a b : list A) : NoDup (a ++ b) -> NoDup a /\ NoDup b.
Proof.
  induction a as [| x a IH]; simpl; intros H; [split; [constructor | exact H] |].
  inversion H as [| ? ? NI N]; subst. destruct (IH N) as (P & Q).
  split; [| exact Q]. constructor; [| exact P]. intros I. apply NI.
  apply in_or_app. left. exact I.
Qed.

Lemma NoDup_skipn {A} n (l : list A) : NoDup l -> NoDup (skipn n l).
Proof.
  intros H. rewrite <- (firstn_skipn n l) in H.
  apply NoDup_app_both in H. apply H.
Qed.

Lemma NoDup_firstn {A} n (l : list A) : NoDup l -> NoDup (firstn n l).
Proof.
  intros H. rewrite <- (firstn_skipn n l) in H.
  apply NoDup_app_both in H. apply H.
Qed.

Lemma filter_partition_length {A} (f : A -> bool) l :
  (length (filter f l) + length (filter (fun x => negb (f x)) l) = length l)%nat.
Proof. induction l as [| a l IH]; simpl; [reflexivity |]. destruct (f a); simpl; lia. Qed.

Lemma NoDup_map_filter {A B} (g : A -> B) f l : NoDup (map g l) ->
  NoDup (map g (filter f l)).
Proof.
  induction l as [| a l IH]; intros H; [constructor |].
  inversion H; subst. simpl. destruct (f a); [| auto].
  simpl. constructor; [| auto]. intros Hin. apply H2.
  apply in_map_iff in Hin. destruct Hin as (x & E & Hx).
  apply filter_In in Hx. apply in_map_iff. exists x. tauto.
Qed.

Lemma improving_accepts old new so sn l :
  sorted_by old so -> sorted_by new sn -> (length sn <= length so)%nat ->
  improving old new so sn l -> accepts old new so sn (length l).
Proof.
  intros SO SN LE (ND1 & ND2 & IMP).
  assert (LN : (length l <= length sn)%nat).
  { rewrite <- (map_length snd). apply NoDup_incl_length; [exact ND2 |].
    intros j Hj. apply in_map_iff in Hj. destruct Hj as ((i, j') & <- & Hij).
    simpl. apply (IMP i j' Hij). }
  intros i Hi. apply Rnot_le_lt. intros BAD.
  set (m := (length so - length l + i)%nat) in *.
  set (v := nth (nth m so 0%nat) old 0) in *.
  set (inA := fun p : nat * nat =>
                if in_dec Nat.eq_dec (fst p) (skipn (S m) so) then true else false).
  pose proof (filter_partition_length inA l) as PART.
  assert (A : (length (filter inA l) <= length so - S m)%nat).
  { rewrite <- skipn_length, <- (map_length fst). apply NoDup_incl_length.
    - apply NoDup_map_filter. exact ND1.
    - intros x Hx. apply in_map_iff in Hx. destruct Hx as (p & <- & Hp).
      apply filter_In in Hp. destruct Hp as (_ & Hp). unfold inA in Hp.
      destruct (in_dec Nat.eq_dec (fst p) (skipn (S m) so)); [assumption | discriminate]. }
  assert (B : (length (filter (fun p => negb (inA p)) l) <= i)%nat).
  { assert (LF : length (firstn i sn) = i) by (apply firstn_length_le; lia).
    rewrite <- LF, <- (map_length snd). apply NoDup_incl_length.
    - apply NoDup_map_filter. exact ND2.
    - intros x Hx. apply in_map_iff in Hx. destruct Hx as ((a, b) & <- & Hp).
      apply filter_In in Hp. destruct Hp as (Hp & NA).
      destruct (IMP a b Hp) as (Ia & Ib & Lt). simpl.
      assert (Ha : nth a old 0 <= v).
      { apply In_nth with (d := 0%nat) in Ia. destruct Ia as (k & Hk & <-).
        unfold v. apply sorted_by_le; [exact SO |]. split; [| unfold m; lia].
        apply Nat.nlt_ge. intros MK. unfold inA in NA. cbn [fst] in NA.
        destruct in_dec as [? | NI]; [discriminate |]. apply NI.
        replace (nth k so 0%nat) with (nth (k - S m) (skipn (S m) so) 0%nat)
          by (rewrite nth_skipn'; f_equal; lia).
        apply nth_In. rewrite skipn_length. lia. }
      apply In_nth with (d := 0%nat) in Ib. destruct Ib as (k & Hk & <-).
      destruct (Nat.lt_ge_cases k i) as [KI | KI].
      + rewrite <- (nth_firstn' i sn k 0%nat KI). apply nth_In. lia.
      + exfalso. pose proof (sorted_by_le new sn i k SN ltac:(lia)). lra. }
  unfold m in *. lia.
Qed.

Lemma combine_fst {A B} (a : list A) (b : list B) : length a = length b ->
  map fst (combine a b) = a.
Proof.
  revert b. induction a as [| x a IH]; intros [| y b] H; simpl in *;
    try discriminate; [reflexivity |]. f_equal. auto.
Qed.

Lemma combine_snd {A B} (a : list A) (b : list B) : length a = length b ->
  map snd (combine a b) = b.
Proof.
  revert b. induction a as [| x a IH]; intros [| y b] H; simpl in *;
    try discriminate; [reflexivity |]. f_equal. auto.
Qed.

Lemma in_last_n {A} n (l : list A) x : In x (last_n n l) -> In x l.
Proof.
  intros H. unfold last_n in H.
  rewrite <- (firstn_skipn (length l - n) l). apply in_or_app. right. exact H.
Qed.

Lemma in_firstn {A} n (l : list A) x : In x (firstn n l) -> In x l.
Proof.
  intros H. rewrite <- (firstn_skipn n l). apply in_or_app. left. exact H.
Qed.

Lemma accepts_improving old new so sn k :
  sorted_by old so -> sorted_by new sn ->
  (k <= length so)%nat -> (k <= length sn)%nat ->
  accepts old new so sn k ->
  improving old new so sn (combine (last_n k so) (firstn k sn)).
Proof.
  intros (N1 & _) (N2 & _) L1 L2 A.
  assert (LL : length (last_n k so) = length (firstn k sn))
    by (rewrite last_n_length, firstn_length_le; lia).
  split; [rewrite combine_fst by exact LL; apply NoDup_skipn; exact N1 |].
  split; [rewrite combine_snd by exact LL; apply NoDup_firstn; exact N2 |].
  intros i j H.
  apply In_nth with (d := (0%nat, 0%nat)) in H. destruct H as (m & Hm & E).
  rewrite combine_nth in E by exact LL. injection E as E1 E2.
  rewrite combine_length, <- LL, Nat.min_id, last_n_length in Hm by lia.
  split; [subst i; apply (in_last_n k); apply nth_In; rewrite last_n_length; lia |].
  split; [subst j; apply (in_firstn k); apply nth_In; rewrite firstn_length_le; lia |].
  rewrite nth_last_n in E1 by lia. rewrite nth_firstn' in E2 by lia.
  subst i j. apply A. exact Hm.
Qed.

(** ** Replacing values *)

Lemma set_nth_length {A} i (v : A) l : length (set_nth i v l) = length l.
Proof.
  revert i. induction l as [| a l IH]; intros [| i]; simpl; auto.
Qed.

Lemma nth_set_nth {A} i (v : A) l d k : (i < length l)%nat ->
  nth k (set_nth i v l) d = if Nat.eqb k i then v else nth k l d.
Proof.
  revert i k. induction l as [| a l IH]; intros [| i] [| k] H; simpl in *;
    try lia; try reflexivity. apply IH. lia.
Qed.

Lemma replace_all_length {A} (d : A) reps new old :
  length (replace_all d reps new old) = length old.
Proof.
  unfold replace_all. revert old. induction reps as [| p reps IH]; intros old;
    [reflexivity |]. simpl. rewrite IH. apply set_nth_length.
Qed.

Lemma nth_replace_not {A} (d e : A) reps new old i :
  ~ In i (map fst reps) -> nth i (replace_all d reps new old) e = nth i old e.
Proof.
  unfold replace_all. revert old. induction reps as [| p reps IH]; intros old H;
    [reflexivity |]. simpl in *. rewrite IH by tauto.
  destruct (Nat.lt_ge_cases (fst p) (length old)) as [L | G].
  - rewrite nth_set_nth by exact L.
    destruct (Nat.eqb_spec i (fst p)) as [-> | N]; [exfalso; tauto | reflexivity].
  - f_equal. clear - G. revert G. generalize (fst p). induction old as [| a old IH];
      intros [| n] G; simpl in *; try lia; [reflexivity | reflexivity |].
    f_equal. apply IH. lia.
Qed.

Lemma nth_replace_in {A} (d e : A) reps new old i j :
  NoDup (map fst reps) -> In (i, j) reps -> (i < length old)%nat ->
  nth i (replace_all d reps new old) e = nth j new d.
Proof.
  unfold replace_all. revert old. induction reps as [| p reps IH];
    intros old N H L; [contradiction |]. simpl in *.
  inversion N as [| ? ? NI N']; subst. destruct H as [-> | H].
  - cbn [fst snd]. change (nth i (replace_all d reps new (set_nth i (nth j new d) old)) e = nth j new d).
    rewrite nth_replace_not by exact NI.
    rewrite nth_set_nth by exact L. rewrite Nat.eqb_refl. reflexivity.
  - apply IH; auto. rewrite set_nth_length. exact L.
Qed.

Lemma count_le_mono t l m : length l = length m ->
  (forall i, (i < length l)%nat -> nth i m 0 <= nth i l 0) ->
  (count_le t l <= count_le t m)%nat.
Proof.
  unfold count_le. revert m. induction l as [| a l IH]; intros [| b m] H K;
    simpl in *; try lia; try discriminate.
  assert (IHm : (length (filter (fun x => Rleb x t) l) <=
                length (filter (fun x => Rleb x t) m))%nat).
  { apply IH; [lia |]. intros i Hi. apply (K (S i)). lia. }
  pose proof (K 0%nat ltac:(lia)) as K0. simpl in K0.
  destruct (Rleb a t) eqn:E1, (Rleb b t) eqn:E2; simpl; try lia.
  apply (proj1 (Rleb_true _ _)) in E1. apply (proj1 (Rleb_false _ _)) in E2. lra.
Qed.
