(** Lemmas about the basis functions: the Gaussian integral and the binomial
    series. *)
From Coq Require Import Reals Psatz.
From Coquelicot Require Import Coquelicot.
From Verif Require Import RList M_Basis S_Basis.

(** ** The Gaussian integral *)

Section Gauss.
  Variable E : R -> R.
  Hypothesis E0 : E 0 = 0.
  Hypothesis ED : forall x : R, is_derive E x (exp (- x ^ 2)).

  Let h (x t : R) : R := exp (- x ^ 2 * (1 + t ^ 2)) / (1 + t ^ 2).
  Let G (x : R) : R := RInt (fun t => h x t) 0 1.

  Lemma den_pos t : 0 < 1 + t ^ 2.
  Proof. pose proof (pow2_ge_0 t). lra. Qed.

  Lemma h_derive (x t : R) : is_derive (fun u => h u t) x (- 2 * x * exp (- x ^ 2 * (1 + t ^ 2))).
  Proof.
    unfold h. pose proof (den_pos t) as D. auto_derive; [lra |].
    change (x ^ 2) with (x * (x * 1)). change (t ^ 2) with (t * (t * 1)) in *.
    field. lra.
  Qed.

  Lemma h_continuous x t : continuous (fun t => h x t) t.
  Proof.
    pose proof (den_pos t). apply (ex_derive_continuous (fun t => h x t)).
    unfold h. auto_derive. lra.
  Qed.

  Lemma h_int x : ex_RInt (fun t => h x t) 0 1.
  Proof. apply (ex_RInt_continuous (V := R_CompleteNormedModule)). intros t _. apply h_continuous. Qed.

  Lemma gauss_scaled x : RInt (fun t => x * exp (- x ^ 2 * t ^ 2)) 0 1 = E x.
  Proof.
    apply is_RInt_unique.
    replace (E x) with (minus (E (x * 1)) (E (x * 0)))
      by (rewrite Rmult_1_r, Rmult_0_r, E0; unfold minus, plus, opp; simpl; ring).
    apply (is_RInt_derive (fun t => E (x * t))).
    - intros t _.
      replace (x * exp (- x ^ 2 * t ^ 2)) with (scal x (exp (- (x * t) ^ 2)))
        by (unfold scal; simpl; unfold mult; simpl; f_equal; f_equal; ring).
      apply (is_derive_comp E (fun t => x * t)); [apply ED |].
      auto_derive; [exact I | ring].
    - intros t _. apply (ex_derive_continuous (fun t => x * exp (- x ^ 2 * t ^ 2))).
      auto_derive. exact I.
  Qed.

  Lemma G_derive x : is_derive G x (- 2 * exp (- x ^ 2) * E x).
  Proof.
    replace (- 2 * exp (- x ^ 2) * E x) with (RInt (fun t => Derive (fun u => h u t) x) 0 1).
    - apply is_derive_RInt_param.
      + exists (mkposreal 1 Rlt_0_1). intros y _ t _. eexists. apply h_derive.
      + intros t _.
        apply (continuity_2d_pt_ext (fun u v => - 2 * u * exp (- u ^ 2 * (1 + v ^ 2)))).
        { intros u v. symmetry. apply is_derive_unique, h_derive. }
        apply continuity_2d_pt_mult.
        * apply continuity_2d_pt_mult; [apply continuity_2d_pt_const | apply continuity_2d_pt_id1].
        * apply (continuity_1d_2d_pt_comp exp).
          { apply derivable_continuous_pt, derivable_pt_exp. }
          apply continuity_2d_pt_mult.
          -- apply continuity_2d_pt_opp. apply (continuity_1d_2d_pt_comp (fun u => u ^ 2)).
             { apply derivable_continuous_pt, derivable_pt_pow. }
             apply continuity_2d_pt_id1.
          -- apply continuity_2d_pt_plus; [apply continuity_2d_pt_const |].
             apply (continuity_1d_2d_pt_comp (fun u => u ^ 2)).
             { apply derivable_continuous_pt, derivable_pt_pow. }
             apply continuity_2d_pt_id2.
      + exists (mkposreal 1 Rlt_0_1). intros y _. apply h_int.
    - transitivity (RInt (fun t => scal (- 2 * exp (- x ^ 2)) (x * exp (- x ^ 2 * t ^ 2))) 0 1).
      + apply RInt_ext. intros t _.
        transitivity (- 2 * x * exp (- x ^ 2 * (1 + t ^ 2)));
          [apply is_derive_unique, h_derive |].
        unfold scal; simpl; unfold mult; simpl.
        replace (- (x * (x * 1)) * (1 + t * (t * 1)))
          with (- (x * (x * 1)) + - (x * (x * 1)) * (t * (t * 1))) by ring.
        rewrite exp_plus. ring.
      + rewrite (RInt_scal (V := R_CompleteNormedModule)).
        * rewrite gauss_scaled. reflexivity.
        * apply (ex_RInt_continuous (V := R_CompleteNormedModule)). intros t _.
          apply (ex_derive_continuous (fun t => x * exp (- x ^ 2 * t ^ 2))).
          auto_derive. exact I.
  Qed.

  Lemma G_zero : G 0 = PI / 4.
  Proof.
    unfold G. transitivity (RInt (fun t => / (1 + t ^ 2)) 0 1).
    - apply RInt_ext. intros t _. unfold h.
      replace (- 0 ^ 2 * (1 + t ^ 2)) with 0 by ring. rewrite exp_0. apply Rmult_1_l.
    - apply is_RInt_unique. rewrite <- atan_1.
      replace (atan 1) with (minus (atan 1) (atan 0))
        by (rewrite atan_0; unfold minus, plus, opp; simpl; ring).
      apply (is_RInt_derive atan).
      + intros t _. apply is_derive_Reals. apply derivable_pt_lim_atan.
      + intros t _. apply (ex_derive_continuous (fun t => / (1 + t ^ 2))).
        pose proof (den_pos t). auto_derive. lra.
  Qed.

  Lemma square_sum x : 0 < x -> E x ^ 2 + G x = PI / 4.
  Proof.
    intros H. rewrite <- G_zero. replace (G 0) with (E 0 ^ 2 + G 0) by (rewrite E0; ring).
    symmetry. apply (eq_is_derive (fun x => E x ^ 2 + G x) 0 x); [| exact H].
    intros t _. change (is_derive (fun x => E x ^ 2 + G x) t 0).
    replace 0 with (plus (2 * E t * exp (- t ^ 2)) (- 2 * exp (- t ^ 2) * E t))
      by (unfold plus; simpl; ring).
    apply (is_derive_plus (fun x => E x ^ 2) G); [| apply G_derive].
    replace (2 * E t * exp (- t ^ 2)) with (scal (exp (- t ^ 2)) (2 * E t))
      by (unfold scal; simpl; unfold mult; simpl; ring).
    apply (is_derive_comp (fun y => y ^ 2) E); [| apply ED].
    auto_derive; [exact I | ring].
  Qed.

  Lemma G_bounds x : 0 <= G x <= exp (- x ^ 2).
  Proof.
    unfold G. split.
    - apply Rle_trans with (RInt (fun _ => 0) 0 1);
        [right; rewrite RInt_const; unfold scal; simpl; unfold mult; simpl; ring |].
      apply RInt_le; [lra | apply ex_RInt_const | apply h_int |].
      intros t _. unfold h. pose proof (den_pos t).
      apply Rmult_le_pos; [left; apply exp_pos | left; apply Rinv_0_lt_compat; lra].
    - apply Rle_trans with (RInt (fun _ => exp (- x ^ 2)) 0 1);
        [| right; rewrite RInt_const; unfold scal; simpl; unfold mult; simpl; ring].
      apply RInt_le; [lra | apply h_int | apply ex_RInt_const |].
      intros t _. unfold h. pose proof (den_pos t) as D. pose proof (pow2_ge_0 t) as T.
      pose proof (pow2_ge_0 x) as X.
      assert (A : exp (- x ^ 2 * (1 + t ^ 2)) <= exp (- x ^ 2)).
      { destruct (Req_dec (- x ^ 2 * (1 + t ^ 2)) (- x ^ 2)) as [-> | N]; [lra |].
        left. apply exp_increasing. pose proof (Rmult_le_pos _ _ X T). lra. }
      pose proof (exp_pos (- x ^ 2)) as P.
      apply (Rmult_le_reg_r (1 + t ^ 2)); [exact D |].
      unfold Rdiv. rewrite Rmult_assoc, Rinv_l, Rmult_1_r by lra.
      pose proof (Rmult_le_pos _ _ (Rlt_le _ _ P) T). lra.
  Qed.

  Lemma E_increasing x y : x < y -> E x < E y.
  Proof.
    intros H. destruct (MVT_gen E x y (fun t => exp (- t ^ 2))) as (c & _ & C).
    - intros t _. apply ED.
    - intros t _. apply continuity_pt_filterlim.
      apply (ex_derive_continuous E). eexists. apply ED.
    - pose proof (exp_pos (- c ^ 2)) as P.
      assert (Q : 0 < y - x) by lra. pose proof (Rmult_lt_0_compat _ _ P Q). lra.
  Qed.

  Lemma E_odd x : E (- x) = - E x.
  Proof.
    assert (D : forall t, is_derive (fun u => E (- u) + E u) t 0).
    { intros t. replace 0 with (plus (scal (- 1) (exp (- (- t) ^ 2))) (exp (- t ^ 2)))
        by (unfold plus, scal; simpl; unfold mult; simpl;
            replace (- t * (- t * 1)) with (t * (t * 1)) by ring; ring).
      apply (is_derive_plus (fun u => E (- u)) E); [| apply ED].
      apply (is_derive_comp E (fun u => - u)); [apply ED |]. auto_derive; [exact I | ring]. }
    assert (Z : forall t, 0 < t -> E (- t) + E t = 0).
    { intros t H. transitivity (E (- 0) + E 0).
      - symmetry. apply (eq_is_derive (fun u => E (- u) + E u) 0 t); [| exact H].
        intros u _. apply D.
      - rewrite Ropp_0, E0. ring. }
    destruct (Rtotal_order 0 x) as [H | [<- | H]].
    - pose proof (Z x H). lra.
    - rewrite Ropp_0, E0. ring.
    - pose proof (Z (- x) ltac:(lra)) as Q. rewrite Ropp_involutive in Q. lra.
  Qed.

  Lemma E_limit eps : 0 < eps ->
    exists m, 0 < m /\ forall x, m < x -> sqrt PI / 2 - eps < E x < sqrt PI / 2.
  Proof.
    intros H. pose proof PI_RGT_0 as PP. set (L := sqrt PI / 2).
    assert (LP : 0 < L) by (pose proof (sqrt_lt_R0 PI PP); unfold L; lra).
    assert (L2 : L ^ 2 = PI / 4).
    { unfold L. replace ((sqrt PI / 2) ^ 2) with (sqrt PI * sqrt PI / 4) by field.
      rewrite sqrt_sqrt by lra. reflexivity. }
    set (d := eps * L).
    assert (DP : 0 < d) by (apply Rmult_lt_0_compat; assumption).
    (* exp (- x^2) < d for large x *)
    set (m := Rmax 1 (- ln d)).
    assert (M1 : 1 <= m) by apply Rmax_l. assert (M2 : - ln d <= m) by apply Rmax_r.
    exists m. split; [lra |]. intros x X.
    assert (XP : 0 < x) by lra. pose proof (square_sum x XP) as S.
    pose proof (G_bounds x) as (B1 & B2). rewrite <- L2 in S.
    assert (EP : 0 < E x) by (rewrite <- E0; apply E_increasing; exact XP).
    assert (B3 : exp (- x ^ 2) < d).
    { apply Rlt_le_trans with (exp (ln d)); [apply exp_increasing | rewrite exp_ln by exact DP; lra].
      assert (x <= x ^ 2) by (simpl; rewrite Rmult_1_r; apply Rle_trans with (x * 1);
        [lra | apply Rmult_le_compat_l; lra]). lra. }
    split.
    - apply Rnot_le_lt. intros C.
      assert (E x ^ 2 <= (L - eps) * E x).
      { simpl. rewrite Rmult_1_r. apply Rmult_le_compat_r; lra. }
      assert (L - eps > 0) by lra.
      assert ((L - eps) * E x <= (L - eps) * (L - eps)) by (apply Rmult_le_compat_l; lra).
      assert ((L - eps) * (L - eps) <= (L - eps) * L) by (apply Rmult_le_compat_l; lra).
      unfold d in B3. lra.
    - (* strictly below: otherwise a larger argument exceeds it *)
      pose proof (E_increasing x (x + 1) ltac:(lra)) as Q.
      pose proof (square_sum (x + 1) ltac:(lra)) as S1. pose proof (G_bounds (x + 1)) as (B4 & _).
      rewrite <- L2 in S1.
      assert (E (x + 1) <= L).
      { apply Rnot_lt_le. intros C.
        assert (L * L < E (x + 1) * E (x + 1)) by (apply Rmult_le_0_lt_compat; lra). simpl in *. lra. }
      lra.
  Qed.

  Lemma E_below x : - (sqrt PI / 2) < E x < sqrt PI / 2.
  Proof.
    destruct (E_limit 1 Rlt_0_1) as (m & MP & M).
    set (y := Rmax (x + 1) (m + 1)). pose proof (Rmax_l (x + 1) (m + 1)).
    pose proof (Rmax_r (x + 1) (m + 1)). fold y in H, H0.
    set (z := Rmax (- x + 1) (m + 1)). pose proof (Rmax_l (- x + 1) (m + 1)).
    pose proof (Rmax_r (- x + 1) (m + 1)). fold z in H1, H2.
    split.
    - destruct (M z ltac:(lra)) as (_ & A). pose proof (E_increasing (- z) x ltac:(lra)) as B.
      rewrite E_odd in B. lra.
    - destruct (M y ltac:(lra)) as (_ & A). pose proof (E_increasing x y ltac:(lra)). lra.
  Qed.
End Gauss.

(** ** The error function *)

Section Erf.
  Variable erf : R -> R.
  Hypothesis HE : IsErf erf.

  Let c : R := sqrt PI / 2.

  Lemma c_pos : 0 < c.
  Proof. unfold c. pose proof (sqrt_lt_R0 PI PI_RGT_0). lra. Qed.

  Lemma scaled_zero : c * erf 0 = 0.
  Proof. rewrite (proj1 HE). ring. Qed.

  Lemma erf_derive (x : R) : is_derive erf x (2 / sqrt PI * exp (- x ^ 2)).
  Proof. apply is_derive_Reals, HE. Qed.

  Lemma scaled_derive (x : R) : is_derive (fun x => c * erf x) x (exp (- x ^ 2)).
  Proof.
    replace (exp (- x ^ 2)) with (c * (2 / sqrt PI * exp (- x ^ 2))).
    - apply (is_derive_scal erf). apply erf_derive.
    - unfold c. field. pose proof (sqrt_lt_R0 PI PI_RGT_0). lra.
  Qed.

  Lemma erf_increasing x y : x < y -> erf x < erf y.
  Proof.
    intros H. pose proof (E_increasing _ scaled_derive x y H) as Q. cbv beta in Q.
    apply (Rmult_lt_reg_l c); [exact c_pos | exact Q].
  Qed.

  Lemma erf_odd x : erf (- x) = - erf x.
  Proof.
    pose proof (E_odd _ scaled_zero scaled_derive x) as Q. cbv beta in Q.
    pose proof c_pos. apply (Rmult_eq_reg_l c); lra.
  Qed.

  Lemma erf_bounds x : -1 < erf x < 1.
  Proof.
    pose proof (E_below _ scaled_zero scaled_derive x) as (A & B). fold c in A, B.
    pose proof c_pos. split; apply (Rmult_lt_reg_l c); lra.
  Qed.

  Lemma erf_limit eps : 0 < eps -> exists m, 0 < m /\ forall x, m < x -> 1 - eps < erf x.
  Proof.
    intros H. pose proof c_pos as C.
    destruct (E_limit _ scaled_zero scaled_derive (c * eps)) as (m & MP & M);
      [apply Rmult_lt_0_compat; assumption |].
    exists m. split; [exact MP |]. intros x X. destruct (M x X) as (A & _). fold c in A.
    apply (Rmult_lt_reg_l c); [exact C | lra].
  Qed.

  Lemma erf_continuous (x : R) : continuity_pt erf x.
  Proof.
    apply continuity_pt_filterlim, (ex_derive_continuous erf). eexists. apply erf_derive.
  Qed.

  Lemma erf_onto y : -1 < y < 1 -> exists x, erf x = y.
  Proof.
    intros (A & B).
    destruct (erf_limit (1 - y)) as (m & MP & M); [lra |]. specialize (M (m + 1) ltac:(lra)).
    destruct (erf_limit (1 + y)) as (m' & MP' & M'); [lra |]. specialize (M' (m' + 1) ltac:(lra)).
    destruct (IVT_gen erf (- (m' + 1)) (m + 1) y) as (x & _ & E).
    - intros x. apply erf_continuous.
    - rewrite erf_odd. rewrite Rmin_left, Rmax_right by (pose proof (erf_bounds (m + 1)); lra). lra.
    - exists x. exact E.
  Qed.

  Lemma erf_inj x y : erf x = erf y -> x = y.
  Proof.
    intros H. destruct (Rtotal_order x y) as [L | [E | L]]; [| exact E |];
      apply erf_increasing in L; lra.
  Qed.
End Erf.

(** There is an error function and it has an inverse. *)
Lemma erf_exists : exists erf erfinv, IsErf erf /\ IsErfInv erf erfinv.
Proof.
  set (erf := fun x => RInt (fun t => 2 / sqrt PI * exp (- t ^ 2)) 0 x).
  assert (HE : IsErf erf).
  { split; [exact (RInt_point 0 (fun t => 2 / sqrt PI * exp (- t ^ 2))) |]. intros x. apply is_derive_Reals.
    apply (is_derive_RInt (fun t => 2 / sqrt PI * exp (- t ^ 2)) erf 0 x).
    - exists (mkposreal 1 Rlt_0_1). intros y _.
      apply (RInt_correct (V := R_CompleteNormedModule) (fun t => 2 / sqrt PI * exp (- t ^ 2)) 0 y).
      apply (ex_RInt_continuous (V := R_CompleteNormedModule)). intros t _.
      apply (ex_derive_continuous (fun t => 2 / sqrt PI * exp (- t ^ 2))). auto_derive.
      pose proof (sqrt_lt_R0 PI PI_RGT_0). try lra; exact I.
    - apply (ex_derive_continuous (fun t => 2 / sqrt PI * exp (- t ^ 2))). auto_derive.
      pose proof (sqrt_lt_R0 PI PI_RGT_0). try lra; exact I. }
  assert (D : forall y, {x | -1 < y < 1 -> erf x = y}).
  { intros y. destruct (Rlt_le_dec (-1) y) as [A |]; [| exists 0; lra].
    destruct (Rlt_le_dec y 1) as [B |]; [| exists 0; lra].
    destruct (IVT_Rbar_incr erf m_infty p_infty (-1) 1 y) as (x & _ & _ & E).
    - apply is_lim_spec. intros eps.
      destruct (erf_limit erf HE eps (cond_pos eps)) as (m & MP & M). exists (- m). intros x X.
      specialize (M (- x) ltac:(lra)). rewrite (erf_odd erf HE) in M.
      pose proof (erf_bounds erf HE x). apply Rabs_def1; lra.
    - apply is_lim_spec. intros eps.
      destruct (erf_limit erf HE eps (cond_pos eps)) as (m & MP & M). exists m. intros x X.
      specialize (M x X). pose proof (erf_bounds erf HE x). apply Rabs_def1; lra.
    - intros x _ _. apply erf_continuous. exact HE.
    - exact I.
    - split; simpl; lra.
    - exists x. intros _. exact E. }
  exists erf, (fun y => proj1_sig (D y)). split; [exact HE |]. intros y H.
  destruct (D y) as (x & E). simpl. apply E. exact H.
Qed.

(** ** The binomial series *)

Section Binomial.
  Variable a : R.
  Hypothesis AP : 0 < a.

  Lemma INR1 k : 0 < INR k + 1.
  Proof. pose proof (pos_INR k). lra. Qed.

  Lemma rising_pos k : 0 < rising a k.
  Proof.
    induction k as [| k IH]; cbn [rising]; [lra |].
    apply Rmult_lt_0_compat; [exact IH |].
    apply Rmult_lt_0_compat; [pose proof (pos_INR k); lra | apply Rinv_0_lt_compat, INR1].
  Qed.

  Lemma rising_step k : (INR k + 1) * rising a (S k) = (a + INR k) * rising a k.
  Proof. cbn [rising]. pose proof (INR1 k). field. lra. Qed.

  Lemma rising_radius : CV_radius (rising a) = 1.
  Proof.
    replace (Finite 1) with (Rbar_inv 1) by (simpl; f_equal; field).
    change (Rbar_inv 1) with (Finite (/ 1)).
    apply (CV_radius_finite_DAlembert (rising a) 1); [| lra |].
    - intros n. pose proof (rising_pos n). lra.
    - apply (is_lim_seq_ext (fun n => 1 + (a - 1) * / (INR n + 1))).
      + intros n. pose proof (rising_pos n) as P. pose proof (INR1 n) as Q. cbn [rising].
        replace (rising a n * ((a + INR n) / (INR n + 1)) / rising a n)
          with ((a + INR n) / (INR n + 1)) by (field; lra).
        rewrite Rabs_right; [field; lra |]. apply Rle_ge.
        apply Rmult_le_pos; [pose proof (pos_INR n); lra | left; apply Rinv_0_lt_compat; exact Q].
      + replace (Finite 1) with (Finite (1 + (a - 1) * 0)) by (f_equal; ring).
        apply is_lim_seq_plus'; [apply is_lim_seq_const |].
        apply (is_lim_seq_mult' _ _ (a - 1) 0); [apply is_lim_seq_const |].
        apply (is_lim_seq_ext (fun n => / INR (S n))).
        { intros n. rewrite S_INR. reflexivity. }
        apply (is_lim_seq_incr_1 (fun n => / INR n)).
        replace (Finite 0) with (Rbar_inv p_infty) by reflexivity.
        apply is_lim_seq_inv; [apply is_lim_seq_INR | discriminate].
  Qed.

  Let f (z : R) : R := PSeries (rising a) z.

  Lemma inside z : -1 < z < 1 -> Rbar_lt (Rabs z) (CV_radius (rising a)).
  Proof. intros (A & B). rewrite rising_radius. simpl. apply Rabs_def1; assumption. Qed.

  (** The differential equation *)
  Lemma series_equation z : -1 < z < 1 -> (1 - z) * PSeries (PS_derive (rising a)) z = a * f z.
  Proof.
    intros H. pose proof (inside z H) as Hz.
    assert (Hd : Rbar_lt (Rabs z) (CV_radius (PS_derive (rising a)))) by (rewrite CV_radius_derive; exact Hz).
    assert (X1 : ex_pseries (PS_derive (rising a)) z) by (apply CV_radius_inside; exact Hd).
    assert (X0 : ex_pseries (rising a) z) by (apply CV_radius_inside; exact Hz).
    replace ((1 - z) * PSeries (PS_derive (rising a)) z)
      with (PSeries (PS_derive (rising a)) z - z * PSeries (PS_derive (rising a)) z) by ring.
    rewrite <- (PSeries_incr_1 (PS_derive (rising a))).
    rewrite <- PSeries_minus; [| exact X1 | apply ex_pseries_incr_1; exact X1].
    unfold f. rewrite <- PSeries_scal. apply PSeries_ext. intros n.
    unfold PS_minus, PS_plus, PS_opp, PS_scal, PS_derive, PS_incr_1, plus, opp, scal; simpl.
    unfold mult; simpl. destruct n as [| n].
    - unfold Hierarchy.zero. simpl. field.
    - change (match n with O => 1 | S _ => INR n + 1 end) with (INR (S n)).
      change (rising a n * ((a + INR n) / (INR n + 1))) with (rising a (S n)).
      pose proof (INR1 (S n)). field. lra.
  Qed.

  Lemma series_value z : -1 < z < 1 -> f z = Rpower (1 - z) (- a).
  Proof.
    intros H. set (g := fun z => f z * exp (a * ln (1 - z))).
    assert (D : forall t, -1 < t < 1 -> is_derive g t 0).
    { intros t Ht. pose proof (series_equation t Ht) as Q.
      assert (Fd : is_derive f t (PSeries (PS_derive (rising a)) t))
        by (apply is_derive_PSeries, inside, Ht).
      assert (Ed : is_derive (fun z => exp (a * ln (1 - z))) t
                (- (a / (1 - t)) * exp (a * ln (1 - t)))).
      { auto_derive; [lra |]. replace (1 + - t) with (1 - t) by ring. field. lra. }
      pose proof (is_derive_mult f _ t _ _ Fd Ed (fun n m => Rmult_comm n m)) as M.
      replace 0 with (plus (mult (PSeries (PS_derive (rising a)) t) (exp (a * ln (1 - t))))
        (mult (f t) (- (a / (1 - t)) * exp (a * ln (1 - t))))); [exact M |].
      unfold plus, mult; simpl.
      replace (PSeries (PS_derive (rising a)) t) with (a * f t / (1 - t))
        by (rewrite <- Q; field; lra).
      field. lra. }
    assert (Z : g z = g 0).
    { destruct (Rtotal_order 0 z) as [L | [<- | L]]; [| reflexivity |].
      - symmetry. apply (eq_is_derive g 0 z); [| exact L]. intros t Ht. apply D. lra.
      - apply (eq_is_derive g z 0); [| exact L]. intros t Ht. apply D. lra. }
    assert (F0 : f 0 = 1) by (unfold f; rewrite PSeries_0; reflexivity).
    unfold g in Z. rewrite F0, Rminus_0_r, ln_1, Rmult_0_r, exp_0 in Z.
    unfold Rpower. replace (- a * ln (1 - z)) with (- (a * ln (1 - z))) by ring.
    rewrite exp_Ropp. pose proof (exp_pos (a * ln (1 - z))).
    apply (Rmult_eq_reg_r (exp (a * ln (1 - z)))); [| lra]. rewrite Z. field. lra.
  Qed.

  Lemma is_series_rising z : -1 < z < 1 ->
    is_series (fun k => rising a k * z ^ k) (Rpower (1 - z) (- a)).
  Proof.
    intros H. rewrite <- (series_value z H). unfold f.
    pose proof (PSeries_correct _ _ (CV_radius_inside _ _ (inside z H))) as P.
    unfold is_pseries in P. eapply is_series_ext; [| exact P]. intros n. simpl.
    rewrite pow_n_pow. unfold scal; simpl; unfold mult; simpl. ring.
  Qed.
End Binomial.

(** Coefficients of the derivatives are again of this form. *)
Lemma rising_shift a k : 0 < a -> rising a (S k) * (INR k + 1) = a * rising (a + 1) k.
Proof.
  intros AP. induction k as [| k IH]; [simpl; field |].
  cbn [rising] in *. rewrite S_INR in *. pose proof (INR1 k).
  assert (INR k + 1 + 1 > 0) by lra.
  replace (rising a k * ((a + INR k) / (INR k + 1)) * ((a + (INR k + 1)) / (INR k + 1 + 1)) *
     (INR k + 1 + 1))
    with (rising a k * ((a + INR k) / (INR k + 1)) * (INR k + 1) *
          ((a + 1 + INR k) / (INR k + 1))) by (field; lra).
  rewrite IH. ring.
Qed.

Lemma Rpower_split x y k : 0 < x -> Rpower x (- (y + INR k)) = Rpower x (- y) * / x ^ k.
Proof.
  intros H. replace (- (y + INR k)) with (- y + - INR k) by ring.
  rewrite Rpower_plus, (Rpower_Ropp x (INR k)), Rpower_pow by exact H. reflexivity.
Qed.

(** First and second factorial moments *)
Lemma first_moment a z : 0 < a -> -1 < z < 1 ->
  is_series (fun k => INR k * (rising a k * z ^ k)) (a * z / (1 - z) * Rpower (1 - z) (- a)).
Proof.
  intros AP H. pose proof (is_series_rising (a + 1) ltac:(lra) z H) as P.
  pose proof (Rpower_split (1 - z) a 1 ltac:(lra)) as Q. simpl INR in Q. rewrite Q in P. clear Q.
  apply (is_series_scal (a * z)) in P.
  assert (E : is_series (fun k => INR (S k) * (rising a (S k) * z ^ (S k)))
                (scal (a * z) (Rpower (1 - z) (- a) * / (1 - z) ^ 1))).
  { eapply is_series_ext; [| exact P]. intros k. unfold scal; simpl; unfold mult; simpl.
    change (match k with O => 1 | S _ => INR k + 1 end) with (INR (S k)). rewrite S_INR.
    change (rising a k * ((a + INR k) / (INR k + 1))) with (rising a (S k)).
    transitivity (rising a (S k) * (INR k + 1) * (z * z ^ k)); [| ring].
    rewrite rising_shift by exact AP. ring. }
  apply (is_series_decr_1 (fun k => INR k * (rising a k * z ^ k))).
  unfold plus, opp; simpl. unfold scal in E; simpl in E; unfold mult in E; simpl in E.
  replace (a * z / (1 - z) * Rpower (1 - z) (- a) + - (0 * (1 * 1)))
    with (a * z * (Rpower (1 - z) (- a) * / ((1 - z) * 1))) by (field; lra).
  exact E.
Qed.

Lemma second_moment a z : 0 < a -> -1 < z < 1 ->
  is_series (fun k => INR k * (INR k - 1) * (rising a k * z ^ k))
    (a * (a + 1) * z ^ 2 / (1 - z) ^ 2 * Rpower (1 - z) (- a)).
Proof.
  intros AP H. pose proof (first_moment (a + 1) z ltac:(lra) H) as P.
  pose proof (Rpower_split (1 - z) a 1 ltac:(lra)) as Q. simpl INR in Q. rewrite Q in P. clear Q.
  apply (is_series_scal (a * z)) in P.
  assert (E : is_series (fun k => INR (S k) * (INR (S k) - 1) * (rising a (S k) * z ^ (S k)))
    (scal (a * z) ((a + 1) * z / (1 - z) * (Rpower (1 - z) (- a) * / (1 - z) ^ 1)))).
  { eapply is_series_ext; [| exact P]. intros k. unfold scal; simpl; unfold mult; simpl.
    change (match k with O => 1 | S _ => INR k + 1 end) with (INR (S k)). rewrite S_INR.
    change (rising a k * ((a + INR k) / (INR k + 1))) with (rising a (S k)).
    transitivity (rising a (S k) * (INR k + 1) * INR k * (z * z ^ k)); [| ring].
    rewrite rising_shift by exact AP. ring. }
  apply (is_series_decr_1 (fun k => INR k * (INR k - 1) * (rising a k * z ^ k))).
  unfold plus, opp; simpl. unfold scal in E; simpl in E; unfold mult in E; simpl in E.
  match goal with |- is_series _ ?v => match type of E with is_series _ ?w =>
    replace v with w by (field; lra) end end.
  exact E.
Qed.

Lemma series_to (u v : nat -> R) (l l' : R) :
  is_series u l -> (forall k, u k = v k) -> l = l' -> infinite_sum v l'.
Proof.
  intros H E <-. apply is_series_Reals. eapply is_series_ext; [exact E | exact H].
Qed.

(** The negative binomial distribution and its moments *)
Lemma nb_distribution a z : 0 < a -> 0 <= z < 1 ->
  Distribution (nb_pmf a z) (a * z / (1 - z)) (a * z / (1 - z) ^ 2).
Proof.
  intros AP Z. assert (H : -1 < z < 1) by lra.
  set (w := Rpower (1 - z) a). assert (WP : 0 < w) by apply exp_pos.
  assert (WI : Rpower (1 - z) (- a) = / w) by apply Rpower_Ropp.
  split; [| split; [| split]].
  - intros k. unfold nb_pmf. fold w.
    apply Rmult_le_pos; [| apply pow_le; lra].
    apply Rmult_le_pos; [left; apply rising_pos; exact AP | lra].
  - pose proof (is_series_rising a AP z H) as P.
    apply (is_series_scal w) in P. rewrite WI in P.
    apply (series_to _ _ _ _ P); [intros k; unfold nb_pmf; fold w |];
      unfold scal; simpl; unfold mult; simpl; [ring | field; lra].
  - pose proof (first_moment a z AP H) as P.
    apply (is_series_scal w) in P. rewrite WI in P.
    apply (series_to _ _ _ _ P); [intros k; unfold nb_pmf; fold w |];
      unfold scal; simpl; unfold mult; simpl; [ring | field; lra].
  - set (m := a * z / (1 - z)).
    pose proof (is_series_rising a AP z H) as P0. pose proof (first_moment a z AP H) as P1.
    pose proof (second_moment a z AP H) as P2. rewrite WI in *.
    apply (is_series_scal (w * m ^ 2)) in P0. apply (is_series_scal (w * (1 - 2 * m))) in P1.
    apply (is_series_scal w) in P2.
    pose proof (is_series_plus _ _ _ _ (is_series_plus _ _ _ _ P0 P1) P2) as P.
    apply (series_to _ _ _ _ P).
    + intros k. unfold nb_pmf, scal, plus; simpl; unfold mult; simpl. fold w. ring.
    + unfold scal, plus; simpl; unfold mult; simpl. unfold m. field. lra.
Qed.
