(** Properties of the basis functions: asymmetric Gaussian (C59, C87), negative
    binomial (C88), its sampling (C89) and the Rayleigh distribution (C90). *)
From Coq Require Import Reals Psatz.
From Coquelicot Require Import Coquelicot.
From Verif Require Import RList M_Basis S_Basis L_Basis.

Lemma sqrt2_pos : 0 < sqrt 2.
Proof. apply sqrt_lt_R0. lra. Qed.

Lemma root_pos sigma : 0 < sigma -> 0 < sqrt (2 * PI * sigma ^ 2).
Proof.
  intros H. apply sqrt_lt_R0. pose proof PI_RGT_0.
  apply Rmult_lt_0_compat; [lra | apply pow_lt; exact H].
Qed.

Lemma root_split sigma : 0 < sigma -> sqrt (2 * PI * sigma ^ 2) = sqrt 2 * sqrt PI * sigma.
Proof.
  intros H. pose proof PI_RGT_0. rewrite sqrt_mult by (try apply pow2_ge_0; lra).
  rewrite sqrt_mult by lra. rewrite sqrt_pow2 by lra. reflexivity.
Qed.

Lemma norm_pos sigma r : 0 < sigma -> 0 < r -> 0 < 2 / (sqrt (2 * PI * sigma ^ 2) * (r + 1)).
Proof.
  intros S P. apply Rmult_lt_0_compat; [lra |]. apply Rinv_0_lt_compat.
  apply Rmult_lt_0_compat; [apply root_pos; exact S | lra].
Qed.

(** A function made of two pieces that meet *)
Lemma glue_derive (f g : R -> R) (c x l : R) :
  (x <= c -> is_derive f x l) -> (c <= x -> is_derive g x l) -> f c = g c ->
  is_derive (fun y => if Rltb y c then f y else g y) x l.
Proof.
  intros F G E. destruct (Rtotal_order x c) as [L | [-> | L]].
  - apply (is_derive_ext_loc f); [| apply F; lra].
    exists (mkposreal (c - x) ltac:(lra)). intros y Y. unfold ball in Y. simpl in Y.
    unfold AbsRing_ball, abs, minus, plus, opp in Y. simpl in Y. apply Rabs_def2 in Y.
    rewrite (proj2 (Rltb_true y c)) by lra. reflexivity.
  - apply is_derive_Reals. assert (F' := proj1 (is_derive_Reals f c l) (F (Rle_refl c))).
    assert (G' := proj1 (is_derive_Reals g c l) (G (Rle_refl c))).
    intros eps Heps. destruct (F' eps Heps) as (d1 & D1). destruct (G' eps Heps) as (d2 & D2).
    exists (mkposreal (Rmin d1 d2) (Rmin_stable_in_posreal d1 d2)). simpl. intros k N K.
    assert (K1 : Rabs k < d1) by (apply Rlt_le_trans with (1 := K), Rmin_l).
    assert (K2 : Rabs k < d2) by (apply Rlt_le_trans with (1 := K), Rmin_r).
    rewrite (proj2 (Rltb_false c c)) by lra.
    destruct (Rltb (c + k) c) eqn:Q.
    + rewrite <- E. apply D1; assumption.
    + apply D2; assumption.
  - apply (is_derive_ext_loc g); [| apply G; lra].
    exists (mkposreal (x - c) ltac:(lra)). intros y Y. unfold ball in Y. simpl in Y.
    unfold AbsRing_ball, abs, minus, plus, opp in Y. simpl in Y. apply Rabs_def2 in Y.
    rewrite (proj2 (Rltb_false y c)) by lra. reflexivity.
Qed.

Lemma glue_continuous (f g : R -> R) (c x : R) :
  continuity f -> continuity g -> f c = g c ->
  continuity_pt (fun y => if Rltb y c then f y else g y) x.
Proof.
  intros F G E. destruct (Rtotal_order x c) as [L | [-> | L]].
  - apply (continuity_pt_ext_loc f); [| apply F].
    exists (mkposreal (c - x) ltac:(lra)). intros y Y. unfold ball in Y. simpl in Y.
    unfold AbsRing_ball, abs, minus, plus, opp in Y. simpl in Y. apply Rabs_def2 in Y.
    rewrite (proj2 (Rltb_true y c)) by lra. reflexivity.
  - intros eps Heps. destruct (F c eps Heps) as (d1 & P1 & D1).
    destruct (G c eps Heps) as (d2 & P2 & D2).
    exists (Rmin d1 d2). split; [apply Rmin_pos; assumption |]. intros y (Dy & Y).
    rewrite (proj2 (Rltb_false c c)) by lra.
    destruct (Rltb y c) eqn:Q.
    + rewrite <- E. apply D1. split; [exact Dy | apply Rlt_le_trans with (1 := Y), Rmin_l].
    + apply D2. split; [exact Dy | apply Rlt_le_trans with (1 := Y), Rmin_r].
  - apply (continuity_pt_ext_loc g); [| apply G].
    exists (mkposreal (x - c) ltac:(lra)). intros y Y. unfold ball in Y. simpl in Y.
    unfold AbsRing_ball, abs, minus, plus, opp in Y. simpl in Y. apply Rabs_def2 in Y.
    rewrite (proj2 (Rltb_false y c)) by lra. reflexivity.
Qed.

(** ** C59: density *)

Theorem C59_density x mu sigma r : 0 < sigma -> 0 < r ->
  0 < asymmetric_gauss x mu sigma r /\
  asymmetric_gauss x mu sigma r = exp (log_asymmetric_gauss x mu sigma r) /\
  asymmetric_gauss x mu sigma r <= asymmetric_gauss mu mu sigma r /\
  continuity_pt (fun y => asymmetric_gauss y mu sigma r) x.
Proof.
  intros S P. pose proof (norm_pos sigma r S P) as N. unfold asymmetric_gauss, log_asymmetric_gauss.
  set (n := 2 / (sqrt (2 * PI * sigma ^ 2) * (r + 1))) in *.
  split; [destruct (Rltb x mu); apply Rmult_lt_0_compat; try exact N; apply exp_pos |].
  split; [destruct (Rltb x mu); rewrite exp_plus, exp_ln by exact N; reflexivity |].
  split.
  - rewrite (proj2 (Rltb_false mu mu)) by lra. rewrite (Rminus_diag_eq mu mu eq_refl).
    apply Rmult_le_compat_l; [lra |].
    replace (- (1 / 2) * (0 / (sigma * r)) ^ 2) with 0 by (unfold Rdiv; ring).
    assert (Q : forall y, exp (- (1 / 2) * y ^ 2) <= exp 0).
    { intros y. pose proof (pow2_ge_0 y). destruct (Req_dec (- (1 / 2) * y ^ 2) 0) as [-> |];
        [lra |]. left. apply exp_increasing. lra. }
    destruct (Rltb x mu); apply Q.
  - apply continuity_pt_mult; [apply continuity_pt_const; intros a b; reflexivity |].
    apply (glue_continuous (fun y => exp (- (1 / 2) * ((y - mu) / sigma) ^ 2))
             (fun y => exp (- (1 / 2) * ((y - mu) / (sigma * r)) ^ 2))).
    + intros y. apply continuity_pt_filterlim.
      apply (ex_derive_continuous (fun y => exp (- (1 / 2) * ((y - mu) / sigma) ^ 2))).
      auto_derive. lra.
    + intros y. apply continuity_pt_filterlim.
      apply (ex_derive_continuous (fun y => exp (- (1 / 2) * ((y - mu) / (sigma * r)) ^ 2))).
      auto_derive. pose proof (Rmult_lt_0_compat _ _ S P). lra.
    + f_equal. unfold Rdiv. ring.
Qed.

(** With asymmetry one it is the Gaussian, which is the exponential of its
    logarithmic version. *)
Theorem C59_symmetric x mu sigma : 0 < sigma ->
  asymmetric_gauss x mu sigma 1 = gauss x mu sigma /\
  gauss x mu sigma = exp (log_gauss x mu sigma).
Proof.
  intros S. pose proof (root_pos sigma S) as RP. split.
  - unfold asymmetric_gauss, gauss. rewrite Rmult_1_r.
    set (e := exp (- (1 / 2) * ((x - mu) / sigma) ^ 2)).
    replace (if Rltb x mu then e else e) with e by (destruct (Rltb x mu); reflexivity).
    field. lra.
  - unfold gauss, log_gauss. unfold Rminus at 2 3. rewrite !exp_plus, !exp_Ropp, exp_ln by exact S.
    pose proof PI_RGT_0. rewrite exp_ln by (apply sqrt_lt_R0; lra).
    rewrite root_split by exact S. rewrite (sqrt_mult 2 PI) by lra.
    pose proof sqrt2_pos. pose proof (sqrt_lt_R0 PI PI_RGT_0). field. lra.
Qed.

(** ** C87 and C59: distribution function *)

Section Cdf.
  Variable erf : R -> R.
  Hypothesis HE : IsErf erf.

  Lemma piece_derive (mu s w x : R) : 0 < s ->
    is_derive (fun y => w * erf ((y - mu) / s)) x
      (w / s * (2 / sqrt PI * exp (- ((x - mu) / s) ^ 2))).
  Proof.
    intros S.
    replace (w / s * (2 / sqrt PI * exp (- ((x - mu) / s) ^ 2)))
      with (w * scal (1 / s) (2 / sqrt PI * exp (- ((x - mu) / s) ^ 2)))
      by (unfold scal; simpl; unfold mult; simpl; field;
          pose proof (sqrt_lt_R0 PI PI_RGT_0); lra).
    apply (is_derive_scal (fun y => erf ((y - mu) / s))).
    apply (is_derive_comp erf (fun y => (y - mu) / s)); [apply erf_derive; exact HE |].
    auto_derive; [lra | field; lra].
  Qed.

  Lemma square_root2 y s : 0 < s -> - (y / (sqrt 2 * s)) ^ 2 = - (1 / 2) * (y / s) ^ 2.
  Proof.
    intros S. pose proof sqrt2_pos.
    replace ((y / (sqrt 2 * s)) ^ 2) with (y ^ 2 / (sqrt 2 * sqrt 2 * s ^ 2)) by (field; lra).
    rewrite sqrt_sqrt by lra. field. lra.
  Qed.

  Lemma cdf_derive (x mu sigma r : R) : 0 < sigma -> 0 < r ->
    is_derive (fun y => asymmetric_gauss_cdf erf y mu sigma r) x (asymmetric_gauss x mu sigma r).
  Proof.
    intros S P. pose proof sqrt2_pos as Q2. pose proof (sqrt_lt_R0 PI PI_RGT_0) as QP.
    pose proof (Rmult_lt_0_compat _ _ S P) as SR.
    assert (D1 : forall x, is_derive (fun y => 1 + erf ((y - mu) / (sqrt 2 * sigma))) x
       (1 / (sqrt 2 * sigma) * (2 / sqrt PI * exp (- (1 / 2) * ((x - mu) / sigma) ^ 2)))).
    { intros y. rewrite <- square_root2 by exact S.
      assert (S2 : 0 < sqrt 2 * sigma) by (apply Rmult_lt_0_compat; assumption).
      pose proof (piece_derive mu (sqrt 2 * sigma) 1 y S2) as D.
      apply (is_derive_ext (fun y => plus 1 (1 * erf ((y - mu) / (sqrt 2 * sigma)))));
        [intros t; unfold plus; simpl; ring |].
      match goal with |- is_derive _ _ ?v => replace v with (plus 0 v) by (unfold plus; simpl; ring) end.
      apply (is_derive_plus (fun _ => 1)); [apply (is_derive_const 1) | exact D]. }
    assert (D2 : forall x, is_derive (fun y => 1 + r * erf ((y - mu) / (sqrt 2 * r * sigma))) x
       (r / (sqrt 2 * (sigma * r)) *
          (2 / sqrt PI * exp (- (1 / 2) * ((x - mu) / (sigma * r)) ^ 2)))).
    { intros y. rewrite <- square_root2 by exact SR.
      replace (sqrt 2 * r * sigma) with (sqrt 2 * (sigma * r)) by ring.
      assert (S2 : 0 < sqrt 2 * (sigma * r)) by (apply Rmult_lt_0_compat; assumption).
      pose proof (piece_derive mu (sqrt 2 * (sigma * r)) r y S2) as D.
      match goal with |- is_derive _ _ ?v => replace v with (plus 0 v) by (unfold plus; simpl; ring) end.
      apply (is_derive_plus (fun _ => 1)); [apply (is_derive_const 1) | exact D]. }
    unfold asymmetric_gauss_cdf, asymmetric_gauss. rewrite root_split by exact S.
    match goal with |- is_derive _ _ (?n * ?e) =>
      replace (n * e) with (1 / (r + 1) * (2 / (sqrt 2 * sqrt PI * sigma) * e)) by (field; lra) end.
    apply (is_derive_scal (fun y => if Rltb y mu then 1 + erf ((y - mu) / (sqrt 2 * sigma))
                                    else 1 + r * erf ((y - mu) / (sqrt 2 * r * sigma)))).
    apply (glue_derive (fun y => 1 + erf ((y - mu) / (sqrt 2 * sigma)))
                       (fun y => 1 + r * erf ((y - mu) / (sqrt 2 * r * sigma)))).
    - intros L. destruct (Rltb x mu) eqn:C.
      + replace (2 / (sqrt 2 * sqrt PI * sigma) * exp (- (1 / 2) * ((x - mu) / sigma) ^ 2))
          with (1 / (sqrt 2 * sigma) * (2 / sqrt PI * exp (- (1 / 2) * ((x - mu) / sigma) ^ 2)))
          by (field; lra). apply D1.
      + apply Rltb_false in C. assert (x = mu) by lra. subst x.
        replace (exp (- (1 / 2) * ((mu - mu) / (sigma * r)) ^ 2))
          with (exp (- (1 / 2) * ((mu - mu) / sigma) ^ 2))
          by (f_equal; rewrite (Rminus_diag_eq mu mu eq_refl); unfold Rdiv; ring).
        replace (2 / (sqrt 2 * sqrt PI * sigma) * exp (- (1 / 2) * ((mu - mu) / sigma) ^ 2))
          with (1 / (sqrt 2 * sigma) * (2 / sqrt PI * exp (- (1 / 2) * ((mu - mu) / sigma) ^ 2)))
          by (field; lra). apply D1.
    - intros L. rewrite (proj2 (Rltb_false x mu)) by lra.
      replace (2 / (sqrt 2 * sqrt PI * sigma) * exp (- (1 / 2) * ((x - mu) / (sigma * r)) ^ 2))
        with (r / (sqrt 2 * (sigma * r)) *
                (2 / sqrt PI * exp (- (1 / 2) * ((x - mu) / (sigma * r)) ^ 2)))
        by (field; lra). apply D2.
    - rewrite (Rminus_diag_eq mu mu eq_refl). unfold Rdiv. rewrite !Rmult_0_l, (proj1 HE). ring.
  Qed.

  (** The density is the derivative of the distribution function everywhere,
      also at the mode. *)
  Theorem C87_derivative x mu sigma r : 0 < sigma -> 0 < r ->
    derivable_pt_lim (fun y => asymmetric_gauss_cdf erf y mu sigma r) x
      (asymmetric_gauss x mu sigma r).
  Proof. intros S P. apply is_derive_Reals, cdf_derive; assumption. Qed.

  (** Hence its integral over any interval is the difference of the
      distribution function. *)
  Theorem C87_integral a b mu sigma r : 0 < sigma -> 0 < r ->
    Integrates (fun x => asymmetric_gauss x mu sigma r) a b
      (asymmetric_gauss_cdf erf b mu sigma r - asymmetric_gauss_cdf erf a mu sigma r).
  Proof.
    intros S P.
    assert (I : is_RInt (fun x => asymmetric_gauss x mu sigma r) a b
      (asymmetric_gauss_cdf erf b mu sigma r - asymmetric_gauss_cdf erf a mu sigma r)).
    { apply (is_RInt_derive (fun y => asymmetric_gauss_cdf erf y mu sigma r)).
      - intros x _. apply cdf_derive; assumption.
      - intros x _. apply continuity_pt_filterlim. apply (C59_density x mu sigma r S P). }
    assert (X : ex_RInt (fun x => asymmetric_gauss x mu sigma r) a b) by (eexists; exact I).
    exists (ex_RInt_Reals_0 _ a b X). rewrite <- RInt_Reals. apply is_RInt_unique. exact I.
  Qed.

  Theorem C59_increasing x y mu sigma r : 0 < sigma -> 0 < r -> x < y ->
    asymmetric_gauss_cdf erf x mu sigma r < asymmetric_gauss_cdf erf y mu sigma r.
  Proof.
    intros S P L.
    destruct (MVT_gen (fun y => asymmetric_gauss_cdf erf y mu sigma r) x y
      (fun t => asymmetric_gauss t mu sigma r)) as (c & _ & C).
    - intros t _. apply cdf_derive; assumption.
    - intros t _. apply continuity_pt_filterlim.
      apply (ex_derive_continuous (fun y => asymmetric_gauss_cdf erf y mu sigma r)).
      eexists. apply cdf_derive; assumption.
    - pose proof (proj1 (C59_density c mu sigma r S P)) as D.
      assert (Q : 0 < y - x) by lra. pose proof (Rmult_lt_0_compat _ _ D Q). lra.
  Qed.

  Theorem C59_range x mu sigma r : 0 < sigma -> 0 < r ->
    0 < asymmetric_gauss_cdf erf x mu sigma r < 1 /\
    asymmetric_gauss_cdf erf mu mu sigma r = 1 / (r + 1).
  Proof.
    intros S P. assert (N : 0 < 1 / (r + 1)) by (apply Rdiv_lt_0_compat; lra).
    unfold asymmetric_gauss_cdf. split.
    - destruct (Rltb x mu) eqn:C.
      + apply Rltb_true in C. pose proof (erf_bounds erf HE ((x - mu) / (sqrt 2 * sigma))) as (B1 & _).
        assert (B2 : erf ((x - mu) / (sqrt 2 * sigma)) < 0).
        { rewrite <- (proj1 HE). apply erf_increasing; [exact HE |].
          assert (IP : 0 < / (sqrt 2 * sigma))
            by (apply Rinv_0_lt_compat, Rmult_lt_0_compat; [apply sqrt2_pos | exact S]).
          pose proof (Rmult_lt_0_compat _ _ IP (ltac:(lra) : 0 < mu - x)). unfold Rdiv. lra. }
        set (e := erf _) in *. split.
        * apply Rmult_lt_0_compat; lra.
        * apply Rlt_trans with (1 / (r + 1) * 1); [apply Rmult_lt_compat_l; lra |].
          rewrite Rmult_1_r. apply (Rmult_lt_reg_r (r + 1)); [lra |].
          unfold Rdiv. rewrite Rmult_assoc, Rinv_l by lra. lra.
      + apply Rltb_false in C.
        pose proof (erf_bounds erf HE ((x - mu) / (sqrt 2 * r * sigma))) as (_ & B1).
        assert (B2 : 0 <= erf ((x - mu) / (sqrt 2 * r * sigma))).
        { destruct (Req_dec x mu) as [-> | NE].
          - rewrite (Rminus_diag_eq mu mu eq_refl). unfold Rdiv. rewrite Rmult_0_l, (proj1 HE). lra.
          - left. rewrite <- (proj1 HE) at 1. apply erf_increasing; [exact HE |].
            apply Rdiv_lt_0_compat; [lra |].
            apply Rmult_lt_0_compat; [apply Rmult_lt_0_compat; [apply sqrt2_pos |] |]; assumption. }
        set (e := erf _) in *. pose proof (Rmult_le_pos _ _ (Rlt_le _ _ P) B2) as RE. split.
        * apply Rmult_lt_0_compat; lra.
        * apply (Rmult_lt_reg_r (r + 1)); [lra |].
          replace (1 / (r + 1) * (1 + r * e) * (r + 1)) with (1 + r * e) by (field; lra).
          pose proof (Rmult_lt_compat_l r e 1 P B1). lra.
    - rewrite (proj2 (Rltb_false mu mu)) by lra. rewrite (Rminus_diag_eq mu mu eq_refl).
      unfold Rdiv. rewrite !Rmult_0_l, (proj1 HE). ring.
  Qed.

  Theorem C59_limits mu sigma r : 0 < sigma -> 0 < r ->
    AtMinusInfinity (fun x => asymmetric_gauss_cdf erf x mu sigma r) 0 /\
    AtPlusInfinity (fun x => asymmetric_gauss_cdf erf x mu sigma r) 1.
  Proof.
    intros S P. pose proof sqrt2_pos as Q2.
    assert (N : 0 < 1 / (r + 1)) by (apply Rdiv_lt_0_compat; lra).
    assert (N1 : 1 / (r + 1) < 1).
    { apply (Rmult_lt_reg_r (r + 1)); [lra |]. unfold Rdiv. rewrite Rmult_assoc, Rinv_l by lra. lra. }
    split; intros eps H; destruct (erf_limit erf HE eps H) as (m & MP & M).
    - set (s := sqrt 2 * sigma). assert (SP : 0 < s) by (apply Rmult_lt_0_compat; assumption).
      exists (mu - m * s). intros x X.
      pose proof (proj1 (C59_range x mu sigma r S P)) as (R1 & R2).
      apply Rabs_def1; [| lra]. unfold asymmetric_gauss_cdf.
      rewrite (proj2 (Rltb_true x mu)) by (pose proof (Rmult_lt_0_compat _ _ MP SP); lra).
      fold s. specialize (M (- ((x - mu) / s))). rewrite (erf_odd erf HE) in M.
      assert (G : m < - ((x - mu) / s)).
      { apply (Rmult_lt_reg_r s); [exact SP |].
        replace (- ((x - mu) / s) * s) with (mu - x) by (field; lra). lra. }
      specialize (M G). set (e := erf ((x - mu) / s)) in *.
      apply Rlt_trans with (1 / (r + 1) * eps + 0).
      + rewrite Rminus_0_r, Rplus_0_r. apply Rmult_lt_compat_l; lra.
      + rewrite Rplus_0_r. apply Rlt_le_trans with (1 * eps); [apply Rmult_lt_compat_r; lra | lra].
    - set (s := sqrt 2 * r * sigma).
      assert (SP : 0 < s) by (apply Rmult_lt_0_compat; [apply Rmult_lt_0_compat |]; assumption).
      exists (mu + m * s). intros x X.
      pose proof (proj1 (C59_range x mu sigma r S P)) as (R1 & R2).
      apply Rabs_def1; [lra |]. unfold asymmetric_gauss_cdf.
      rewrite (proj2 (Rltb_false x mu)) by (pose proof (Rmult_lt_0_compat _ _ MP SP); lra).
      fold s. specialize (M ((x - mu) / s)).
      assert (G : m < (x - mu) / s).
      { apply (Rmult_lt_reg_r s); [exact SP |].
        replace ((x - mu) / s * s) with (x - mu) by (field; lra). lra. }
      specialize (M G). set (e := erf ((x - mu) / s)) in *.
      apply (Rmult_lt_reg_r (r + 1)); [lra |].
      replace ((1 / (r + 1) * (1 + r * e) - 1) * (r + 1)) with (r * (e - 1)) by (field; lra).
      pose proof (Rmult_lt_compat_l r _ _ P M). lra.
  Qed.

  (** ** Quantile function *)
  Variable erfinv : R -> R.
  Hypothesis HI : IsErfInv erf erfinv.

  Lemma erfinv_sign y : -1 < y < 1 -> (y < 0 -> erfinv y < 0) /\ (0 <= y -> 0 <= erfinv y).
  Proof.
    intros H. specialize (HI y H). split; intros L.
    - apply Rnot_le_lt. intros C. destruct (Req_dec (erfinv y) 0) as [E | E].
      + rewrite E, (proj1 HE) in HI. lra.
      + pose proof (erf_increasing erf HE 0 (erfinv y) ltac:(lra)) as I. rewrite (proj1 HE) in I. lra.
    - apply Rnot_lt_le. intros C. pose proof (erf_increasing erf HE _ _ C) as I.
      rewrite (proj1 HE) in I. lra.
  Qed.

  Theorem C59_quantile q mu sigma r : 0 < sigma -> 0 < r -> 0 < q < 1 ->
    asymmetric_gauss_cdf erf (asymmetric_gauss_ppf erfinv q mu sigma r) mu sigma r = q.
  Proof.
    intros S P (Q0 & Q1). pose proof sqrt2_pos as Q2. unfold asymmetric_gauss_ppf.
    destruct (Rltb q (1 / (r + 1))) eqn:C.
    - apply Rltb_true in C.
      assert (A : q * (r + 1) < 1).
      { apply (Rmult_lt_compat_r (r + 1)) in C; [| lra].
        unfold Rdiv in C. rewrite Rmult_assoc, Rinv_l in C by lra. lra. }
      assert (B : 0 < q * (r + 1)) by (apply Rmult_lt_0_compat; lra).
      assert (Y : -1 < q * (r + 1) - 1 < 1) by lra.
      pose proof (proj1 (erfinv_sign _ Y) ltac:(lra)) as SG. pose proof (HI _ Y) as E.
      set (y := erfinv (q * (r + 1) - 1)) in *.
      assert (SP : 0 < sqrt 2 * sigma) by (apply Rmult_lt_0_compat; assumption).
      unfold asymmetric_gauss_cdf.
      rewrite (proj2 (Rltb_true _ mu))
        by (pose proof (Rmult_lt_0_compat _ _ SP (ltac:(lra) : 0 < - y)); lra).
      replace ((mu + sqrt 2 * sigma * y - mu) / (sqrt 2 * sigma)) with y by (field; lra).
      rewrite E. field. lra.
    - apply Rltb_false in C.
      assert (A : 1 <= q * (r + 1)).
      { apply (Rmult_le_compat_r (r + 1)) in C; [| lra].
        unfold Rdiv in C. rewrite Rmult_assoc, Rinv_l in C by lra. lra. }
      assert (Y : -1 < (q * (r + 1) - 1) / r < 1).
      { assert (IP : 0 < / r) by (apply Rinv_0_lt_compat; exact P). split.
        - apply Rlt_le_trans with 0; [lra |]. apply Rmult_le_pos; lra.
        - apply (Rmult_lt_reg_r r); [exact P |]. unfold Rdiv. rewrite Rmult_assoc, Rinv_l by lra.
          pose proof (Rmult_lt_compat_r (r + 1) q 1 ltac:(lra) Q1). lra. }
      assert (Y0 : 0 <= (q * (r + 1) - 1) / r).
      { apply Rmult_le_pos; [lra | left; apply Rinv_0_lt_compat; exact P]. }
      pose proof (proj2 (erfinv_sign _ Y) Y0) as SG. pose proof (HI _ Y) as E.
      set (y := erfinv ((q * (r + 1) - 1) / r)) in *.
      assert (SP : 0 < r * sqrt 2 * sigma)
        by (apply Rmult_lt_0_compat; [apply Rmult_lt_0_compat |]; assumption).
      unfold asymmetric_gauss_cdf.
      rewrite (proj2 (Rltb_false _ mu))
        by (pose proof (Rmult_le_pos _ _ (Rlt_le _ _ SP) SG); lra).
      replace ((mu + r * sqrt 2 * sigma * y - mu) / (sqrt 2 * r * sigma)) with y by (field; lra).
      rewrite E. field. lra.
  Qed.

  Theorem C59_quantile_back x mu sigma r : 0 < sigma -> 0 < r ->
    asymmetric_gauss_ppf erfinv (asymmetric_gauss_cdf erf x mu sigma r) mu sigma r = x.
  Proof.
    intros S P. pose proof (proj1 (C59_range x mu sigma r S P)) as B.
    pose proof (C59_quantile _ mu sigma r S P B) as E.
    set (y := asymmetric_gauss_ppf _ _ _ _ _) in *.
    destruct (Rtotal_order y x) as [L | [L | L]]; [| exact L |];
      pose proof (C59_increasing _ _ mu sigma r S P L); lra.
  Qed.
End Cdf.

(** ** C88: negative binomial distribution *)

Lemma lgamma_rising lgamma a k : IsLogGamma lgamma -> 0 < a ->
  exp (lgamma (INR k + a) - lgamma a - lgamma (INR k + 1)) = rising a k.
Proof.
  intros (G1 & GS) AP. induction k as [| k IH].
  - cbn [INR rising]. rewrite !Rplus_0_l, G1.
    replace (lgamma a - lgamma a - 0) with 0 by ring. apply exp_0.
  - cbn [rising]. rewrite <- IH. rewrite S_INR. pose proof (pos_INR k) as K.
    replace (INR k + 1 + a) with (INR k + a + 1) by ring.
    rewrite (GS (INR k + a)), (GS (INR k + 1)) by lra.
    replace (lgamma (INR k + a) + ln (INR k + a) - lgamma a - (lgamma (INR k + 1) + ln (INR k + 1)))
      with (lgamma (INR k + a) - lgamma a - lgamma (INR k + 1) + (ln (INR k + a) + - ln (INR k + 1)))
      by ring.
    rewrite !exp_plus, exp_Ropp, !exp_ln by lra. unfold Rdiv. rewrite (Rplus_comm a). reflexivity.
Qed.

Lemma odds mu alpha : 0 < mu -> 0 < alpha ->
  0 < alpha * mu /\ 0 < alpha * mu / (1 + alpha * mu) < 1 /\
  1 - alpha * mu / (1 + alpha * mu) = / (1 + alpha * mu).
Proof.
  intros M A. assert (P : 0 < alpha * mu) by (apply Rmult_lt_0_compat; assumption).
  assert (E : 1 - alpha * mu / (1 + alpha * mu) = / (1 + alpha * mu)) by (field; lra).
  assert (I : 0 < / (1 + alpha * mu)) by (apply Rinv_0_lt_compat; lra).
  split; [exact P |]. split; [| exact E]. split; [apply Rdiv_lt_0_compat; lra | lra].
Qed.

(** With the normalisation term the exponentials are the probabilities of a
    distribution on the natural numbers with mean [mu] and variance [mu + alpha
    mu^2]. *)
Theorem C88_distribution lgamma mu alpha : IsLogGamma lgamma -> 0 < mu -> 0 < alpha ->
  exists p, (forall k, exists v,
      log_negative_binomial lgamma (INR k) mu alpha true = Fin v /\ exp v = p k) /\
    Distribution p mu (mu + alpha * mu ^ 2).
Proof.
  intros G M A. destruct (odds mu alpha M A) as (P & (Z0 & Z1) & Z).
  set (z := alpha * mu / (1 + alpha * mu)) in *.
  assert (IA : 0 < 1 / alpha) by (apply Rdiv_lt_0_compat; lra).
  exists (nb_pmf (1 / alpha) z). split.
  - intros k. unfold log_negative_binomial. fold z. unfold elog.
    rewrite (proj2 (Rltb_true 0 (1 + alpha * mu))) by lra. rewrite (proj2 (Rltb_true 0 z)) by exact Z0.
    cbn [escale eadd]. eexists. split; [reflexivity |].
    rewrite !exp_plus, (lgamma_rising lgamma (1 / alpha) k G IA). unfold nb_pmf. f_equal; [f_equal |].
    + unfold Rpower. rewrite Z, ln_Rinv by lra. f_equal. ring.
    + rewrite <- (exp_ln (z ^ k)) by (apply pow_lt; exact Z0). f_equal.
      rewrite <- (Rpower_pow k z Z0). unfold Rpower. rewrite ln_exp. reflexivity.
  - pose proof (nb_distribution (1 / alpha) z IA ltac:(lra)) as D.
    assert (E1 : 1 / alpha * z / (1 - z) = mu).
    { rewrite Z. unfold z. field. lra. }
    assert (E2 : 1 / alpha * z / (1 - z) ^ 2 = mu + alpha * mu ^ 2).
    { rewrite Z. unfold z. field. lra. }
    rewrite E1, E2 in D. exact D.
Qed.

(** The normalisation term depends neither on the mean nor on the
    over-dispersion. *)
Theorem C88_normalisation lgamma x mu alpha v : 0 < mu -> 0 < alpha ->
  log_negative_binomial lgamma x mu alpha true = Fin v ->
  log_negative_binomial lgamma x mu alpha false = Fin (v + lgamma (x + 1)).
Proof.
  intros M A. destruct (odds mu alpha M A) as (P & (Z0 & Z1) & Z).
  unfold log_negative_binomial, elog.
  rewrite (proj2 (Rltb_true 0 (1 + alpha * mu))) by lra.
  rewrite (proj2 (Rltb_true 0 (alpha * mu / (1 + alpha * mu)))) by exact Z0.
  cbn [escale eadd]. intros [= <-]. f_equal. ring.
Qed.

(** Without expected charge the logarithm of observing nothing is not a number
    (it should be zero), and of anything else minus infinity. *)
Theorem C88_zero_mean lgamma x alpha norm : 0 < alpha -> 0 <= x ->
  log_negative_binomial lgamma x 0 alpha norm = if Rltb 0 x then NegInf else NaN.
Proof.
  intros A X. unfold log_negative_binomial. rewrite Rmult_0_r, Rplus_0_r. unfold elog.
  rewrite (proj2 (Rltb_true 0 1)) by lra.
  rewrite (proj2 (Rltb_false 0 (0 / 1))) by (unfold Rdiv; lra).
  rewrite (proj2 (Reqb_true (0 / 1) 0)) by (unfold Rdiv; ring). cbn [escale].
  destruct (Rltb 0 x) eqn:C; [reflexivity |].
  apply Rltb_false in C. rewrite (proj2 (Rltb_false x 0)) by lra. reflexivity.
Qed.

(** ** C89: sampling *)

(** The variance asked for *)
Definition wanted (mu alpha_or_var : R) (param_is_alpha : bool) : R :=
  if param_is_alpha then mu + alpha_or_var * mu ^ 2 else alpha_or_var.

(** Parameters are passed on exactly for a positive mean and a variance of at
    least the mean. *)
Theorem C89_accepted mu av (is_alpha : bool) : 0 <= mu -> 0 < av ->
  ((exists rp, sample_parameters mu av is_alpha = Ok rp) <->
   0 < mu /\ mu <= wanted mu av is_alpha).
Proof.
  intros M A. unfold sample_parameters. fold (wanted mu av is_alpha).
  set (var := wanted mu av is_alpha).
  assert (V0 : 0 <= var).
  { unfold var, wanted. destruct is_alpha; [| lra]. pose proof (pow2_ge_0 mu).
    pose proof (Rmult_le_pos _ _ (Rlt_le _ _ A) H). lra. }
  destruct (Reqb var 0) eqn:E0.
  { apply Reqb_true in E0. split; [intros (rp & H); discriminate | intros H; lra]. }
  apply Reqb_false in E0. assert (VP : 0 < var) by lra.
  assert (PE : 1 - (var - mu) / var = mu / var) by (field; lra). rewrite PE.
  destruct (Reqb (var - mu + 1 / 1000000) 0) eqn:E1.
  { apply Reqb_true in E1. split; [intros (rp & H); discriminate | intros H; lra]. }
  apply Reqb_false in E1.
  destruct (Rleb (mu ^ 2 / (var - mu + 1 / 1000000)) 0) eqn:E2.
  { apply Rleb_true in E2. split; [intros (rp & H); discriminate |]. intros (MP & ME).
    assert (0 < mu ^ 2 / (var - mu + 1 / 1000000))
      by (apply Rdiv_lt_0_compat; [apply pow_lt; exact MP | lra]). lra. }
  apply Rleb_false in E2.
  assert (MP : 0 < mu).
  { destruct (Req_dec mu 0) as [-> | N]; [| lra]. simpl in E2. unfold Rdiv in E2.
    rewrite !Rmult_0_l in E2. lra. }
  assert (Q : 0 <= mu / var) by (left; apply Rdiv_lt_0_compat; assumption).
  rewrite (proj2 (Rltb_false (mu / var) 0)) by lra. cbn [orb].
  assert (X : mu / var * var = mu) by (field; lra).
  destruct (Rltb 1 (mu / var)) eqn:E3.
  - apply Rltb_true in E3. split; [intros (rp & H); discriminate |]. intros (_ & ME).
    apply (Rmult_lt_compat_r var) in E3; [| exact VP]. lra.
  - apply Rltb_false in E3. split; [intros _ | intros _; eexists; reflexivity].
    split; [exact MP |]. apply (Rmult_le_compat_r var) in E3; lra.
Qed.

(** The distribution which is sampled has a smaller mean and a smaller variance
    than asked for, by the same factor. *)
Theorem C89_moments mu av (is_alpha : bool) r p : 0 <= mu -> 0 < av ->
  sample_parameters mu av is_alpha = Ok (r, p) ->
  let var := wanted mu av is_alpha in
  let factor := (var - mu) / (var - mu + 1 / 1000000) in
  Distribution (nb_pmf r (1 - p)) (factor * mu) (factor * var) /\ 0 <= factor < 1.
Proof.
  intros M A H var factor.
  destruct (proj1 (C89_accepted mu av is_alpha M A) (ex_intro _ _ H)) as (MP & ME).
  fold var in ME. unfold sample_parameters in H. fold (wanted mu av is_alpha) in H. fold var in H.
  destruct (Reqb var 0); [discriminate |]. destruct (Reqb _ 0); [discriminate |].
  destruct (Rleb _ 0) eqn:E2; [discriminate |]. destruct (_ || _); [discriminate |].
  apply Rleb_false in E2. injection H as <- <-.
  assert (P : 0 < mu / var) by (apply Rdiv_lt_0_compat; lra).
  assert (Z : 1 - (1 - (var - mu) / var) = (var - mu) / var) by ring. rewrite Z.
  assert (Z1 : 1 - (var - mu) / var = mu / var) by (field; lra).
  split.
  - assert (ZB : 0 <= (var - mu) / var < 1).
    { split; [| lra]. apply Rmult_le_pos; [lra | left; apply Rinv_0_lt_compat; lra]. }
    pose proof (nb_distribution _ _ E2 ZB) as D. rewrite Z1 in D.
    replace (mu ^ 2 / (var - mu + 1 / 1000000) * ((var - mu) / var) / (mu / var))
      with (factor * mu) in D by (unfold factor; field; lra).
    replace (mu ^ 2 / (var - mu + 1 / 1000000) * ((var - mu) / var) / (mu / var) ^ 2)
      with (factor * var) in D by (unfold factor; field; lra).
    exact D.
  - unfold factor. split; [apply Rmult_le_pos; [lra | left; apply Rinv_0_lt_compat; lra] |].
    apply (Rmult_lt_reg_r (var - mu + 1 / 1000000)); [lra |].
    unfold Rdiv at 1. rewrite Rmult_assoc, Rinv_l by lra. lra.
Qed.

(** So the distribution sampled never has the mean asked for. *)
Theorem C89_mean_refuted mu av (is_alpha : bool) r p : 0 <= mu -> 0 < av ->
  sample_parameters mu av is_alpha = Ok (r, p) ->
  forall v, ~ Distribution (nb_pmf r (1 - p)) mu v.
Proof.
  intros M A H v (_ & _ & D & _).
  destruct (proj1 (C89_accepted mu av is_alpha M A) (ex_intro _ _ H)) as (MP & _).
  pose proof (C89_moments mu av is_alpha r p M A H) as ((_ & _ & D' & _) & F). cbv zeta in *.
  set (f := (wanted mu av is_alpha - mu) / (wanted mu av is_alpha - mu + 1 / 1000000)) in *.
  pose proof (uniqueness_sum _ _ _ D D') as E.
  pose proof (Rmult_lt_compat_r mu f 1 MP (proj2 F)). lra.
Qed.

(** For small expectations the loss is large: with the over-dispersion as
    parameter at least one half of the mean is lost up to [alpha mu^2] of one
    millionth. *)
Theorem C89_small mu alpha r p : 0 < mu -> 0 < alpha -> alpha * mu ^ 2 <= 1 / 1000000 ->
  sample_parameters mu alpha true = Ok (r, p) ->
  exists m v, Distribution (nb_pmf r (1 - p)) m v /\ m <= mu / 2.
Proof.
  intros M A S H. pose proof (C89_moments mu alpha true r p ltac:(lra) A H) as (D & F). cbv zeta in *.
  eexists. eexists. split; [exact D |]. unfold wanted in *.
  set (d := alpha * mu ^ 2) in *. replace (mu + d - mu) with d in * by ring.
  assert (DP : 0 < d) by (apply Rmult_lt_0_compat; [exact A | apply pow_lt; exact M]).
  assert (d / (d + 1 / 1000000) <= 1 / 2).
  { apply (Rmult_le_reg_r (d + 1 / 1000000)); [lra |]. unfold Rdiv at 1.
    rewrite Rmult_assoc, Rinv_l by lra. lra. }
  pose proof (Rmult_le_compat_r mu _ _ ltac:(lra) H0). lra.
Qed.

(** Asking for a variance equal to the mean gives zero always. *)
Theorem C89_poisson mu : 0 < mu ->
  exists r p, sample_parameters mu mu false = Ok (r, p) /\ nb_pmf r (1 - p) 0 = 1.
Proof.
  intros M. destruct (proj2 (C89_accepted mu mu false ltac:(lra) M)) as ((r, p) & E).
  { split; [exact M | simpl; lra]. }
  exists r, p. split; [exact E |]. unfold sample_parameters in E.
  destruct (Reqb mu 0); [discriminate |]. destruct (Reqb _ 0); [discriminate |].
  destruct (Rleb _ 0); [discriminate |]. destruct (_ || _); [discriminate |].
  injection E as <- <-. unfold nb_pmf. cbn [rising pow]. unfold Rpower.
  replace (1 - (1 - (1 - (mu - mu) / mu))) with 1 by (field; lra).
  rewrite ln_1, Rmult_0_r, exp_0. ring.
Qed.

(** ** C90: Rayleigh distribution *)

Lemma rayleigh_derive (x sigma : R) : 0 < sigma ->
  is_derive (fun y => rayleigh_cdf y sigma) x (rayleigh x sigma).
Proof.
  intros S. unfold rayleigh_cdf, rayleigh. auto_derive; [lra |].
  change (x * / sigma * (x * / sigma * 1)) with ((x / sigma) ^ 2).
  set (e := exp (- (1 / 2) * (x / sigma) ^ 2)). field. lra.
Qed.

Theorem C90_derivative x sigma : 0 < sigma ->
  derivable_pt_lim (fun y => rayleigh_cdf y sigma) x (rayleigh x sigma).
Proof. intros S. apply is_derive_Reals, rayleigh_derive, S. Qed.

Theorem C90_integral a b sigma : 0 < sigma ->
  Integrates (fun x => rayleigh x sigma) a b (rayleigh_cdf b sigma - rayleigh_cdf a sigma).
Proof.
  intros S.
  assert (I : is_RInt (fun x => rayleigh x sigma) a b (rayleigh_cdf b sigma - rayleigh_cdf a sigma)).
  { apply (is_RInt_derive (fun y => rayleigh_cdf y sigma)).
    - intros x _. apply rayleigh_derive, S.
    - intros x _. apply (ex_derive_continuous (fun x => rayleigh x sigma)).
      unfold rayleigh. auto_derive. lra. }
  assert (X : ex_RInt (fun x => rayleigh x sigma) a b) by (eexists; exact I).
  exists (ex_RInt_Reals_0 _ a b X). rewrite <- RInt_Reals. apply is_RInt_unique. exact I.
Qed.

(** For arguments from zero on it is a distribution function. *)
Theorem C90_distribution sigma : 0 < sigma ->
  rayleigh_cdf 0 sigma = 0 /\
  (forall x y, 0 <= x -> x < y -> rayleigh_cdf x sigma < rayleigh_cdf y sigma) /\
  AtPlusInfinity (fun x => rayleigh_cdf x sigma) 1.
Proof.
  intros S. unfold rayleigh_cdf. split; [| split].
  - unfold Rdiv. rewrite Rmult_0_l. replace (- (1 * / 2) * 0 ^ 2) with 0 by ring. rewrite exp_0. ring.
  - intros x y X L.
    assert (exp (- (1 / 2) * (y / sigma) ^ 2) < exp (- (1 / 2) * (x / sigma) ^ 2)); [| lra].
    apply exp_increasing.
    assert (IP : 0 < / sigma) by (apply Rinv_0_lt_compat; exact S).
    assert (A : 0 <= x / sigma) by (apply Rmult_le_pos; lra).
    assert (B : x / sigma < y / sigma) by (apply Rmult_lt_compat_r; assumption).
    assert (x / sigma * (x / sigma) < y / sigma * (y / sigma)) by (apply Rmult_le_0_lt_compat; assumption).
    simpl. rewrite !Rmult_1_r. lra.
  - intros eps H. exists (sigma * (1 + Rmax 1 (- 2 * ln eps))). intros x X.
    set (m := Rmax 1 (- 2 * ln eps)) in *.
    assert (M1 : 1 <= m) by apply Rmax_l. assert (M2 : - 2 * ln eps <= m) by apply Rmax_r.
    assert (Y : 1 + m < x / sigma).
    { apply (Rmult_lt_reg_r sigma); [exact S |]. unfold Rdiv. rewrite Rmult_assoc, Rinv_l by lra. lra. }
    set (y := x / sigma) in *. pose proof (exp_pos (- (1 / 2) * y ^ 2)).
    assert (B : exp (- (1 / 2) * y ^ 2) < eps).
    { apply Rlt_le_trans with (exp (ln eps)); [apply exp_increasing | rewrite exp_ln by exact H; lra].
      assert (y <= y ^ 2).
      { simpl. rewrite Rmult_1_r. apply Rle_trans with (y * 1); [lra |]. apply Rmult_le_compat_l; lra. }
      lra. }
    apply Rabs_def1; lra.
Qed.

(** For negative arguments it is not: the density is negative and the function
    takes the value of the positive argument. *)
Theorem C90_negative x sigma : 0 < sigma -> x < 0 ->
  rayleigh x sigma < 0 /\ rayleigh_cdf x sigma = rayleigh_cdf (- x) sigma /\
  0 < rayleigh_cdf x sigma.
Proof.
  intros S X. split; [| split].
  - unfold rayleigh. pose proof (exp_pos (- (1 / 2) * (x / sigma) ^ 2)) as E.
    assert (IP : 0 < / sigma ^ 2) by (apply Rinv_0_lt_compat, pow_lt, S).
    pose proof (Rmult_lt_0_compat _ _ (Rmult_lt_0_compat _ _ (ltac:(lra) : 0 < - x) IP) E).
    unfold Rdiv at 1. lra.
  - unfold rayleigh_cdf. do 2 f_equal. unfold Rdiv. ring.
  - replace (rayleigh_cdf x sigma) with (rayleigh_cdf (- x) sigma)
      by (unfold rayleigh_cdf; do 2 f_equal; unfold Rdiv; ring).
    destruct (C90_distribution sigma S) as (Z & I & _).
    specialize (I 0 (- x) (Rle_refl 0) ltac:(lra)). rewrite Z in I. exact I.
Qed.

(** ** Examples *)

(** Error functions and their inverses exist. *)
Example erf_ex : exists erf erfinv, IsErf erf /\ IsErfInv erf erfinv.
Proof. exact erf_exists. Qed.

(** So does a function with the functional equation of the logarithm of the
    gamma function. *)
Fixpoint log_rising (x : R) (n : nat) : R :=
  match n with 0%nat => 0 | S n' => log_rising x n' + ln (x + INR n') end.

Example lgamma_ex : exists lgamma, IsLogGamma lgamma.
Proof.
  (* the integer and fractional part, the latter in (0, 1] *)
  set (n := fun x => Z.to_nat (- up (- x))).
  set (g := fun x => log_rising (x - INR (n x)) (n x)).
  assert (NI : forall x, 0 < x -> 0 < x - INR (n x) <= 1).
  { intros x X. destruct (archimed (- x)) as (A & B). unfold n.
    assert (C : (0 <= - up (- x))%Z).
    { assert (D : IZR (up (- x)) < 1) by lra. apply lt_IZR in D. lia. }
    rewrite INR_IZR_INZ, Z2Nat.id by exact C. rewrite opp_IZR. lra. }
  assert (NS : forall x, 0 < x -> n (x + 1) = S (n x)).
  { intros x X. pose proof (NI x X) as N1. pose proof (NI (x + 1) ltac:(lra)) as N2.
    assert (INR (n (x + 1)) < INR (S (S (n x)))) by (rewrite !S_INR; lra).
    assert (INR (n x) < INR (n (x + 1))) by lra.
    apply INR_lt in H, H0. lia. }
  exists g. split.
  - unfold g. pose proof (NI 1 ltac:(lra)) as N1.
    assert (N0 : n 1 = 0%nat).
    { assert (INR (n 1) < INR 1) by (simpl; lra). apply INR_lt in H. lia. }
    rewrite N0. reflexivity.
  - intros x X. unfold g. rewrite NS by exact X. cbn [log_rising]. rewrite S_INR.
    replace (x + 1 - (INR (n x) + 1)) with (x - INR (n x)) by ring.
    replace (x - INR (n x) + INR (n x)) with x by ring. reflexivity.
Qed.

(** Parameters which are accepted, and small ones. *)
Example sample_ex : (exists rp, sample_parameters 2 1 true = Ok rp) /\
  (exists rp, sample_parameters (1 / 1000) (1 / 10) true = Ok rp) /\
  1 / 10 * (1 / 1000) ^ 2 <= 1 / 1000000.
Proof.
  split; [apply C89_accepted; unfold wanted; lra |].
  split; [apply C89_accepted; unfold wanted; lra |]. lra.
Qed.

Print Assumptions C59_density.
Print Assumptions C59_symmetric.
Print Assumptions C87_derivative.
Print Assumptions C87_integral.
Print Assumptions C59_increasing.
Print Assumptions C59_range.
Print Assumptions C59_limits.
Print Assumptions C59_quantile.
Print Assumptions C59_quantile_back.
Print Assumptions C88_distribution.
Print Assumptions C88_normalisation.
Print Assumptions C88_zero_mean.
Print Assumptions C89_accepted.
Print Assumptions C89_moments.
Print Assumptions C89_mean_refuted.
Print Assumptions C89_small.
Print Assumptions C89_poisson.
Print Assumptions C90_derivative.
Print Assumptions C90_integral.
Print Assumptions C90_distribution.
Print Assumptions C90_negative.
