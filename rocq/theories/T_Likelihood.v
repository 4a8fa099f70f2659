(** Property C97: every loss is the negative logarithm of its likelihood. *)
From Coq Require Import Psatz Factorial.
From Verif Require Import Py PyFacts RList M_Loss S_Loss L_Loss S_Likelihood.

(** ** Products *)

Lemma iprod_ext n f g : (forall i, (i < n)%nat -> f i = g i) -> iprod n f = iprod n g.
Proof. induction n as [|n IH]; intros H; [reflexivity|]. cbn [iprod]. rewrite IH by (intros; apply H; lia). rewrite H by lia. reflexivity. Qed.

Lemma iprod_one n : iprod n (fun _ => 1) = 1.
Proof. induction n as [|n IH]; [reflexivity|]. cbn [iprod]. rewrite IH. ring. Qed.

Lemma exp_isum n f : exp (- isum n f) = iprod n (fun i => exp (- f i)).
Proof. induction n as [|n IH]; cbn [isum iprod]; [rewrite Ropp_0; apply exp_0|]. rewrite <- IH, Ropp_plus_distr. apply exp_plus. Qed.

Lemma exp_isum3 n ns nd t : exp (- isum3 n ns nd t) = iprod3 n ns nd (fun e s d => exp (- t e s d)).
Proof.
  unfold isum3, iprod3. rewrite exp_isum. apply iprod_ext. intros e _. rewrite exp_isum. apply iprod_ext. intros s _. apply exp_isum.
Qed.

Lemma iprod3_ext n ns nd t u : (forall e s d, (e < n)%nat -> (s < ns)%nat -> (d < nd)%nat -> t e s d = u e s d) -> iprod3 n ns nd t = iprod3 n ns nd u.
Proof. intros H. unfold iprod3. apply iprod_ext. intros e He. apply iprod_ext. intros s Hs. apply iprod_ext. intros d Hd. apply H; assumption. Qed.

Lemma iprod3_one n ns nd : iprod3 n ns nd (fun _ _ _ => 1) = 1.
Proof.
  unfold iprod3. rewrite (iprod_ext _ _ (fun _ => 1)); [apply iprod_one|]. intros e _. rewrite (iprod_ext _ _ (fun _ => 1)); [apply iprod_one|].
  intros s _. apply iprod_one.
Qed.

Lemma exp_lsum {A} (f : A -> R) l : exp (- Rsum (map f l)) = lprod (fun x => exp (- f x)) l.
Proof.
  induction l as [|x l IH]; [cbn; rewrite Ropp_0; apply exp_0|]. cbn [map lprod fold_right]. fold (lprod (fun x => exp (- f x)) l).
  rewrite Rsum_cons, Ropp_plus_distr, exp_plus, IH. reflexivity.
Qed.

Lemma lprod_ext {A} (f g : A -> R) l : (forall x, In x l -> f x = g x) -> lprod f l = lprod g l.
Proof.
  induction l as [|x l IH]; intros H; [reflexivity|]. cbn [lprod fold_right]. fold (lprod f l) (lprod g l).
  rewrite H by (left; reflexivity). rewrite IH by (intros y Hy; apply H; right; exact Hy). reflexivity.
Qed.

Lemma lprod_one {A} (l : list A) : lprod (fun _ => 1) l = 1.
Proof. induction l as [|x l IH]; [reflexivity|]. cbn [lprod fold_right]. fold (lprod (fun _ : A => 1) l). rewrite IH. ring. Qed.

Lemma lprod_mult {A} (f g : A -> R) l : lprod (fun x => f x * g x) l = lprod f l * lprod g l.
Proof.
  induction l as [|x l IH]; [cbn; ring|]. cbn [lprod fold_right]. fold (lprod f l) (lprod g l) (lprod (fun x => f x * g x) l). rewrite IH. ring.
Qed.

Lemma iprod_mult n f g : iprod n (fun i => f i * g i) = iprod n f * iprod n g.
Proof. induction n as [|n IH]; cbn [iprod]; [ring|]. rewrite IH. ring. Qed.

Lemma iprod3_mult n ns nd t u : iprod3 n ns nd (fun e s d => t e s d * u e s d) = iprod3 n ns nd t * iprod3 n ns nd u.
Proof.
  unfold iprod3. rewrite <- iprod_mult. apply iprod_ext. intros e _. rewrite <- iprod_mult. apply iprod_ext. intros s _. apply iprod_mult.
Qed.

(** ** Exclusions *)

Lemma masked_used b t e s d : masked b t e s d = if used b e s d then t e s d else 0.
Proof. unfold masked, used. destruct (b_mask b) as [m|]; [|reflexivity]. destruct (m e s d); ring. Qed.

Lemma esum_event b t e : esum b (masked b t) e = event_sum b t e.
Proof.
  unfold esum, event_sum. rewrite sum2_isum. apply isum_ext. intros s _. apply isum_ext. intros d _. apply masked_used.
Qed.

(** Value of the scalar loss as a product. *)
Lemma loss_product lgamma f c b r L : get_loss lgamma f c b r true false false = Ok (LScalar L) ->
  exp (- L) = over_doms b (fun e s d => exp (- dpart lgamma f c b r e s d)) * over_pulses b (fun p => exp (- ppart lgamma f c p)) *
    over_events b (fun e => exp (- epart lgamma f b r e)).
Proof.
  intros H. destruct (check_cases b r) as [HC|HC]; [|rewrite (time_error_loss lgamma _ _ _ _ _ _ _ _ HC) in H by reflexivity; discriminate].
  rewrite scalar_form in H by exact HC. injection H as <-. unfold value. rewrite !Ropp_plus_distr, !exp_plus, exp_isum3, exp_lsum, exp_isum. reflexivity.
Qed.

Lemma events_one b : over_events b (fun _ => exp (- 0)) = 1.
Proof. unfold over_events. rewrite (iprod_ext _ _ (fun _ => 1)); [apply iprod_one|]. intros. rewrite Ropp_0. apply exp_0. Qed.
Lemma pulses_one b : over_pulses b (fun _ => exp (- 0)) = 1.
Proof. unfold over_pulses. rewrite (lprod_ext _ (fun _ => 1)); [apply lprod_one|]. intros. rewrite Ropp_0. apply exp_0. Qed.
Lemma doms_one b : over_doms b (fun _ _ _ => exp (- 0)) = 1.
Proof. unfold over_doms. rewrite (iprod3_ext _ _ _ _ (fun _ _ _ => 1)); [apply iprod3_one|]. intros. rewrite Ropp_0. apply exp_0. Qed.

Lemma over_used_ext b t u : (forall e s d, (e < b_n b)%nat -> (s < b_strings b)%nat -> (d < b_doms b)%nat -> t e s d = if used b e s d then u e s d else 1) ->
  over_doms b t = over_used b u.
Proof. intros H. unfold over_doms, over_used. apply iprod3_ext. exact H. Qed.

Lemma exp_neg_ln x y : exp (- (- x * ln y)) = Rpower y x.
Proof. unfold Rpower. f_equal. ring. Qed.

Section Likelihood.
Variables (lgamma Gam : R -> R).
Hypothesis gam_pos : gamma_like Gam.
Hypothesis is_log : log_of Gam lgamma.

Lemma exp_lfac x : exp (- log_faculty lgamma x) = / faculty Gam x.
Proof.
  unfold log_faculty, faculty. assert (H2 : 0 < Rmax (x + 1) 2) by (pose proof (Rmax_r (x + 1) 2); lra).
  rewrite is_log by exact H2. rewrite exp_Ropp, exp_ln; [reflexivity|]. apply gam_pos. exact H2.
Qed.

Lemma time_density p : exp (- time_loss p) = pulse_density p.
Proof. unfold time_loss, pulse_density. apply exp_neg_ln. Qed.

(** C97: the normalisation divides by factorials for whole charges. *)
Theorem C97_faculty n : exp (log_faculty lgamma (INR n)) = INR (fact n).
Proof.
  rewrite <- (Ropp_involutive (log_faculty lgamma (INR n))), exp_Ropp, exp_lfac, Rinv_inv. unfold faculty. destruct n as [|n].
  - change (INR 0) with 0. rewrite Rmax_right by lra. change 2 with (INR 2). rewrite (proj2 gam_pos 1%nat). reflexivity.
  - assert (H1 : 1 <= INR (S n)) by (change 1 with (INR 1); apply le_INR; lia). rewrite Rmax_left by lra. rewrite <- S_INR. apply gam_pos.
Qed.

(** C97: extended likelihood of pulses. *)
Theorem C97_extended c b r L : get_loss lgamma ExtendedPulse c b r true false false = Ok (LScalar L) ->
  exp (- L) = over_used b (fun e s d => poisson (r_pred r e s d) (b_true b e s d)) * over_pulses b pulse_density *
    (if c_norm c then over_used b (fun e s d => / faculty Gam (b_true b e s d)) * over_pulses b (fun p => / faculty Gam (p_charge p)) else 1).
Proof.
  intros H. rewrite (loss_product _ _ _ _ _ _ H). cbn [epart]. rewrite events_one, Rmult_1_r.
  set (A := over_used b (fun e s d => poisson (r_pred r e s d) (b_true b e s d))).
  assert (EA : over_doms b (fun e s d => exp (- (masked b (r_pred r) e s d - masked b (b_true b) e s d * ln (masked b (r_pred r) e s d + eps7)))) = A).
  { apply over_used_ext. intros e s d _ _ _. rewrite !masked_used. destruct (used b e s d).
    - unfold poisson. rewrite Ropp_minus_distr. unfold Rminus. rewrite Rplus_comm, exp_plus. reflexivity.
    - replace (- (0 - 0 * ln (0 + eps7))) with 0 by ring. apply exp_0. }
  destruct (c_norm c) eqn:CN; unfold dpart, ppart; rewrite CN.
  - unfold over_doms at 1. rewrite (iprod3_ext _ _ _ _ (fun e s d => exp (- (masked b (r_pred r) e s d - masked b (b_true b) e s d * ln (masked b (r_pred r) e s d + eps7))) *
      exp (- log_faculty lgamma (masked b (b_true b) e s d)))) by (intros; rewrite Ropp_plus_distr, exp_plus; reflexivity).
    rewrite iprod3_mult. fold (over_doms b (fun e s d => exp (- (masked b (r_pred r) e s d - masked b (b_true b) e s d * ln (masked b (r_pred r) e s d + eps7))))).
    rewrite EA. fold (over_doms b (fun e s d => exp (- log_faculty lgamma (masked b (b_true b) e s d)))).
    rewrite (over_used_ext b (fun e s d => exp (- log_faculty lgamma (masked b (b_true b) e s d))) (fun e s d => / faculty Gam (b_true b e s d))).
    2:{ intros e s d _ _ _. rewrite masked_used, exp_lfac. destruct (used b e s d); [reflexivity|]. unfold faculty. rewrite Rmax_right by lra.
        change 2 with (INR 2). rewrite (proj2 gam_pos 1%nat). cbn. lra. }
    unfold over_pulses. rewrite (lprod_ext _ (fun p => pulse_density p * / faculty Gam (p_charge p))).
    2:{ intros p _. rewrite Ropp_plus_distr, exp_plus, time_density, exp_lfac. reflexivity. }
    rewrite lprod_mult. ring.
  - unfold over_doms at 1. rewrite (iprod3_ext _ _ _ _ (fun e s d => exp (- (masked b (r_pred r) e s d - masked b (b_true b) e s d * ln (masked b (r_pred r) e s d + eps7)))))
      by (intros; rewrite Rplus_0_r; reflexivity).
    fold (over_doms b (fun e s d => exp (- (masked b (r_pred r) e s d - masked b (b_true b) e s d * ln (masked b (r_pred r) e s d + eps7))))). rewrite EA.
    unfold over_pulses. rewrite (lprod_ext _ pulse_density) by (intros p _; rewrite Rplus_0_r; apply time_density). ring.
Qed.

Lemma pulse_norm c p : exp (- (time_loss p + (if c_norm c then log_faculty lgamma (p_charge p) else 0))) =
  pulse_density p * (if c_norm c then / faculty Gam (p_charge p) else 1).
Proof.
  rewrite Ropp_plus_distr, exp_plus, time_density. destruct (c_norm c); [rewrite exp_lfac; reflexivity|]. rewrite Ropp_0, exp_0. reflexivity.
Qed.

(** C97: likelihood of the times of the pulses. *)
Theorem C97_pulse_time c b r L : get_loss lgamma PulseTime c b r true false false = Ok (LScalar L) ->
  exp (- L) = over_pulses b (fun p => pulse_density p * (if c_norm c then / faculty Gam (p_charge p) else 1)).
Proof.
  intros H. rewrite (loss_product _ _ _ _ _ _ H). cbn [dpart epart ppart]. rewrite events_one, doms_one, Rmult_1_r, Rmult_1_l.
  apply lprod_ext. intros p _. apply pulse_norm.
Qed.

(** C97: likelihood of the times of the pulses and of the charges of the
    DOMs. *)
Theorem C97_pulse_and_charge c b r L : get_loss lgamma PulseAndDomCharge c b r true false false = Ok (LScalar L) ->
  exp (- L) = over_used b (fun e s d => exp (r_logpdf r e s d)) *
    over_pulses b (fun p => pulse_density p * (if c_norm c then / faculty Gam (p_charge p) else 1)) *
    (if c_norm c then over_doms b (fun e s d => / faculty Gam (b_true b e s d)) else 1).
Proof.
  intros H. rewrite (loss_product _ _ _ _ _ _ H). cbn [dpart epart ppart]. rewrite events_one, Rmult_1_r.
  assert (EP : over_pulses b (fun p => exp (- (time_loss p + (if c_norm c then log_faculty lgamma (p_charge p) else 0)))) =
    over_pulses b (fun p => pulse_density p * (if c_norm c then / faculty Gam (p_charge p) else 1))) by (apply lprod_ext; intros p _; apply pulse_norm).
  rewrite EP.
  assert (ED : over_doms b (fun e s d => exp (- (- masked b (r_logpdf r) e s d + (if c_norm c then log_faculty lgamma (b_true b e s d) else 0)))) =
    over_used b (fun e s d => exp (r_logpdf r e s d)) * over_doms b (fun e s d => if c_norm c then / faculty Gam (b_true b e s d) else 1)).
  { unfold over_doms, over_used. rewrite <- iprod3_mult. apply iprod3_ext. intros e s d _ _ _. rewrite Ropp_plus_distr, exp_plus, Ropp_involutive, masked_used. f_equal.
    - destruct (used b e s d); [reflexivity|apply exp_0].
    - destruct (c_norm c); [apply exp_lfac|]. rewrite Ropp_0. apply exp_0. }
  rewrite ED. destruct (c_norm c); [ring|]. unfold over_doms. rewrite iprod3_one. ring.
Qed.

(** C97: likelihood of the charge quantiles within the limits. *)
Theorem C97_quantile c b r L : (forall p, In p (b_pulses b) -> 0 < p_qpdf p + 1 / 10000000) ->
  get_loss lgamma ChargeQuantile c b r true false false = Ok (LScalar L) ->
  exists F : pulse -> R, exp (- L) = over_pulses b F /\
    forall p, In p (b_pulses b) ->
      ((forall low, c_low c = Some low -> low <= p_quantile p) /\ (forall high, c_max c = Some high -> p_quantile p <= high) ->
        F p = p_qpdf p + 1 / 10000000) /\
      ((exists low, c_low c = Some low /\ p_quantile p < low) \/ (exists high, c_max c = Some high /\ high < p_quantile p) -> F p = 1).
Proof.
  intros HP H. exists (fun p => exp (- ppart lgamma ChargeQuantile c p)). rewrite (loss_product _ _ _ _ _ _ H). cbn [dpart epart].
  rewrite events_one, doms_one, Rmult_1_r, Rmult_1_l. split; [reflexivity|]. intros p Hp. cbn [ppart]. split.
  - intros [HL HH].
    assert (E1 : match c_max c with Some h => Rltb h (p_quantile p) | None => false end = false).
    { destruct (c_max c) as [h|]; [|reflexivity]. specialize (HH h eq_refl). unfold Rltb. destruct (Rlt_dec h (p_quantile p)); [lra|reflexivity]. }
    assert (E2 : match c_low c with Some l => Rltb (p_quantile p) l | None => false end = false).
    { destruct (c_low c) as [h|]; [|reflexivity]. specialize (HL h eq_refl). unfold Rltb. destruct (Rlt_dec (p_quantile p) h); [lra|reflexivity]. }
    rewrite E1, E2, Ropp_involutive. apply exp_ln. exact (HP p Hp).
  - intros [(l & El & Hl)|(h & Eh & Hh)].
    + rewrite El. unfold Rltb at 2. destruct (Rlt_dec (p_quantile p) l); [|lra]. destruct (match c_max c with Some h => Rltb h (p_quantile p) | None => false end); rewrite Ropp_0; apply exp_0.
    + rewrite Eh. unfold Rltb at 1. destruct (Rlt_dec h (p_quantile p)); [|lra]. rewrite Ropp_0. apply exp_0.
Qed.

Lemma gauss_normal x mu var : 0 < var -> exp (log_gauss x mu (sqrt var)) = normal x mu var.
Proof.
  intros V. pose proof PI_RGT_0 as P. pose proof (sqrt_lt_R0 _ V) as SV. assert (P2 : 0 < 2 * PI) by lra. pose proof (sqrt_lt_R0 _ P2) as SP.
  unfold log_gauss, normal. unfold Rminus at 1 2. rewrite !exp_plus, !exp_Ropp, !exp_ln by assumption.
  replace (- (1 / 2) * ((x - mu) / sqrt var) ^ 2) with (- (x - mu) ^ 2 / (2 * var)).
  2:{ unfold Rdiv at 3. rewrite Rpow_mult_distr, pow_inv. replace (sqrt var ^ 2) with var by (cbn; rewrite Rmult_1_r, sqrt_sqrt; lra). field. lra. }
  rewrite (sqrt_mult (2 * PI) var) by lra. field. split; apply Rgt_not_eq; assumption.
Qed.

(** C97: likelihood of the charges of the DOMs and of the total charges. *)
Theorem C97_dom_and_event c b r L : (forall e, (e < b_n b)%nat -> 0 < event_sum b (r_var r) e) ->
  get_loss lgamma DomAndEventCharge c b r true false false = Ok (LScalar L) ->
  exp (- L) = over_used b (fun e s d => exp (r_logpdf r e s d)) *
    over_events b (fun e => normal (event_sum b (b_true b) e) (event_sum b (r_pred r) e) (event_sum b (r_var r) e)).
Proof.
  intros HV H. rewrite (loss_product _ _ _ _ _ _ H). cbn [dpart epart ppart]. rewrite pulses_one, Rmult_1_r. f_equal.
  - apply over_used_ext. intros e s d _ _ _. rewrite Ropp_involutive, masked_used. destruct (used b e s d); [reflexivity|apply exp_0].
  - apply iprod_ext. intros e He. rewrite Ropp_involutive, !esum_event. apply gauss_normal. apply HV. exact He.
Qed.

Lemma nb_density x mu alpha : 0 <= x -> 0 < mu -> 0 < alpha ->
  exp (log_negative_binomial lgamma x mu alpha) = neg_binomial Gam x mu alpha.
Proof.
  intros X M A. assert (IA : 0 < 1 / alpha) by (apply Rdiv_lt_0_compat; lra). assert (AM : 0 < alpha * mu) by (apply Rmult_lt_0_compat; assumption).
  unfold log_negative_binomial, neg_binomial. cbv zeta. unfold Rminus. rewrite !exp_plus, exp_Ropp, !is_log by lra. rewrite !exp_ln by (apply gam_pos; lra).
  unfold Rpower. replace (ln (1 / (1 + alpha * mu))) with (- ln (1 + alpha * mu)).
  2:{ unfold Rdiv. rewrite Rmult_1_l, ln_Rinv by lra. reflexivity. }
  replace (1 / alpha * - ln (1 + alpha * mu)) with (- (1 / alpha) * ln (1 + alpha * mu)) by ring. unfold Rdiv at 1. reflexivity.
Qed.

(** C97: negative binomial likelihood of the charges of the DOMs, with the
    over-dispersion of the predicted variance. *)
Theorem C97_negative_binomial c b r L :
  (forall e s d, (e < b_n b)%nat -> (s < b_strings b)%nat -> (d < b_doms b)%nat -> used b e s d = true -> 0 <= b_true b e s d /\ 0 < r_pred r e s d) ->
  get_loss lgamma NegativeBinomial c b r true false false = Ok (LScalar L) ->
  exp (- L) = over_used b (fun e s d => neg_binomial Gam (b_true b e s d) (r_pred r e s d)
    (Rmax ((r_var r e s d - r_pred r e s d) / (r_pred r e s d ^ 2 + 5 / 100000)) (5 / 100000))).
Proof.
  intros HV H. rewrite (loss_product _ _ _ _ _ _ H). cbn [dpart epart ppart]. rewrite pulses_one, events_one, !Rmult_1_r.
  apply over_used_ext. intros e s d He Hs Hd. rewrite Ropp_involutive, masked_used. destruct (used b e s d) eqn:U; [|apply exp_0].
  destruct (HV e s d He Hs Hd U) as [X M]. apply nb_density; [exact X|exact M|].
  pose proof (Rmax_r ((r_var r e s d - r_pred r e s d) / (r_pred r e s d ^ 2 + eps5)) eps5) as K. unfold eps5 in *. lra.
Qed.

(** C97: negative binomial likelihood of the total charges. *)
Theorem C97_negative_binomial_event c b r L :
  (forall e, (e < b_n b)%nat -> 0 <= event_sum b (b_true b) e /\ 0 < event_sum b (r_pred r) e) ->
  get_loss lgamma NegativeBinomialEvent c b r true false false = Ok (LScalar L) ->
  exp (- L) = over_events b (fun e => let mu := event_sum b (r_pred r) e in
    neg_binomial Gam (event_sum b (b_true b) e) mu (Rmax ((event_sum b (r_var r) e - mu) / mu ^ 2) (5 / 100000))).
Proof.
  intros HV H. rewrite (loss_product _ _ _ _ _ _ H). cbn [dpart epart ppart]. rewrite pulses_one, doms_one, !Rmult_1_l.
  apply iprod_ext. intros e He. rewrite Ropp_involutive, !esum_event. destruct (HV e He) as [X M]. apply nb_density; [exact X|exact M|].
  match goal with |- 0 < Rmax ?a ?b => pose proof (Rmax_r a b) as K end. unfold eps5 in *. lra.
Qed.

(** C97: likelihood of the distribution of the charge over the DOMs. *)
Theorem C97_normalized_dom c b r L : get_loss lgamma NormalizedDom c b r true false false = Ok (LScalar L) ->
  exp (- L) = over_used b (fun e s d =>
    Rpower (r_pred r e s d / isum (b_strings b) (fun s' => isum (b_doms b) (fun d' => r_pred r e s' d')) + 5 / 100000) (b_true b e s d)).
Proof.
  intros H. rewrite (loss_product _ _ _ _ _ _ H). cbn [dpart epart ppart]. rewrite pulses_one, events_one, !Rmult_1_r.
  apply over_used_ext. intros e s d He Hs Hd. rewrite Ropp_involutive, masked_used. destruct (used b e s d) eqn:U; [|apply exp_0].
  rewrite sum2_isum. reflexivity.
Qed.
End Likelihood.

(** C97: with the normalisation by the total charge the loss is divided by the
    total charge of the pulses plus the number of DOMs of the detector for
    every event; whether there is a loss at all does not depend on it. *)
Theorem C97_per_term lgamma f c b r :
  match get_loss lgamma f c b r true false false with
  | Ok (LScalar L) => get_loss lgamma f c b r true true false =
      Ok (LScalar (L / (Rsum (map p_charge (b_pulses b)) + 5160 * INR (b_n b))))
  | x => get_loss lgamma f c b r true true false = x
  end.
Proof.
  destruct (check_cases b r) as [HC|HC].
  - rewrite !scalar_form by exact HC. reflexivity.
  - rewrite !(time_error_loss lgamma _ _ _ _ _ _ _ _ HC) by reflexivity. reflexivity.
Qed.

(** C97: for whole charges the extended likelihood is a product of Poisson
    probabilities of the DOMs, times the densities of the pulses. *)
Theorem C97_poisson lgamma Gam c b r L (k : nat -> nat -> nat -> nat) : gamma_like Gam -> log_of Gam lgamma -> c_norm c = true ->
  (forall e s d, (e < b_n b)%nat -> (s < b_strings b)%nat -> (d < b_doms b)%nat -> used b e s d = true ->
     b_true b e s d = INR (k e s d) /\ 0 <= r_pred r e s d) ->
  get_loss lgamma ExtendedPulse c b r true false false = Ok (LScalar L) ->
  exp (- L) = over_used b (fun e s d => exp (- r_pred r e s d) * (r_pred r e s d + 1 / 10000000) ^ k e s d / INR (fact (k e s d))) *
    over_pulses b (fun p => pulse_density p / faculty Gam (p_charge p)).
Proof.
  intros G LG CN HK H. rewrite (C97_extended lgamma Gam G LG c b r L H), CN.
  unfold over_pulses.
  change (lprod (fun p => pulse_density p / faculty Gam (p_charge p)) (b_pulses b)) with
    (lprod (fun p => pulse_density p * / faculty Gam (p_charge p)) (b_pulses b)).
  rewrite lprod_mult. rewrite <- !Rmult_assoc. f_equal.
  rewrite !Rmult_assoc, (Rmult_comm (lprod _ _)), <- !Rmult_assoc. f_equal.
  unfold over_used. rewrite <- iprod3_mult. apply iprod3_ext. intros e s d He Hs Hd. destruct (used b e s d) eqn:U; [|ring].
  destruct (HK e s d He Hs Hd U) as [E P]. unfold poisson, Rdiv at 2. rewrite E, Rpower_pow by lra. f_equal. f_equal.
  rewrite <- (C97_faculty lgamma Gam G LG (k e s d)), <- (Rinv_inv (faculty Gam _)), <- (exp_lfac lgamma Gam G LG), <- exp_Ropp.
  f_equal. ring.
Qed.

(** ** Non-vacuity *)

(** There are functions with the values of the gamma function at the integers:
    a step function. *)
Definition step_gamma (x : R) : R := INR (fact (Z.to_nat (Int_part x) - 1)).

Lemma Int_part_INR n : Int_part (INR n) = Z.of_nat n.
Proof.
  unfold Int_part. rewrite <- (tech_up (INR n) (Z.of_nat n + 1)); [lia| |]; rewrite plus_IZR, <- INR_IZR_INZ; lra.
Qed.

Example ex_gamma : gamma_like step_gamma /\ log_of step_gamma (fun x => ln (step_gamma x)).
Proof.
  repeat split.
  - intros x _. apply INR_fact_lt_0.
  - intros n. unfold step_gamma. rewrite Int_part_INR, Nat2Z.id. do 2 f_equal. lia.
Qed.

Definition ex_batch : batch :=
  mk_batch 2 1 2
    [mk_pulse 1 (1 / 2) 0 0 0 (1 / 10) (1 / 5); mk_pulse 2 1 0 0 0 (2 / 10) (2 / 5); mk_pulse 3 1 1 0 1 (3 / 10) (3 / 5)]
    (fun e _ d => INR (e + d))
    (Some (fun e _ d => negb (Nat.eqb e 0 && Nat.eqb d 1))) true.
Definition ex_results : results :=
  mk_results (fun e _ d => 1 + INR d) (fun _ _ _ => 2) (fun _ _ _ => 1) true.

Example ex_hypotheses : (forall lgamma f c, exists L, get_loss lgamma f c ex_batch ex_results true false false = Ok (LScalar L)) /\
  (forall p, In p (b_pulses ex_batch) -> 0 < p_qpdf p + 1 / 10000000) /\
  (forall e, (e < b_n ex_batch)%nat -> 0 < event_sum ex_batch (r_var ex_results) e /\
     0 <= event_sum ex_batch (b_true ex_batch) e /\ 0 < event_sum ex_batch (r_pred ex_results) e) /\
  (forall e s d, (e < b_n ex_batch)%nat -> (s < b_strings ex_batch)%nat -> (d < b_doms ex_batch)%nat -> used ex_batch e s d = true ->
     b_true ex_batch e s d = INR (e + d) /\ 0 <= b_true ex_batch e s d /\ 0 < r_pred ex_results e s d) /\
  used ex_batch 0 0 1 = false.
Proof.
  split; [|split; [|split; [|split]]].
  - intros. eexists. apply scalar_form. reflexivity.
  - intros p [<-|[<-|[<-|[]]]]; cbn; lra.
  - intros e He. change (b_n ex_batch) with 2%nat in He. destruct e as [|[|e]]; [| |lia]; unfold event_sum; cbn; lra.
  - intros e s d _ _ _ _. cbn [ex_batch b_true ex_results r_pred]. pose proof (pos_INR (e + d)). pose proof (pos_INR d). repeat split; lra.
  - reflexivity.
Qed.
Print Assumptions C97_faculty.
Print Assumptions C97_extended.
Print Assumptions C97_pulse_time.
Print Assumptions C97_pulse_and_charge.
Print Assumptions C97_quantile.
Print Assumptions C97_dom_and_event.
Print Assumptions C97_negative_binomial.
Print Assumptions C97_negative_binomial_event.
Print Assumptions C97_normalized_dom.
Print Assumptions C97_per_term.
Print Assumptions C97_poisson.
