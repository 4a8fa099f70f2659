(** C192: the circularised uncertainty that the fit of opening angles looks for. *)
From Coq Require Import Reals Psatz List.
From Verif Require Import Py RList M_Basis M_Angles M_Circular S_Circular L_Circular.
Import ListNotations.
Open Scope R_scope.

(** C192: if all points agree with widths between two numbers, the fitted function
    has a minimum between them, and, if a point is at an angle, every minimum is
    between them up to its sign. *)
Theorem C192_between F delta_psi delta_loss lo hi : 0 < lo -> lo <= hi ->
  WidthsBetween lo hi delta_psi (map (fun l => F (2 * l)) delta_loss) ->
  (exists s, lo <= s <= hi /\ MinimumAt (objective F delta_psi delta_loss) s) /\
  ((exists d, In d delta_psi /\ d <> 0) -> forall s, MinimumAt (objective F delta_psi delta_loss) s -> lo <= Rabs s <= hi).
Proof.
  intros Hl Hh HW. unfold objective. fold (cdf_values F delta_loss) in HW.
  assert (L : length delta_psi = length (cdf_values F delta_loss)) by (clear -HW; induction HW; cbn; congruence).
  split.
  - destruct (continuity_ab_min (fun s => loss_cdf s delta_psi (cdf_values F delta_loss)) lo hi Hh) as (s & Hm & B).
    { intros c Hc. apply loss_continuous; [exact L|lra]. }
    exists s. split; [exact B|]. split; [lra|]. intros s' Hs'. rewrite <- (loss_abs s').
    assert (Hp : 0 < Rabs s') by (apply Rabs_pos_lt; exact Hs'). generalize dependent (Rabs s'). clear s' Hs'. intros s' Hp.
    destruct (Rlt_le_dec s' lo) as [A|A]; [|destruct (Rlt_le_dec hi s') as [A'|A']].
    + apply Rle_trans with (loss_cdf lo delta_psi (cdf_values F delta_loss)); [apply Hm; lra|]. apply strict_le.
      apply (widths_below lo hi); try assumption; lra.
    + apply Rle_trans with (loss_cdf hi delta_psi (cdf_values F delta_loss)); [apply Hm; lra|]. apply strict_le.
      apply (widths_above lo hi); try assumption; lra.
    + apply Hm. lra.
  - intros HD s [Ns Hm]. assert (Hp : 0 < Rabs s) by (apply Rabs_pos_lt; exact Ns). split; apply Rnot_lt_le; intros A.
    + assert (S := Hm lo ltac:(lra)). rewrite <- (loss_abs s) in S.
      assert (loss_cdf lo delta_psi (cdf_values F delta_loss) < loss_cdf (Rabs s) delta_psi (cdf_values F delta_loss)); [|lra].
      apply loss_lt; [|exact HD]. apply (widths_below lo hi); try assumption; lra.
    + assert (S := Hm hi ltac:(lra)). rewrite <- (loss_abs s) in S.
      assert (loss_cdf hi delta_psi (cdf_values F delta_loss) < loss_cdf (Rabs s) delta_psi (cdf_values F delta_loss)); [|lra].
      apply loss_lt; [|exact HD]. apply (widths_above lo hi); try assumption; lra.
Qed.

(** C192: if the points are those of a circular normal distribution, its width and
    its negative are the only minima, where the function is zero. *)
Theorem C192_recovered F delta_psi delta_loss width : 0 < width -> (exists d, In d delta_psi /\ d <> 0) ->
  Forall2 (fun d l => F (2 * l) = within d width) delta_psi delta_loss ->
  forall s, MinimumAt (objective F delta_psi delta_loss) s <-> s = width \/ s = - width.
Proof.
  intros Hw HD HF. assert (HW : WidthsBetween width width delta_psi (map (fun l => F (2 * l)) delta_loss)).
  { clear HD. induction HF as [|d l ds ls E _ IH]; constructor; [|exact IH]. right. exists width. split; [lra|exact E]. }
  destruct (C192_between F delta_psi delta_loss width width Hw (Rle_refl _) HW) as [(w & B & M) U].
  assert (w = width) by lra. subst w. intros s. split.
  - intros Hs. specialize (U HD s Hs). unfold Rabs in U. destruct (Rcase_abs s); [right|left]; lra.
  - intros [->| ->]; [exact M|]. destruct M as [M1 M2]. split; [lra|]. unfold objective in *. rewrite <- (loss_abs (- width)), Rabs_Ropp, loss_abs. exact M2.
Qed.

(** C192: if no fit at another direction has a larger loss, the function has no
    minimum: larger widths are always better. *)
Theorem C192_no_growth F delta_psi delta_loss : Cdf F -> length delta_psi = length delta_loss -> (forall l, In l delta_loss -> l <= 0) ->
  (exists d, In d delta_psi /\ d <> 0) ->
  (forall s s', 0 < Rabs s < Rabs s' -> objective F delta_psi delta_loss s' < objective F delta_psi delta_loss s) /\
  ~ exists s, MinimumAt (objective F delta_psi delta_loss) s.
Proof.
  intros [HF _] L Hl HD.
  assert (G : forall s s', 0 < Rabs s < Rabs s' -> objective F delta_psi delta_loss s' < objective F delta_psi delta_loss s).
  { intros s s' [Hs H]. unfold objective. rewrite <- (loss_abs s), <- (loss_abs s'). generalize dependent (Rabs s). generalize dependent (Rabs s'). clear s s'. intros s' s Hs H.
    apply loss_lt; [|exact HD]. clear HD. revert delta_psi L. unfold cdf_values. induction delta_loss as [|l ls IH]; intros [|d ds] L; try discriminate L; constructor.
    - rewrite HF by (specialize (Hl l (or_introl eq_refl)); lra). unfold term. pose proof (rayleigh_le d s s' Hs ltac:(lra)). assert (0 <= rayleigh_cdf d s').
      { destruct (Req_dec d 0) as [->|Nd]; [rewrite rayleigh_zero; lra|]. pose proof (rayleigh_range d s' Nd ltac:(lra)). lra. }
      split; [nra|]. intros Nd. pose proof (rayleigh_lt d s s' Nd Hs H). nra.
    - apply IH; [intros l' H'; apply Hl; right; exact H'|injection L as L; exact L]. }
  split; [exact G|]. intros (s & Ns & M). pose proof (Rabs_pos_lt s Ns) as P. assert (A : 0 < Rabs s < Rabs (2 * s)) by (rewrite Rabs_mult, (Rabs_right 2) by lra; lra).
  specialize (G s (2 * s) A). specialize (M (2 * s)). lra.
Qed.

(** C192: if the losses at other directions are so large that the distribution
    function is rounded to one, there is no minimum either: smaller widths are
    always better. *)
Theorem C192_saturated F delta_psi delta_loss : length delta_psi = length delta_loss -> (forall l, In l delta_loss -> F (2 * l) = 1) ->
  (exists d, In d delta_psi /\ d <> 0) ->
  (forall s s', 0 < Rabs s' < Rabs s -> objective F delta_psi delta_loss s' < objective F delta_psi delta_loss s) /\
  ~ exists s, MinimumAt (objective F delta_psi delta_loss) s.
Proof.
  intros L Hl HD.
  assert (G : forall s s', 0 < Rabs s' < Rabs s -> objective F delta_psi delta_loss s' < objective F delta_psi delta_loss s).
  { intros s s' [Hs H]. unfold objective. rewrite <- (loss_abs s), <- (loss_abs s'). generalize dependent (Rabs s'). generalize dependent (Rabs s). clear s s'. intros s s' Hs H.
    apply loss_lt; [|exact HD]. clear HD. revert delta_psi L. unfold cdf_values. induction delta_loss as [|l ls IH]; intros [|d ds] L; try discriminate L; constructor.
    - rewrite (Hl l (or_introl eq_refl)). unfold term. pose proof (rayleigh_le d s' s Hs ltac:(lra)). assert (rayleigh_cdf d s' <= 1).
      { destruct (Req_dec d 0) as [->|Nd]; [rewrite rayleigh_zero; lra|]. pose proof (rayleigh_range d s' Nd ltac:(lra)). lra. }
      split; [nra|]. intros Nd. pose proof (rayleigh_lt d s' s Nd Hs H). pose proof (rayleigh_range d s' Nd ltac:(lra)). nra.
    - apply IH; [intros l' H'; apply Hl; right; exact H'|injection L as L; exact L]. }
  split; [exact G|]. intros (s & Ns & M). pose proof (Rabs_pos_lt s Ns) as P. assert (A : 0 < Rabs (s / 2) < Rabs s) by (unfold Rdiv; rewrite Rabs_mult, (Rabs_right (/ 2)) by lra; lra).
  specialize (G s (s / 2) A). specialize (M (s / 2)). assert (s / 2 <> 0) by lra. specialize (M H). lra.
Qed.

(** C192: points at angle zero do not constrain the width: every number is a minimum. *)
Theorem C192_angle_zero F delta_psi delta_loss : length delta_psi = length delta_loss -> (forall d, In d delta_psi -> d = 0) ->
  forall s, s <> 0 -> MinimumAt (objective F delta_psi delta_loss) s.
Proof.
  intros L Hd s Hs. split; [exact Hs|]. intros s' _. unfold objective. apply loss_le. revert delta_psi L Hd. unfold cdf_values.
  induction delta_loss as [|l ls IH]; intros [|d ds] L Hd; try discriminate L; constructor.
  - rewrite (Hd d (or_introl eq_refl)). rewrite (term_zero s s'). lra.
  - apply IH; [injection L as L; exact L|]. intros d' H. apply Hd. right. exact H.
Qed.

(** C192: a single point determines the width: each probability strictly between
    zero and one belongs to exactly one positive width. *)
Theorem C192_single d p : 0 < d -> 0 < p < 1 -> exists s, 0 < s /\ p = within d s /\ forall s', 0 < s' -> p = within d s' -> s' = s.
Proof.
  intros Hd Hp. set (s := d / sqrt (- 2 * ln (1 - p))).
  assert (Hl : ln (1 - p) < 0) by (rewrite <- ln_1; apply ln_increasing; lra).
  assert (Hq : 0 < sqrt (- 2 * ln (1 - p))) by (apply sqrt_lt_R0; lra).
  assert (Hs : 0 < s) by (apply Rdiv_lt_0_compat; assumption). exists s. split; [exact Hs|].
  assert (E : p = within d s).
  { unfold within. replace (- (d * d) / (2 * (s * s))) with (ln (1 - p)); [rewrite exp_ln by lra; ring|].
    assert (Q : sqrt (- 2 * ln (1 - p)) * sqrt (- 2 * ln (1 - p)) = - 2 * ln (1 - p)) by (apply sqrt_sqrt; lra).
    unfold s. replace (d / sqrt (- 2 * ln (1 - p)) * (d / sqrt (- 2 * ln (1 - p)))) with (d * d / (sqrt (- 2 * ln (1 - p)) * sqrt (- 2 * ln (1 - p)))) by (field; lra).
    rewrite Q. field. lra. }
  split; [exact E|]. intros s' Hs' E'. apply (rayleigh_inj d); try assumption; [lra|]. rewrite !rayleigh_within by lra. congruence.
Qed.

(** Examples. *)
Definition half_cdf (x : R) : R := if Rlt_dec 0 x then 1 / 2 else 0.
Example ex_cdf : Cdf half_cdf.
Proof. unfold half_cdf. split; intros x H; destruct (Rlt_dec 0 x); lra. Qed.
Example ex_widths : exists lo hi, 0 < lo /\ lo <= hi /\ WidthsBetween lo hi [0; 1; 2] (map (fun l => half_cdf (2 * l)) [0; 1; 3]).
Proof.
  destruct (C192_single 1 (1 / 2) ltac:(lra) ltac:(lra)) as (s1 & P1 & E1 & _). destruct (C192_single 2 (1 / 2) ltac:(lra) ltac:(lra)) as (s2 & P2 & E2 & _).
  exists (Rmin s1 s2), (Rmax s1 s2). assert (A := Rmin_l s1 s2). assert (B := Rmin_r s1 s2). assert (C := Rmax_l s1 s2). assert (D := Rmax_r s1 s2).
  split; [unfold Rmin; destruct (Rle_dec s1 s2); assumption|]. split; [lra|]. cbn [map]. unfold half_cdf.
  constructor; [left; reflexivity|]. constructor; [right; exists s1; split; [lra|]; destruct (Rlt_dec 0 (2 * 1)); lra|].
  constructor; [right; exists s2; split; [lra|]; destruct (Rlt_dec 0 (2 * 3)); lra|]. constructor.
Qed.
Definition two_cdf (x : R) : R := if Rlt_dec 0 x then 1 - exp (- x / 2) else 0.
Example ex_two : Cdf two_cdf.
Proof.
  unfold two_cdf. split; intros x H; destruct (Rlt_dec 0 x); try lra. assert (exp (- x / 2) < exp 0) by (apply exp_increasing; lra). rewrite exp_0 in *.
  pose proof (exp_pos (- x / 2)). lra.
Qed.
Example ex_recovered : Forall2 (fun d l => two_cdf (2 * l) = within d 3) [0; 3; 6] [0; 1 / 2; 2].
Proof.
  unfold two_cdf, within. repeat constructor.
  - destruct (Rlt_dec 0 (2 * 0)); [lra|]. replace (- (0 * 0) / (2 * (3 * 3))) with 0 by field. rewrite exp_0. ring.
  - destruct (Rlt_dec 0 (2 * (1 / 2))); [|lra]. do 2 f_equal. field.
  - destruct (Rlt_dec 0 (2 * 2)); [|lra]. do 2 f_equal. field.
Qed.
Example ex_no_growth : Cdf two_cdf /\ forall l, In l [0; -1; -2] -> l <= 0.
Proof. split; [exact ex_two|]. cbn. intros l [<-|[<-|[<-|[]]]]; lra. Qed.
Example ex_angle : exists d, In d [0; 1; 2] /\ d <> 0.
Proof. exists 1. split; [right; left; reflexivity|lra]. Qed.
Print Assumptions C192_between.
Print Assumptions C192_recovered.
Print Assumptions C192_no_growth.
Print Assumptions C192_saturated.
Print Assumptions C192_angle_zero.
Print Assumptions C192_single.
