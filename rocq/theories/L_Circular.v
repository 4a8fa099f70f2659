(** Facts about the fit of the circularised uncertainty. *)
From Coq Require Import Reals Psatz List.
From Coquelicot Require Import Coquelicot.
From Verif Require Import Py RList M_Basis M_Angles M_Circular S_Circular.
Import ListNotations.
Open Scope R_scope.

Lemma rayleigh_within d s : s <> 0 -> rayleigh_cdf d s = within d s.
Proof. intros H. unfold rayleigh_cdf, within. f_equal. f_equal. field. exact H. Qed.
Lemma rayleigh_zero s : rayleigh_cdf 0 s = 0.
Proof. unfold rayleigh_cdf, Rdiv. rewrite Rmult_0_l, pow_ne_zero by discriminate. rewrite Rmult_0_r, exp_0. ring. Qed.
Lemma rayleigh_opp d s : rayleigh_cdf d (- s) = rayleigh_cdf d s.
Proof. unfold rayleigh_cdf. do 3 f_equal. unfold Rdiv. rewrite Rinv_opp. ring. Qed.
Lemma rayleigh_abs d s : rayleigh_cdf d (Rabs s) = rayleigh_cdf d s.
Proof. unfold Rabs. destruct (Rcase_abs s); [apply rayleigh_opp|reflexivity]. Qed.

(** A larger width has fewer events within an angle *)
Lemma rayleigh_lt d s s' : d <> 0 -> 0 < s -> s < s' -> rayleigh_cdf d s' < rayleigh_cdf d s.
Proof.
  intros Hd Hs H. unfold rayleigh_cdf.
  assert (exp (- (1 / 2) * (d / s) ^ 2) < exp (- (1 / 2) * (d / s') ^ 2)); [|lra]. apply exp_increasing.
  assert ((d / s') ^ 2 < (d / s) ^ 2); [|lra].
  replace ((d / s') ^ 2) with (d ^ 2 * (/ s' * / s')) by (field; lra). replace ((d / s) ^ 2) with (d ^ 2 * (/ s * / s)) by (field; lra).
  apply Rmult_lt_compat_l; [apply pow2_gt_0; exact Hd|]. assert (/ s' < / s) by (apply Rinv_lt_contravar; [apply Rmult_lt_0_compat; lra|exact H]).
  assert (0 < / s') by (apply Rinv_0_lt_compat; lra). nra.
Qed.
Lemma rayleigh_range d s : d <> 0 -> s <> 0 -> 0 < rayleigh_cdf d s < 1.
Proof.
  intros Hd Hs. unfold rayleigh_cdf. assert (A : 0 < (d / s) ^ 2).
  { apply pow2_gt_0. unfold Rdiv. apply Rmult_integral_contrapositive_currified; [exact Hd|apply Rinv_neq_0_compat; exact Hs]. }
  split; [|assert (E := exp_pos (- (1 / 2) * (d / s) ^ 2)); lra].
  assert (exp (- (1 / 2) * (d / s) ^ 2) < exp 0) by (apply exp_increasing; lra). rewrite exp_0 in *. lra.
Qed.
Lemma rayleigh_le d s s' : 0 < s -> s <= s' -> rayleigh_cdf d s' <= rayleigh_cdf d s.
Proof.
  intros Hs H. destruct (Req_dec d 0) as [->|Hd]; [rewrite !rayleigh_zero; lra|].
  destruct (Rle_lt_or_eq_dec _ _ H) as [L|<-]; [left; apply rayleigh_lt; assumption|lra].
Qed.
Lemma rayleigh_inj d s s' : d <> 0 -> 0 < s -> 0 < s' -> rayleigh_cdf d s = rayleigh_cdf d s' -> s = s'.
Proof.
  intros Hd Hs Hs' E. destruct (Rtotal_order s s') as [L|[L|L]]; [|exact L|].
  - pose proof (rayleigh_lt d s s' Hd Hs L). lra.
  - pose proof (rayleigh_lt d s' s Hd Hs' L). lra.
Qed.

(** ** Sums over points *)
Definition term (s d c : R) : R := (c - rayleigh_cdf d s) ^ 2.

Lemma loss_cons s d ds c cs : loss_cdf s (d :: ds) (c :: cs) = term s d c + loss_cdf s ds cs.
Proof. reflexivity. Qed.
Lemma loss_nil s : loss_cdf s [] [] = 0.
Proof. reflexivity. Qed.

Lemma loss_le s s' ds cs : Forall2 (fun d c => term s d c <= term s' d c) ds cs -> loss_cdf s ds cs <= loss_cdf s' ds cs.
Proof. induction 1 as [|d c ds cs H _ IH]; [rewrite !loss_nil; lra|]. rewrite !loss_cons. lra. Qed.
Lemma loss_lt s s' ds cs : Forall2 (fun d c => term s d c <= term s' d c /\ (d <> 0 -> term s d c < term s' d c)) ds cs ->
  (exists d, In d ds /\ d <> 0) -> loss_cdf s ds cs < loss_cdf s' ds cs.
Proof.
  induction 1 as [|d c ds cs [H H'] HF IH]; [intros (d & [] & _)|]. intros (x & [->|Hx] & Nx); rewrite !loss_cons.
  - specialize (H' Nx). assert (loss_cdf s ds cs <= loss_cdf s' ds cs); [|lra].
    apply loss_le. clear -HF. induction HF as [|? ? ? ? [A _]]; constructor; assumption.
  - assert (loss_cdf s ds cs < loss_cdf s' ds cs); [|lra]. apply IH. exists x. split; assumption.
Qed.
Lemma loss_abs s ds cs : loss_cdf (Rabs s) ds cs = loss_cdf s ds cs.
Proof. unfold loss_cdf, zipw. f_equal. apply map_ext. intros [c d]. cbn. rewrite rayleigh_abs. reflexivity. Qed.
Lemma loss_nonneg s ds cs : 0 <= loss_cdf s ds cs.
Proof.
  unfold loss_cdf, zipw. apply Rsum_nonneg. apply Forall_forall. intros x Hx. apply in_map_iff in Hx. destruct Hx as ([c d] & <- & _). apply pow2_ge_0.
Qed.

(** Beyond all widths the terms grow *)
Lemma term_above s0 s s' d : 0 < s0 -> s0 <= s -> s < s' ->
  term s d (rayleigh_cdf d s0) <= term s' d (rayleigh_cdf d s0) /\ (d <> 0 -> term s d (rayleigh_cdf d s0) < term s' d (rayleigh_cdf d s0)).
Proof.
  intros H0 H H'. unfold term. split.
  - pose proof (rayleigh_le d s0 s H0 H). pose proof (rayleigh_le d s s' ltac:(lra) ltac:(lra)). nra.
  - intros Hd. pose proof (rayleigh_le d s0 s H0 H). pose proof (rayleigh_lt d s s' Hd ltac:(lra) H'). nra.
Qed.
Lemma term_below s0 s s' d : 0 < s' -> s' < s -> s <= s0 ->
  term s d (rayleigh_cdf d s0) <= term s' d (rayleigh_cdf d s0) /\ (d <> 0 -> term s d (rayleigh_cdf d s0) < term s' d (rayleigh_cdf d s0)).
Proof.
  intros H0 H H'. unfold term. split.
  - pose proof (rayleigh_le d s s0 ltac:(lra) H'). pose proof (rayleigh_le d s' s H0 ltac:(lra)). nra.
  - intros Hd. pose proof (rayleigh_le d s s0 ltac:(lra) H'). pose proof (rayleigh_lt d s' s Hd H0 H). nra.
Qed.
Lemma term_zero s s' c : term s 0 c = term s' 0 c.
Proof. unfold term. rewrite !rayleigh_zero. reflexivity. Qed.

Lemma widths_above lo hi ds cs s s' : 0 < lo -> WidthsBetween lo hi ds cs -> hi <= s -> s < s' ->
  Forall2 (fun d c => term s d c <= term s' d c /\ (d <> 0 -> term s d c < term s' d c)) ds cs.
Proof.
  intros Hl HW Hs H. induction HW as [|d c ds cs Hd _ IH]; constructor; [|exact IH].
  destruct (Req_dec d 0) as [->|Nd]; [split; [rewrite (term_zero s s'); lra|tauto]|].
  destruct Hd as [->|(s0 & B & ->)]; [tauto|]. rewrite <- (rayleigh_within d s0) by lra. apply term_above; lra.
Qed.
Lemma widths_below lo hi ds cs s s' : 0 < s' -> WidthsBetween lo hi ds cs -> s' < s -> s <= lo ->
  Forall2 (fun d c => term s d c <= term s' d c /\ (d <> 0 -> term s d c < term s' d c)) ds cs.
Proof.
  intros Hl HW Hs H. induction HW as [|d c ds cs Hd _ IH]; constructor; [|exact IH].
  destruct (Req_dec d 0) as [->|Nd]; [split; [rewrite (term_zero s s'); lra|tauto]|].
  destruct Hd as [->|(s0 & B & ->)]; [tauto|]. rewrite <- (rayleigh_within d s0) by lra. apply term_below; lra.
Qed.
Lemma strict_le s s' ds cs : Forall2 (fun d c => term s d c <= term s' d c /\ (d <> 0 -> term s d c < term s' d c)) ds cs ->
  loss_cdf s ds cs <= loss_cdf s' ds cs.
Proof. intros H. apply loss_le. induction H as [|? ? ? ? [A _]]; constructor; assumption. Qed.

(** The objective is continuous away from zero *)
Lemma term_continuous d c s : s <> 0 -> continuity_pt (fun s => term s d c) s.
Proof.
  intros H. apply continuity_pt_filterlim. apply (ex_derive_continuous (fun s => term s d c)). unfold term, rayleigh_cdf. auto_derive. exact H.
Qed.
Lemma loss_continuous ds : forall cs s, length ds = length cs -> s <> 0 -> continuity_pt (fun s => loss_cdf s ds cs) s.
Proof.
  induction ds as [|d ds IH]; intros [|c cs] s L H; try discriminate L.
  - apply continuity_pt_const. intros x y. reflexivity.
  - apply (continuity_pt_plus (fun s => term s d c) (fun s => loss_cdf s ds cs)); [apply term_continuous; exact H|].
    apply IH; [injection L as L; exact L|exact H].
Qed.
