(** Lemmas for the cascade source. *)
From Coq Require Import Reals Lra Lia Psatz Sorting.Permutation Sorting.Sorted.
From Coquelicot Require Import Coquelicot.
From Verif Require Import Py PyFacts PyStr RList M_Source L_Source M_Basis S_Basis T_Basis M_Noise S_Noise L_Noise
  M_Cascade S_Cascade.
From Verif Require M_Gof L_Gof.
Open Scope R_scope.

Lemma integrates_is_RInt f a b v : is_RInt f a b v <-> Integrates f a b v.
Proof.
  split.
  - intros I. assert (X : ex_RInt f a b) by (eexists; exact I).
    exists (ex_RInt_Reals_0 _ a b X). rewrite <- RInt_Reals. apply is_RInt_unique. exact I.
  - intros (pr & E). apply ex_RInt_Reals_1 in pr as X. rewrite <- E, <- RInt_Reals.
    apply (RInt_correct (V := R_CompleteNormedModule)), X.
Qed.

(** ** Functions with an antiderivative over excluded windows *)

(** [p] is nonnegative and continuous with the antiderivative [P] that goes from
    0 to [m]. *)
Record Dist (p P : R -> R) (m : R) : Prop := {
  d_derive : forall t, is_derive P t (p t);
  d_cont : forall t, continuous p t;
  d_pos : forall t, 0 < p t;
  d_low : AtMinusInfinity P 0;
  d_high : AtPlusInfinity P m }.

Section Windows.
  Variables (p P : R -> R) (m : R).
  Hypothesis D : Dist p P m.

  Lemma dist_int a b : is_RInt p a b (P b - P a).
  Proof.
    apply (is_RInt_derive P p); intros t _; [apply (d_derive _ _ _ D) | apply (d_cont _ _ _ D)].
  Qed.

  Lemma dist_mono a b : a < b -> P a < P b.
  Proof.
    intros L. pose proof (dist_int a b) as I.
    assert (0 < RInt p a b).
    { apply RInt_gt_0; [exact L | intros t _; apply (d_pos _ _ _ D) | intros t _; apply (d_cont _ _ _ D)]. }
    rewrite (is_RInt_unique _ _ _ _ I) in H. lra.
  Qed.

  Lemma dist_range t : 0 < P t < m.
  Proof.
    split.
    - apply Rnot_le_lt. intros L. set (d := P t - P (t - 1)).
      assert (DP : 0 < d) by (pose proof (dist_mono (t - 1) t ltac:(lra)); unfold d; lra).
      destruct (d_low _ _ _ D d DP) as (k & K). set (y := Rmin k t - 2).
      specialize (K y ltac:(unfold y; pose proof (Rmin_l k t); lra)).
      assert (P y < P (t - 1)) by (apply dist_mono; unfold y; pose proof (Rmin_r k t); lra).
      rewrite Rabs_left in K; unfold d in *; lra.
    - apply Rnot_le_lt. intros L. set (d := P (t + 1) - P t).
      assert (DP : 0 < d) by (pose proof (dist_mono t (t + 1) ltac:(lra)); unfold d; lra).
      destruct (d_high _ _ _ D d DP) as (k & K). set (y := Rmax k t + 2).
      specialize (K y ltac:(unfold y; pose proof (Rmax_l k t); lra)).
      assert (P (t + 1) < P y) by (apply dist_mono; unfold y; pose proof (Rmax_r k t); lra).
      rewrite Rabs_right in K; unfold d in *; lra.
  Qed.

  (** Part in a window *)
  Definition part (x : exclusion) : R := P (x_stop x) - P (x_start x).

  Lemma part_nonneg x : x_start x <= x_stop x -> 0 <= part x.
  Proof.
    intros [L | E]; unfold part; [pose proof (dist_mono _ _ L); lra | rewrite E; lra].
  Qed.

  Lemma part_integral a b x : a <= x_start x <= x_stop x -> x_stop x <= b ->
    is_RInt (fun t => p t * ind x t) a b (part x).
  Proof.
    intros A B.
    assert (I1 : is_RInt (fun t => p t * ind x t) a (x_start x) 0).
    { apply (is_RInt_ext (fun _ => 0)).
      - rewrite Rmin_left, Rmax_right by lra. intros t (T1 & T2). unfold ind.
        destruct (Rle_dec (x_start x) t); [lra | rewrite ?Rmult_0_r, ?Rmult_1_r; reflexivity].
      - pose proof (is_RInt_const a (x_start x) 0) as K. unfold scal in K. cbn in K. unfold mult in K. cbn in K.
        rewrite Rmult_0_r in K. exact K. }
    assert (I2 : is_RInt (fun t => p t * ind x t) (x_start x) (x_stop x) (part x)).
    { apply (is_RInt_ext p).
      - rewrite Rmin_left, Rmax_right by lra. intros t (T1 & T2). unfold ind.
        destruct (Rle_dec (x_start x) t); [| lra]. destruct (Rlt_dec t (x_stop x)); [rewrite ?Rmult_0_r, ?Rmult_1_r; reflexivity | lra].
      - apply dist_int. }
    assert (I3 : is_RInt (fun t => p t * ind x t) (x_stop x) b 0).
    { apply (is_RInt_ext (fun _ => 0)).
      - rewrite Rmin_left, Rmax_right by lra. intros t (T1 & T2). unfold ind.
        destruct (Rle_dec (x_start x) t); [| rewrite ?Rmult_0_r, ?Rmult_1_r; reflexivity]. destruct (Rlt_dec t (x_stop x)); [lra | rewrite ?Rmult_0_r, ?Rmult_1_r; reflexivity].
      - pose proof (is_RInt_const (x_stop x) b 0) as K. unfold scal in K. cbn in K. unfold mult in K. cbn in K.
        rewrite Rmult_0_r in K. exact K. }
    pose proof (is_RInt_Chasles _ _ _ _ _ _ (is_RInt_Chasles _ _ _ _ _ _ I1 I2) I3) as C.
    unfold plus in C. cbn in C. replace (part x) with (0 + part x + 0) by ring. exact C.
  Qed.

  Definition parts (xs : list exclusion) (e : nat) (c : cell) : R := Rsum (map part (filter (At e c) xs)).

  Definition Inside (a b : R) (xs : list exclusion) : Prop :=
    Forall (fun x => a <= x_start x /\ x_stop x <= b) xs.

  Lemma parts_integral a b xs e c : Inside a b xs -> Ordered xs ->
    is_RInt (fun t => p t * total_ind xs e c t) a b (parts xs e c).
  Proof.
    intros I O. induction xs as [| x xs IH].
    - unfold total_ind, parts. cbn. apply (is_RInt_ext (fun _ => 0)); [intros; rewrite Rmult_0_r; reflexivity |].
      pose proof (is_RInt_const a b 0) as K. unfold scal in K. cbn in K.
      unfold mult in K. cbn in K. rewrite Rmult_0_r in K. exact K.
    - specialize (IH (Forall_inv_tail I) (Forall_inv_tail O)).
      pose proof (Forall_inv I) as (I1 & I2). pose proof (Forall_inv O) as OX. cbn beta in *.
      unfold total_ind, parts in *. cbn [filter]. destruct (At e c x); [| exact IH].
      cbn [map]. rewrite Rsum_cons.
      apply (is_RInt_ext (fun t => plus (p t * ind x t) (p t * Rsum (map (fun x0 => ind x0 t) (filter (At e c) xs))))).
      + intros t _. rewrite Rsum_cons. symmetry. apply Rmult_plus_distr_l.
      + apply (is_RInt_plus (V := R_NormedModule)); [apply part_integral; lra | exact IH].
  Qed.

  Lemma allowed_integral a b xs e c f : Inside a b xs -> Ordered xs -> Separate xs -> ReadOut xs e c f ->
    is_RInt (fun t => p t * f t) a b (P b - P a - parts xs e c).
  Proof.
    intros I O S RO.
    apply (is_RInt_ext (fun t => minus (p t) (p t * total_ind xs e c t))).
    - intros t _. destruct (total_ind_value xs e c t S) as (T1 & T2). destruct (RO t) as (F1 & F2).
      unfold minus, plus, opp. cbn.
      destruct (Classical_Prop.classic (Excluded xs e c t)) as [X | X];
        [rewrite (T1 X), (F1 X) | rewrite (T2 X), (F2 X)]; ring.
    - apply (is_RInt_minus (V := R_NormedModule)); [apply dist_int | apply parts_integral; assumption].
  Qed.

  Lemma inside_exists xs : exists k, forall a b, a < - k -> k < b -> Inside a b xs.
  Proof.
    induction xs as [| x xs (k & K)]; [exists 0; intros; constructor |].
    exists (Rmax k (Rmax (Rabs (x_start x)) (Rabs (x_stop x)))). intros a b A B.
    pose proof (Rmax_l k (Rmax (Rabs (x_start x)) (Rabs (x_stop x)))) as M1.
    pose proof (Rmax_r k (Rmax (Rabs (x_start x)) (Rabs (x_stop x)))) as M2.
    pose proof (Rmax_l (Rabs (x_start x)) (Rabs (x_stop x))) as M3.
    pose proof (Rmax_r (Rabs (x_start x)) (Rabs (x_stop x))) as M4.
    pose proof (Rle_abs (x_stop x)) as S1. pose proof (Rle_abs (- x_start x)) as S2. rewrite Rabs_Ropp in S2.
    constructor; [lra | apply K; lra].
  Qed.

  Lemma readout_exists xs e c : Separate xs -> ReadOut xs e c (fun t => 1 - total_ind xs e c t).
  Proof.
    intros S t. destruct (total_ind_value xs e c t S) as (T1 & T2).
    split; intros H; [rewrite (T1 H) | rewrite (T2 H)]; ring.
  Qed.

  Lemma readout_nonneg xs e c f t : ReadOut xs e c f -> 0 <= f t.
  Proof.
    intros F. destruct (Classical_Prop.classic (Excluded xs e c t)) as [H | H];
      [rewrite (proj1 (F t) H) | rewrite (proj2 (F t) H)]; lra.
  Qed.

  Lemma parts_range xs e c : Ordered xs -> Separate xs -> 0 <= parts xs e c < m.
  Proof.
    intros O S. split.
    - apply Rsum_nonneg. apply Forall_map. apply Forall_forall. intros x I. apply filter_In in I.
      apply part_nonneg. exact (proj1 (Forall_forall _ _) O x (proj1 I)).
    - destruct (inside_exists xs) as (k & K). set (a := - Rabs k - 1). set (b := Rabs k + 1).
      assert (I : Inside a b xs).
      { apply K; unfold a, b; pose proof (Rle_abs k); pose proof (Rabs_pos k); lra. }
      pose proof (allowed_integral a b xs e c _ I O S (readout_exists xs e c S)) as L.
      assert (AB : a <= b) by (unfold a, b; pose proof (Rabs_pos k); lra).
      assert (0 <= P b - P a - parts xs e c).
      { rewrite <- (is_RInt_unique _ _ _ _ L). apply RInt_ge_0; [exact AB | eexists; exact L |].
        intros t _. apply Rmult_le_pos; [left; apply (d_pos _ _ _ D) |].
        apply (readout_nonneg xs e c (fun t => 1 - total_ind xs e c t) t). apply readout_exists, S. }
      pose proof (dist_range a). pose proof (dist_range b). lra.
  Qed.


  Lemma allowed_mass xs e c f : Ordered xs -> Separate xs -> ReadOut xs e c f ->
    TotalMass (fun t => p t * f t) (m - parts xs e c).
  Proof.
    intros O S RO eps E. destruct (d_low _ _ _ D (eps / 2) ltac:(lra)) as (k1 & K1).
    destruct (d_high _ _ _ D (eps / 2) ltac:(lra)) as (k2 & K2). destruct (inside_exists xs) as (k3 & K3).
    exists (Rmax (Rmax (- k1) k2) k3). intros a b A B.
    pose proof (Rmax_l (Rmax (- k1) k2) k3). pose proof (Rmax_r (Rmax (- k1) k2) k3).
    pose proof (Rmax_l (- k1) k2). pose proof (Rmax_r (- k1) k2).
    exists (P b - P a - parts xs e c). split.
    - apply integrates_is_RInt. apply allowed_integral; try assumption. apply K3; lra.
    - specialize (K1 a ltac:(lra)). specialize (K2 b ltac:(lra)).
      apply Rabs_def2 in K1. apply Rabs_def2 in K2. apply Rabs_def1; lra.
  Qed.

  Lemma total_mass : TotalMass p m.
  Proof.
    intros eps E. destruct (d_low _ _ _ D (eps / 2) ltac:(lra)) as (k1 & K1).
    destruct (d_high _ _ _ D (eps / 2) ltac:(lra)) as (k2 & K2).
    exists (Rmax (- k1) k2). intros a b A B.
    pose proof (Rmax_l (- k1) k2). pose proof (Rmax_r (- k1) k2).
    exists (P b - P a). split; [apply integrates_is_RInt, dist_int |].
    specialize (K1 a ltac:(lra)). specialize (K2 b ltac:(lra)).
    apply Rabs_def2 in K1. apply Rabs_def2 in K2. apply Rabs_def1; lra.
  Qed.
End Windows.

(** Sums of such functions *)
Lemma dist_plus p P m q Q n : Dist p P m -> Dist q Q n ->
  Dist (fun t => p t + q t) (fun t => P t + Q t) (m + n).
Proof.
  intros A B. constructor.
  - intros t. apply (is_derive_plus P Q); [apply A | apply B].
  - intros t. apply (continuous_plus p q); [apply A | apply B].
  - intros t. pose proof (d_pos _ _ _ A t). pose proof (d_pos _ _ _ B t). lra.
  - intros eps E. destruct (d_low _ _ _ A (eps / 2) ltac:(lra)) as (k & K).
    destruct (d_low _ _ _ B (eps / 2) ltac:(lra)) as (l & L). exists (Rmin k l). intros t T.
    pose proof (Rmin_l k l). pose proof (Rmin_r k l). specialize (K t ltac:(lra)). specialize (L t ltac:(lra)).
    apply Rabs_def2 in K. apply Rabs_def2 in L. apply Rabs_def1; lra.
  - intros eps E. destruct (d_high _ _ _ A (eps / 2) ltac:(lra)) as (k & K).
    destruct (d_high _ _ _ B (eps / 2) ltac:(lra)) as (l & L). exists (Rmax k l). intros t T.
    pose proof (Rmax_l k l). pose proof (Rmax_r k l). specialize (K t ltac:(lra)). specialize (L t ltac:(lra)).
    apply Rabs_def2 in K. apply Rabs_def2 in L. apply Rabs_def1; lra.
Qed.

Lemma dist_scale p P m w : 0 < w -> Dist p P m -> Dist (fun t => w * p t) (fun t => w * P t) (w * m).
Proof.
  intros W A. constructor.
  - intros t. apply (is_derive_scal P t w (p t)). apply A.
  - intros t. apply (continuous_scal_r (K := R_AbsRing) (V := R_NormedModule) w p t). apply A.
  - intros t. apply Rmult_lt_0_compat; [exact W | apply A].
  - intros eps E. destruct (d_low _ _ _ A (eps / w) ltac:(apply Rdiv_lt_0_compat; lra)) as (k & K).
    exists k. intros t T. specialize (K t T). rewrite Rminus_0_r in *. rewrite Rabs_mult, (Rabs_right w) by lra.
    apply (Rmult_lt_compat_l w) in K; [| exact W]. replace (w * (eps / w)) with eps in K by (field; lra). exact K.
  - intros eps E. destruct (d_high _ _ _ A (eps / w) ltac:(apply Rdiv_lt_0_compat; lra)) as (k & K).
    exists k. intros t T. specialize (K t T). replace (w * P t - w * m) with (w * (P t - m)) by ring.
    rewrite Rabs_mult, (Rabs_right w) by lra.
    apply (Rmult_lt_compat_l w) in K; [| exact W]. replace (w * (eps / w)) with eps in K by (field; lra). exact K.
Qed.

Lemma dist_ext p P m q Q n : (forall t, p t = q t) -> (forall t, P t = Q t) -> m = n -> Dist p P m -> Dist q Q n.
Proof.
  intros E F <- A. rewrite <- (FunctionalExtensionality.functional_extensionality _ _ E).
  rewrite <- (FunctionalExtensionality.functional_extensionality _ _ F). exact A.
Qed.

Section Gauss.
  Variable erf : R -> R.
  Hypothesis HE : IsErf erf.

  (** Density of a component over the time in ns, which integrates to 1000 *)
  Lemma comp_dist (mu sigma r tc : R) : 0 < sigma -> 0 < r ->
    Dist (fun t => asymmetric_gauss ((t - tc) * (1 / 1000)) mu sigma r)
         (fun t => 1000 * asymmetric_gauss_cdf erf ((t - tc) * (1 / 1000)) mu sigma r) 1000.
  Proof.
    intros S P. constructor.
    - intros t.
      replace (asymmetric_gauss ((t - tc) * (1 / 1000)) mu sigma r)
        with (1000 * scal (1 / 1000) (asymmetric_gauss ((t - tc) * (1 / 1000)) mu sigma r))
        by (unfold scal; cbn; unfold mult; cbn; field).
      apply (is_derive_scal (fun t => asymmetric_gauss_cdf erf ((t - tc) * (1 / 1000)) mu sigma r)).
      apply (is_derive_comp (fun y => asymmetric_gauss_cdf erf y mu sigma r) (fun t => (t - tc) * (1 / 1000))).
      + apply cdf_derive; assumption.
      + auto_derive; [trivial | ring].
    - intros t. apply (continuous_comp (fun t => (t - tc) * (1 / 1000)) (fun y => asymmetric_gauss y mu sigma r)).
      + apply (ex_derive_continuous (fun t => (t - tc) * (1 / 1000))). auto_derive. trivial.
      + apply continuity_pt_filterlim. apply (C59_density _ mu sigma r S P).
    - intros t. apply (C59_density _ mu sigma r S P).
    - intros eps E. destruct (proj1 (C59_limits erf HE mu sigma r S P) (eps / 1000) ltac:(lra)) as (k & K).
      exists (1000 * k + tc). intros t T. specialize (K ((t - tc) * (1 / 1000)) ltac:(lra)).
      apply Rabs_def2 in K. apply Rabs_def1; lra.
    - intros eps E. destruct (proj2 (C59_limits erf HE mu sigma r S P) (eps / 1000) ltac:(lra)) as (k & K).
      exists (1000 * k + tc). intros t T. specialize (K ((t - tc) * (1 / 1000)) ltac:(lra)).
      apply Rabs_def2 in K. apply Rabs_def1; lra.
  Qed.
End Gauss.

(** ** Mixtures *)

Section Mix.
  Variable erf : R -> R.
  Hypothesis HE : IsErf erf.
  Variable tc : R.

  Definition fk (k : comp) (t : R) : R := asymmetric_gauss ((t - tc) * (1 / 1000)) (k_mu k) (k_sigma k) (k_r k).
  Definition Fk (k : comp) (t : R) : R :=
    1000 * asymmetric_gauss_cdf erf ((t - tc) * (1 / 1000)) (k_mu k) (k_sigma k) (k_r k).

  Definition wide (k : comp) : Prop := 0 < k_sigma k /\ 0 < k_r k.

  Lemma fk_dist k : wide k -> Dist (fk k) (Fk k) 1000.
  Proof. intros (S & P). apply comp_dist; assumption. Qed.

  Lemma mix_dist (w : comp -> R) ks : ks <> [] -> Forall (fun k => 0 < w k) ks -> Forall wide ks ->
    Dist (fun t => Rsum (map (fun k => w k * fk k t) ks)) (fun t => Rsum (map (fun k => w k * Fk k t) ks))
      (1000 * Rsum (map w ks)).
  Proof.
    intros NE W V. induction ks as [| k ks IH]; [congruence |].
    pose proof (dist_scale _ _ _ (w k) (Forall_inv W) (fk_dist k (Forall_inv V))) as DK.
    destruct ks as [| k' ks].
    - eapply dist_ext; [| | | exact DK]; intros; cbn; ring.
    - specialize (IH ltac:(discriminate) (Forall_inv_tail W) (Forall_inv_tail V)).
      eapply dist_ext; [| | | exact (dist_plus _ _ _ _ _ _ DK IH)].
      + intros t. reflexivity.
      + intros t. reflexivity.
      + cbn [map]. rewrite !Rsum_cons. ring.
  Qed.

  Lemma part_tw k x : part (Fk k) x = 1000 * tw_cdf erf tc k x.
  Proof. unfold part, Fk, tw_cdf. ring. Qed.

  Lemma parts_mix (w : comp -> R) ks xs e c :
    parts (fun t => Rsum (map (fun k => w k * Fk k t) ks)) xs e c = Rsum (map (fun k => w k * parts (Fk k) xs e c) ks).
  Proof.
    unfold parts. rewrite (Rsum_map_ext _ (fun x => Rsum (map (fun k => w k * part (Fk k) x) ks))).
    - rewrite Rsum_swap. apply Rsum_map_ext. intros k _. apply Rsum_map_scal.
    - intros x _. unfold part. rewrite <- Rsum_map_minus. apply Rsum_map_ext. intros k _. ring.
  Qed.

  (** Excluded fraction of a component *)
  Definition ex (xs : list exclusion) (e : nat) (c : cell) (k : comp) : R :=
    Rsum (map (tw_cdf erf tc k) (filter (At e c) xs)).

  Lemma ex_parts xs e c k : parts (Fk k) xs e c = 1000 * ex xs e c k.
  Proof.
    unfold parts, ex. rewrite <- Rsum_map_scal. apply Rsum_map_ext. intros x _. apply part_tw.
  Qed.

  Lemma ex_range xs e c k : wide k -> Ordered xs -> Separate xs -> 0 <= ex xs e c k < 1.
  Proof.
    intros W O S. pose proof (parts_range _ _ _ (fk_dist k W) xs e c O S) as P. rewrite ex_parts in P. lra.
  Qed.

  Lemma tw_range k x : wide k -> x_start x <= x_stop x -> 0 <= tw_cdf erf tc k x < 1.
  Proof.
    intros W O. pose proof (fk_dist k W) as D. pose proof (part_nonneg _ _ _ D x O) as P0.
    pose proof (dist_range _ _ _ D (x_stop x)). pose proof (dist_range _ _ _ D (x_start x)).
    unfold part in P0. unfold tw_cdf, Fk in *. lra.
  Qed.
End Mix.

Lemma density_none ks tc t :
  pulse_density ks None tc t = Rsum (map (fun k => k_scale k * fk tc k t) ks).
Proof.
  unfold pulse_density. f_equal. induction ks as [| k ks IH]; [reflexivity |].
  cbn [map]. unfold zipw in *. cbn [combine map fst snd]. f_equal; [unfold fk; ring | exact IH].
Qed.

Lemma density_some ks (h : comp -> R) tc t :
  pulse_density ks (Some (map h ks)) tc t = Rsum (map (fun k => k_scale k / (1 - h k + 1 / 1000) * fk tc k t) ks).
Proof.
  unfold pulse_density. f_equal. induction ks as [| k ks IH]; [reflexivity |].
  cbn [map]. unfold zipw in *. cbn [combine map fst snd]. f_equal; [unfold fk; ring | exact IH].
Qed.

(** ** Components *)

Lemma slice_length from len l : (from + len <= length l)%nat -> length (slice from len l) = len.
Proof. intros H. unfold slice. rewrite firstn_length, skipn_length. lia. Qed.

Lemma map_nth_seq {A} (l : list A) d : map (fun i => nth i l d) (seq 0 (length l)) = l.
Proof.
  apply (nth_ext _ _ d d); [rewrite map_length, seq_length; reflexivity |]. intros i I.
  rewrite map_length, seq_length in I.
  rewrite (nth_indep _ d ((fun i => nth i l d) 0%nat)) by (rewrite map_length, seq_length; exact I).
  rewrite (map_nth (fun i => nth i l d)). rewrite seq_nth by exact I. reflexivity.
Qed.

Lemma components_length g out : length (components g out) = g_models g.
Proof. unfold components. rewrite map_length, seq_length. reflexivity. Qed.

Lemma components_mixture g out : (1 < g_models g)%nat -> (g_models g * 4 + n_charge (mode g) <= length out)%nat ->
  Mixture (components g out).
Proof.
  intros N L. unfold components. set (nc := n_charge (mode g)) in *. set (n := g_models g) in *.
  set (mu := map _ (slice (nc + 0 * n) n out)). set (sigma := map _ (slice (nc + 1 * n) n out)).
  set (r := map _ (slice (nc + 2 * n) n out)). set (sc := map _ (slice (nc + 3 * n) n out)).
  assert (LS : length sigma = n) by (unfold sigma; rewrite map_length, slice_length; lia).
  assert (LR : length r = n) by (unfold r; rewrite map_length, slice_length; lia).
  assert (LC : length sc = n) by (unfold sc; rewrite map_length, slice_length; lia).
  assert (PS : Forall (fun s => 1 / 1000 < s) sigma).
  { unfold sigma. apply Forall_map. apply Forall_forall. intros v _. pose proof (elu_lower (2 + 1 * v)). lra. }
  assert (PR : Forall (fun s => 1 / 1000 < s) r).
  { unfold r. apply Forall_map. apply Forall_forall. intros v _. pose proof (elu_lower (1 + 1 * v)). lra. }
  assert (PC : Forall (fun s => 0 < s) sc).
  { unfold sc. apply Forall_map. apply Forall_forall. intros v _. pose proof (elu_lower (1 + 1 * v)). lra. }
  clearbody sigma r sc.
  assert (TP : 0 < Rsum sc).
  { destruct sc as [| s sc]; [cbn in LC; lia |]. rewrite Rsum_cons. pose proof (Forall_inv PC).
    assert (0 <= Rsum sc); [| lra]. apply Rsum_nonneg. eapply Forall_impl; [| exact (Forall_inv_tail PC)]. cbn; intros; lra. }
  set (norm := map (fun s => s / Rsum sc) sc).
  assert (LN : length norm = n) by (unfold norm; rewrite map_length; exact LC).
  split.
  - apply Forall_map. apply Forall_forall. intros i I. apply in_seq in I. cbn [k_scale k_sigma k_r].
    split; [| split; [exact (proj1 (Forall_nth _ _) PS i 0 ltac:(lia)) | exact (proj1 (Forall_nth _ _) PR i 0 ltac:(lia))]].
    apply (proj1 (Forall_nth (fun s => 0 < s) norm)); [| lia]. unfold norm. apply Forall_map.
    eapply Forall_impl; [| exact PC]. intros s P. apply Rdiv_lt_0_compat; assumption.
  - rewrite map_map. cbn [k_scale]. rewrite <- LN. rewrite map_nth_seq. unfold norm.
    rewrite (Rsum_map_ext _ (fun s => / Rsum sc * s)) by (intros; unfold Rdiv; ring).
    rewrite Rsum_map_scal, map_id. field. lra.
Qed.

Lemma mixture_wide ks : Mixture ks -> Forall wide ks.
Proof. intros (H & _). eapply Forall_impl; [| exact H]. intros k (A & B & C). unfold wide. lra. Qed.

(** ** Excluded windows *)

Section Excl.
  Variable erf : R -> R.
  Hypothesis HE : IsErf erf.

  Lemma exclusion_ok n time comps xs : Ordered xs -> Separate xs -> ValidWindows n xs ->
    (forall e c, Mixture (comps e c)) ->
    exists fe fs, cascade_exclusion erf n time comps xs = Ok (fe, fs) /\
      (forall e c, fe e c = map (ex erf (time e) xs e c) (comps e c)) /\
      (forall e c, fs e c = Rsum (map (fun k => k_scale k * ex erf (time e) xs e c k) (comps e c))).
  Proof.
    intros O S V M. cbv beta delta [cascade_exclusion].
    assert (WD : forall e c k, In k (comps e c) -> wide k /\ 0 < k_scale k).
    { intros e c k I. destruct (M e c) as (F & _). rewrite Forall_forall in F. specialize (F k I). unfold wide. lra. }
    replace (forallb _ xs) with true; cbv beta iota delta [negb].
    2:{ symmetry. apply forallb_forall. intros x I. apply in_range_true. exact (proj1 (Forall_forall _ _) V x I). }
    replace (forallb _ xs) with true; cbv beta iota delta [negb].
    2:{ symmetry. apply forallb_forall. intros x I. apply forallb_forall. intros k K. apply checked_true.
        pose proof (proj1 (Forall_forall _ _) O x I) as OX. cbn in OX.
        pose proof (tw_range erf HE (time (x_event x)) k x (proj1 (WD _ _ _ K)) OX). lra. }
    set (sums := fun (e : nat) (c : cell) => map (fun k => Rsum (map (fun x => clip (tw_cdf erf (time e) k x) 0 1) (filter (at_dom e c) xs))) (comps e c)).
    cbv zeta. set (excl := fun (e : nat) (c : cell) => map (fun v => clip v 0 1) (sums e c)).
    set (total := fun (e : nat) (c : cell) => Rsum (zipw (fun v k => v * k_scale k) (excl e c) (comps e c))).
    assert (SE : forall e c, sums e c = map (ex erf (time e) xs e c) (comps e c)).
    { intros e c. unfold sums. apply map_ext_in. intros k K. unfold ex. apply Rsum_map_ext. intros x I.
      apply filter_In in I. destruct I as (I & _). pose proof (proj1 (Forall_forall _ _) O x I) as OX. cbn in OX.
      pose proof (tw_range erf HE (time e) k x (proj1 (WD _ _ _ K)) OX). apply clip_id. lra. }
    replace (forallb _ (seq 0 n)) with true; cbv beta iota delta [negb].
    2:{ symmetry. apply forallb_forall. intros e _. apply forallb_forall. intros c _. rewrite SE.
        apply forallb_forall. intros v I. apply in_map_iff in I. destruct I as (k & <- & K). apply checked_true.
        pose proof (ex_range erf HE (time e) xs e c k (proj1 (WD _ _ _ K)) O S). lra. }
    assert (EE : forall e c, excl e c = map (ex erf (time e) xs e c) (comps e c)).
    { intros e c. unfold excl. rewrite SE, map_map. apply map_ext_in. intros k K. apply clip_id.
      pose proof (ex_range erf HE (time e) xs e c k (proj1 (WD _ _ _ K)) O S). lra. }
    assert (TE : forall e c, total e c = Rsum (map (fun k => k_scale k * ex erf (time e) xs e c k) (comps e c)) /\
                 0 <= total e c <= 1).
    { intros e c. assert (E : total e c = Rsum (map (fun k => k_scale k * ex erf (time e) xs e c k) (comps e c))).
      { unfold total. rewrite EE. f_equal. generalize (comps e c). intros l. induction l as [| k l IH]; [reflexivity |].
        cbn [map]. unfold zipw in *. cbn [combine map fst snd]. f_equal; [ring | exact IH]. }
      split; [exact E |]. rewrite E. destruct (M e c) as (_ & M1). split.
      - apply Rsum_nonneg. apply Forall_map. apply Forall_forall. intros k K. destruct (WD e c k K) as (W & P).
        pose proof (ex_range erf HE (time e) xs e c k W O S). apply Rmult_le_pos; lra.
      - rewrite <- M1. apply Rsum_le. intros k K. destruct (WD e c k K) as (W & P).
        pose proof (ex_range erf HE (time e) xs e c k W O S) as (_ & X).
        pose proof (Rmult_lt_compat_l _ _ _ P X). lra. }
    clearbody total.
    replace (forallb _ (seq 0 n)) with true; cbv beta iota delta [negb].
    2:{ symmetry. apply forallb_forall. intros e _. apply forallb_forall. intros c _. apply checked_true.
        destruct (TE e c) as (_ & T). lra. }
    eexists. eexists. split; [reflexivity |]. split; [exact EE |]. intros e c. cbn beta.
    destruct (TE e c) as (T1 & T2). rewrite clip_id by lra. exact T1.
  Qed.
End Excl.

(** ** The inputs of the network *)

Section Inputs.
  Variable format : string -> nat -> string.
  Variable trafo : nat -> R -> R.
  Variables mean std : nat -> R.
  Variable norm_const : R.
  Variable coords : cell -> R * R * R.
  Variable local_vars : cell -> list R.
  Variables erf lgamma : R -> R.
  Variable rel_eff : cell -> R.
  Variable net : list (list (list R)) -> nat -> cell -> list R.

  Notation get := (cascade_get_tensors format trafo mean std norm_const coords local_vars erf lgamma rel_eff net).
  Notation input := (event_input trafo mean std norm_const coords local_vars).

  Lemma snow_length l : length (flat_map (fun p : string * nat => map (format (fst p)) (seq 0 (snd p))) l)
    = list_sum (map snd l).
  Proof.
    induction l as [| p l IH]; [reflexivity |]. cbn [flat_map map]. rewrite app_length, map_length, seq_length, IH.
    reflexivity.
  Qed.

  Lemma names_length g : length (cascade_names format g) = num_parameters g.
  Proof.
    unfold cascade_names, num_parameters. rewrite !app_length. cbn [length].
    destruct (g_labels g), (g_snowstorm g); rewrite ?snow_length; cbn [length]; lia.
  Qed.

  Lemma fold_snow (l : list (string * nat)) n : fold_left (fun n p => (n + snd p)%nat) l n = (n + list_sum (map snd l))%nat.
  Proof.
    revert n. induction l as [| p l IH]; intros n; cbn [fold_left map]; [cbn; lia |]. rewrite IH.
    change (list_sum (snd p :: map snd l)) with (snd p + list_sum (map snd l))%nat. lia.
  Qed.

  Lemma num_inputs_eq g :
    num_inputs g = (num_parameters g + 4 + (if g_opening g then 1 else 0) + (if g_coordinates g then 3 else 0) + g_local g)%nat.
  Proof.
    unfold num_inputs, num_parameters. destruct (g_labels g), (g_snowstorm g); rewrite ?fold_snow; lia.
  Qed.

  Lemma input_length g row c : (7 <= length row)%nat -> length (local_vars c) = g_local g ->
    length (dom_input trafo mean std norm_const coords local_vars g row c)
    = (length row + 4 + (if g_opening g then 1 else 0) + (if g_coordinates g then 3 else 0) + g_local g)%nat.
  Proof.
    intros L V. unfold dom_input. destruct (coords c) as [[x y] z].
    destruct (direction (nth 3 row 0) (nth 4 row 0)) as [[ux uy] uz].
    rewrite !app_length, map_length, seq_length, V. destruct (g_opening g), (g_coordinates g); cbn [length]; lia.
  Qed.

  Lemma shape_ok g rows : Forall (fun row => length row = num_parameters g) rows ->
    (forall c, length (local_vars c) = g_local g) ->
    existsb (fun row : list R => Nat.ltb (length row) 7) rows = false /\
    existsb (fun l => existsb (fun v : list R => negb (Nat.eqb (length v) (num_inputs g))) l) (map (input g) rows) = false.
  Proof.
    intros S V. assert (P : (7 <= num_parameters g)%nat) by (unfold num_parameters; lia).
    rewrite Forall_forall in S. split.
    - apply not_true_is_false. intros H. apply existsb_exists in H. destruct H as (row & I & H).
      apply Nat.ltb_lt in H. specialize (S row I). lia.
    - apply not_true_is_false. intros H. apply existsb_exists in H. destruct H as (l & I & H).
      apply in_map_iff in I. destruct I as (row & <- & I). apply existsb_exists in H. destruct H as (v & J & H).
      unfold event_input in J. apply in_map_iff in J. destruct J as (c & <- & J).
      rewrite input_length in H by (first [apply V | rewrite (S row I); exact P]).
      rewrite (S row I), num_inputs_eq, Nat.eqb_refl in H. discriminate H.
  Qed.

  Lemma shape_err g rows row : In row rows -> length row <> num_parameters g ->
    (forall c, length (local_vars c) = g_local g) ->
    existsb (fun row : list R => Nat.ltb (length row) 7) rows = false ->
    existsb (fun l => existsb (fun v : list R => negb (Nat.eqb (length v) (num_inputs g))) l) (map (input g) rows) = true.
  Proof.
    intros I N V L. apply existsb_exists. exists (input g row). split; [apply in_map; exact I |].
    apply existsb_exists. exists (dom_input trafo mean std norm_const coords local_vars g row (0, 0)%nat). split.
    - unfold event_input. apply in_map. apply cells_in. split; cbn; lia.
    - assert (L7 : (7 <= length row)%nat).
      { apply Nat.nlt_ge. intros H. apply not_true_iff_false in L. apply L. apply existsb_exists. exists row.
        split; [exact I |]. apply Nat.ltb_lt. exact H. }
      rewrite input_length by auto. rewrite num_inputs_eq. apply negb_true_iff. apply Nat.eqb_neq. lia.
  Qed.

  (** *** Shifted times and other angles *)

  Lemma shifted_nth d row row' i : Shifted d row row' -> i <> 6%nat -> nth i row' 0 = nth i row 0.
  Proof.
    intros (L & H) N. destruct (Nat.lt_ge_cases i (length row)) as [I | I].
    - rewrite (H i I). apply Nat.eqb_neq in N. rewrite N. ring.
    - rewrite !nth_overflow by lia. reflexivity.
  Qed.

  Lemma input_ext g row row' : length row' = length row ->
    (forall i, i <> 3%nat -> i <> 4%nat -> i <> 6%nat -> nth i row' 0 = nth i row 0) ->
    direction (nth 3 row' 0) (nth 4 row' 0) = direction (nth 3 row 0) (nth 4 row 0) ->
    input g row' = input g row.
  Proof.
    intros L H D. unfold event_input. apply map_ext. intros c. unfold dom_input. rewrite D, L.
    rewrite (H 0%nat), (H 1%nat), (H 2%nat), (H 5%nat) by lia.
    rewrite (map_ext_in (fun i => trafo i (nth i row' 0)) (fun i => trafo i (nth i row 0)) (seq 7 (length row - 7))).
    - reflexivity.
    - intros i I. apply in_seq in I. rewrite H by lia. reflexivity.
  Qed.

  Lemma combine_nth_inv {A B} (a : list A) (b : list B) p x y :
    nth_error (combine a b) p = Some (x, y) -> nth_error a p = Some x /\ nth_error b p = Some y.
  Proof.
    revert b p. induction a as [| u a IH]; intros [| v b] [| p] H; try discriminate H; cbn in *.
    - injection H as -> ->. auto.
    - apply IH. exact H.
  Qed.

  Lemma name_index_nth names k i : name_index names k = Ok i -> nth_error names i = Some k.
  Proof.
    unfold name_index, lookup.
    destruct (dget k (fold_left (fun d nv => dset (fst nv) (snd nv) d) (combine names (seq 0 (length names))) [])) as [v |] eqn:G;
      [| discriminate].
    intros E. injection E as <-.
    assert (Q : forall (l : list (string * nat)) d, (forall k i, dget k d = Some i -> nth_error names i = Some k) ->
      (forall k i, In (k, i) l -> nth_error names i = Some k) ->
      forall k i, dget k (fold_left (fun d nv => dset (fst nv) (snd nv) d) l d) = Some i -> nth_error names i = Some k).
    { induction l as [| [k1 i1] l IH]; intros d D H; [exact D |]. cbn [fold_left fst snd]. apply IH.
      - intros k2 i2 G2. destruct (string_dec k2 k1) as [-> | N].
        + rewrite dget_dset_same in G2. injection G2 as <-. apply H. left. reflexivity.
        + rewrite dget_dset_other in G2 by congruence. exact (D _ _ G2).
      - intros k2 i2 I. apply H. right. exact I. }
    refine (Q _ [] _ _ k v G); [discriminate |]. clear. intros k i I.
    apply In_nth_error in I. destruct I as (p & I).
    assert (P : (p < length (seq 0 (length names)))%nat).
    { rewrite seq_length. pose proof (nth_error_Some (combine names (seq 0 (length names))) p) as H.
      rewrite combine_length, seq_length, Nat.min_id in H. apply H. rewrite I. discriminate. }
    pose proof (combine_nth_inv names (seq 0 (length names)) p k i I) as (A & B).
    rewrite seq_length in P. rewrite (nth_error_nth' _ 0%nat) in B by (rewrite seq_length; exact P).
    rewrite seq_nth in B by exact P. injection B as <-. exact A.
  Qed.

  Lemma eff_index g i : name_index (cascade_names format g) "DOMEfficiency" = Ok i -> i <> 3%nat /\ i <> 4%nat /\ i <> 6%nat.
  Proof.
    intros E. apply name_index_nth in E. unfold cascade_names in E.
    repeat split; intros ->; cbn in E; discriminate E.
  Qed.

  Lemma tw_shift d tc k x e : x_event x = e -> tw_cdf erf (tc + d e) k (shift_window d x) = tw_cdf erf tc k x.
  Proof.
    intros <-. unfold tw_cdf, shift_window. cbn [x_start x_stop].
    replace (x_stop x + d (x_event x) - (tc + d (x_event x))) with (x_stop x - tc) by ring.
    replace (x_start x + d (x_event x) - (tc + d (x_event x))) with (x_start x - tc) by ring. reflexivity.
  Qed.

  Lemma filter_shift d e c xs : filter (at_dom e c) (map (shift_window d) xs) = map (shift_window d) (filter (at_dom e c) xs).
  Proof.
    induction xs as [| x xs IH]; [reflexivity |]. cbn [map filter]. 
    change (at_dom e c (shift_window d x)) with (at_dom e c x). destruct (at_dom e c x); cbn [map]; rewrite IH; reflexivity.
  Qed.

  Lemma forallb_ext_in {A} (f g : A -> bool) l : (forall x, In x l -> f x = g x) -> forallb f l = forallb g l.
  Proof.
    induction l as [| x l IH]; intros H; [reflexivity |]. cbn. rewrite (H x (or_introl eq_refl)), IH; [reflexivity |].
    intros y Y. apply H. right. exact Y.
  Qed.

  Lemma forallb_map {A B} (f : B -> bool) (g : A -> B) l : forallb f (map g l) = forallb (fun x => f (g x)) l.
  Proof. induction l as [| x l IH]; [reflexivity |]. cbn. rewrite IH. reflexivity. Qed.

  Definition same_excl n (a b : result ((nat -> cell -> list R) * (nat -> cell -> R))) : Prop :=
    match a, b with
    | Ok a, Ok b => Agrees n (fst a) (fst b) /\ Agrees n (snd a) (snd b)
    | Err x, Err y => x = y
    | _, _ => False
    end.

  Lemma exclusion_shift d n time time' comps xs : (forall e, (e < n)%nat -> time' e = time e + d e) ->
    same_excl n (cascade_exclusion erf n time' comps (map (shift_window d) xs)) (cascade_exclusion erf n time comps xs).
  Proof.
    intros T. cbv beta delta [cascade_exclusion]. rewrite !forallb_map.
    change (forallb (fun x => in_range n (x_event (shift_window d x)) (x_cell (shift_window d x))) xs)
      with (forallb (fun x => in_range n (x_event x) (x_cell x)) xs).
    destruct (forallb (fun x => in_range n (x_event x) (x_cell x)) xs) eqn:R; [| exact eq_refl].
    assert (IR : forall x, In x xs -> (x_event x < n)%nat).
    { intros x I. rewrite forallb_forall in R. specialize (R x I). apply in_range_true in R. exact (proj1 R). }
    cbv beta iota delta [negb].
    rewrite (forallb_ext_in _ (fun x => forallb (fun k => checked (tw_cdf erf (time (x_event x)) k x)) (comps (x_event x) (x_cell x)))).
    2:{ intros x I. cbn [shift_window x_event x_cell]. apply forallb_ext_in. intros k _. rewrite T by exact (IR x I).
        rewrite tw_shift by reflexivity. reflexivity. }
    match goal with |- same_excl n (if (if ?a then _ else _) then _ else _) (if (if ?b then _ else _) then _ else _) => change b with a; destruct a end; [| exact eq_refl]. cbv zeta.
    set (sums' := fun (e : nat) (c : cell) => map (fun k => Rsum (map (fun x => clip (tw_cdf erf (time' e) k x) 0 1) (filter (at_dom e c) (map (shift_window d) xs)))) (comps e c)).
    set (sums := fun (e : nat) (c : cell) => map (fun k => Rsum (map (fun x => clip (tw_cdf erf (time e) k x) 0 1) (filter (at_dom e c) xs))) (comps e c)).
    assert (SE : Agrees n sums' sums).
    { intros e c E. unfold sums', sums. apply map_ext. intros k. rewrite filter_shift, map_map. apply Rsum_map_ext.
      intros x I. apply filter_In in I. destruct I as (_ & I). apply at_true in I. destruct I as (I & _).
      rewrite T by exact E. rewrite tw_shift by exact I. reflexivity. }
    clearbody sums' sums.
    rewrite (forallb_ext_in (fun e => forallb (fun c => forallb checked (sums' e c)) detector_cells)
                            (fun e => forallb (fun c => forallb checked (sums e c)) detector_cells)).
    2:{ intros e E. apply in_seq in E. apply forallb_ext_in. intros c _. rewrite SE by lia. reflexivity. }
    match goal with |- same_excl n (if (if ?a then _ else _) then _ else _) (if (if ?b then _ else _) then _ else _) => change b with a; destruct a end; [| exact eq_refl].
    rewrite (forallb_ext_in _ (fun e => forallb (fun c => checked (Rsum (zipw (fun v k => v * k_scale k)
      (map (fun v => clip v 0 1) (sums e c)) (comps e c)))) detector_cells)).
    2:{ intros e E. apply in_seq in E. apply forallb_ext_in. intros c _. rewrite SE by lia. reflexivity. }
    match goal with |- same_excl n (if (if ?a then _ else _) then _ else _) (if (if ?b then _ else _) then _ else _) => change b with a; destruct a end; [| exact eq_refl]. cbn [same_excl fst snd].
    split; intros e c E; rewrite (SE e c E); reflexivity.
  Qed.

  Lemma densities_shift d n f f' ps : (forall e c t, (e < n)%nat -> f' e c (t + d e) = f e c t) ->
    pulse_densities n f' (map (shift_pulse d) ps) = pulse_densities n f ps.
  Proof.
    intros F. induction ps as [| p ps IH]; [reflexivity |]. cbn [map pulse_densities shift_pulse u_event u_cell u_time].
    destruct (in_range n (u_event p) (u_cell p)) eqn:R; [| reflexivity]. rewrite IH. apply in_range_true in R.
    rewrite F by exact (proj1 R). reflexivity.
  Qed.

  Lemma density_shift ks excl tc d t : pulse_density ks excl (tc + d) (t + d) = pulse_density ks excl tc t.
  Proof. unfold pulse_density. replace (t + d - (tc + d)) with (t - tc) by ring. reflexivity. Qed.

  Lemma existsb_ext_nth {A} (f : A -> bool) l l' (d : A) : length l' = length l ->
    (forall i, (i < length l)%nat -> f (nth i l' d) = f (nth i l d)) -> existsb f l' = existsb f l.
  Proof.
    revert l. induction l' as [| x' l' IH]; intros [| x l] L H; try discriminate L; [reflexivity |]. cbn.
    pose proof (H 0%nat ltac:(cbn; lia)) as H0. cbn [nth] in H0. rewrite H0. f_equal. apply IH; [cbn in L; lia |].
    intros i I. exact (H (S i) ltac:(cbn; lia)).
  Qed.

  Lemma map_ext_nth {A B} (f : A -> B) l l' (d : A) : length l' = length l ->
    (forall i, (i < length l)%nat -> f (nth i l' d) = f (nth i l d)) -> map f l' = map f l.
  Proof.
    revert l. induction l' as [| x' l' IH]; intros [| x l] L H; try discriminate L; [reflexivity |]. cbn [map]. f_equal.
    - exact (H 0%nat ltac:(cbn; lia)).
    - apply IH; [cbn in L; lia |]. intros i I. exact (H (S i) ltac:(cbn; lia)).
  Qed.

  (** Events with the same inputs, up to a shift of the time *)
  Lemma get_shift g rows rows' d charges exclusions pulses : length rows' = length rows ->
    (forall e, (e < length rows)%nat ->
      length (nth e rows' []) = length (nth e rows []) /\ input g (nth e rows' []) = input g (nth e rows []) /\
      (forall i, i <> 3%nat -> i <> 4%nat -> i <> 6%nat -> nth i (nth e rows' []) 0 = nth i (nth e rows []) 0) /\
      nth 6 (nth e rows' []) 0 = nth 6 (nth e rows []) 0 + d e) ->
    SameTensors (length rows)
      (get g rows' charges (option_map (map (shift_window d)) exclusions) (map (shift_pulse d) pulses))
      (get g rows charges exclusions pulses).
  Proof.
    intros LR H. cbv beta delta [cascade_get_tensors]. rewrite LR.
    rewrite (existsb_ext_nth (fun row => Nat.ltb (length row) 7) rows rows' [] LR).
    2:{ intros e E. destruct (H e E) as (L & _). rewrite L. reflexivity. }
    destruct (existsb (fun row => Nat.ltb (length row) 7) rows); [exact eq_refl |].
    rewrite (map_ext_nth (input g) rows rows' [] LR).
    2:{ intros e E. destruct (H e E) as (_ & I & _). exact I. }
    set (inputs := map (input g) rows). clearbody inputs. cbv zeta.
    destruct (existsb _ inputs); [exact eq_refl |].
    destruct (negb (Nat.eqb (g_models g * 4 + n_charge (mode g)) (g_filters g))); [exact eq_refl |].
    destruct (Nat.leb (g_models g) 1); [exact eq_refl |].
    set (n := length rows) in *.
    assert (T : forall e, (e < n)%nat -> nth 6 (nth e rows' []) 0 = nth 6 (nth e rows []) 0 + d e)
      by (intros e E; exact (proj2 (proj2 (proj2 (H e E))))).
    set (ef := if g_global g then name_index (cascade_names format g) "DOMEfficiency" else Ok 0%nat).
    assert (EF : forall i, ef = Ok i -> forall e, (e < n)%nat -> nth i (nth e rows' []) 0 = nth i (nth e rows []) 0).
    { intros i E e I. assert (i <> 3%nat /\ i <> 4%nat /\ i <> 6%nat) as (N3 & N4 & N6).
      { unfold ef in E. destruct (g_global g); [exact (eff_index g i E) |]. injection E as <-. lia. }
      apply (H e I); assumption. }
    assert (E5 : forall e, (e < n)%nat -> nth 5 (nth e rows' []) 0 = nth 5 (nth e rows []) 0).
    { intros e I. apply (H e I); lia. }
    clearbody ef.
    match goal with |- SameTensors n (bind _ ?K') (bind _ ?K) =>
      assert (FIN : forall excl' excl, match excl', excl with
                      | Some f', Some f => Agrees n (fst f') (fst f) /\ Agrees n (snd f') (snd f)
                      | None, None => True | _, _ => False end -> SameTensors n (K' excl') (K excl)) end.
    { intros excl' excl X. destruct ef as [i |]; [| exact eq_refl]. specialize (EF i eq_refl). cbn [bind].
      match goal with |- SameTensors n (bind (pulse_densities n ?f' _) _) (bind (pulse_densities n ?f _) _) =>
        rewrite (densities_shift d n f f' pulses) end.
      2:{ intros e c t E. cbn beta. rewrite T by exact E. rewrite density_shift.
          destruct excl' as [f' |], excl as [f |]; try contradiction; [| reflexivity].
          destruct X as (X & _). rewrite X by exact E. reflexivity. }
      destruct (pulse_densities _ _ _) as [pdf |]; [| exact eq_refl]. cbn [bind].
      match goal with |- SameTensors n (Ok {| a_charges := ?q' |}) (Ok {| a_charges := ?q |}) =>
        assert (Q : Agrees n q' q) end.
      { intros e c E. unfold raw_charge. rewrite (E5 e E), (EF e E).
        destruct excl' as [f' |], excl as [f |]; try contradiction; [| reflexivity].
        destruct X as (_ & X). rewrite X by exact E. reflexivity. }
      cbn [SameTensors a_comps a_excl a_excl_sum a_charges a_unc a_var a_llh a_pdf].
      split; [intros e c _; reflexivity |].
      split; [destruct excl' as [f' |], excl as [f |]; try contradiction; [exact (proj1 X) | exact I] |].
      split; [destruct excl' as [f' |], excl as [f |]; try contradiction; [exact (proj2 X) | exact I] |].
      split; [exact Q |].
      split; [intros e c E; cbn beta; rewrite (Q e c E); reflexivity |].
      split; [intros e c E; cbn beta; rewrite (Q e c E); reflexivity |].
      split; [| reflexivity].
      destruct (mode g); cbn [AgreesO]; try exact I; intros e c E; cbn beta; rewrite (Q e c E); reflexivity. }
    destruct exclusions as [xs |]; cbn [option_map].
    - match goal with |- SameTensors n (bind (bind (cascade_exclusion erf n ?tm' ?cs _) _) _) (bind (bind (cascade_exclusion erf n ?tm _ _) _) _) =>
        pose proof (exclusion_shift d n tm tm' cs xs T) as X;
        destruct (cascade_exclusion erf n tm' cs (map (shift_window d) xs)) as [f' | x],
          (cascade_exclusion erf n tm cs xs) as [f | y] end; cbn [same_excl] in X; try contradiction.
      + exact (FIN (Some f') (Some f) X).
      + subst y. exact eq_refl.
    - exact (FIN None None I).
  Qed.
  (** *** The result *)

  Definition the_comps g rows (e : nat) (c : cell) : list comp := components g (net (map (input g) rows) e c).
  Definition the_time (rows : list (list R)) (e : nat) : R := nth 6 (nth e rows []) 0.
  Definition the_raw g rows i (e : nat) (c : cell) : R :=
    raw_charge rel_eff g (nth e rows []) (net (map (input g) rows) e c) c (nth i (nth e rows []) 0).

  Record Result g rows (charges : nat -> cell -> R) exclusions pulses (r : cascade_tensors) (i : nat) : Prop := {
    q_layout : (g_models g * 4 + n_charge (mode g) = g_filters g)%nat;
    q_models : (1 < g_models g)%nat;
    q_eff : (if g_global g then name_index (cascade_names format g) "DOMEfficiency" else Ok 0%nat) = Ok i;
    q_comps : a_comps r = the_comps g rows;
    q_excl : match exclusions with
             | None => a_excl r = None /\ a_excl_sum r = None
             | Some xs => exists fe fs, cascade_exclusion erf (length rows) (the_time rows) (the_comps g rows) xs = Ok (fe, fs) /\
                            a_excl r = Some fe /\ a_excl_sum r = Some fs
             end;
    q_charges : forall e c, a_charges r e c =
        match a_excl_sum r with
        | None => the_raw g rows i e c
        | Some f => the_raw g rows i e c * (1 - f e c + 1 / 1000)
        end + 1 / 10000000;
    q_unc : forall e c, a_unc r e c = fst (fst (charge_terms lgamma g (net (map (input g) rows) e c) (a_charges r e c) (charges e c)));
    q_var : forall e c, a_var r e c = snd (fst (charge_terms lgamma g (net (map (input g) rows) e c) (a_charges r e c) (charges e c)));
    q_llh : match a_llh r with
            | None => mode g = Poisson
            | Some f => forall e c, snd (charge_terms lgamma g (net (map (input g) rows) e c) (a_charges r e c) (charges e c)) = Some (f e c)
            end;
    q_pdf : pulse_densities (length rows) (fun e c t =>
              pulse_density (the_comps g rows e c) (match a_excl r with None => None | Some f => Some (f e c) end)
                (the_time rows e) t) pulses = Ok (a_pdf r) }.

  Lemma llh_mode g out q t v : mode g <> Poisson ->
    snd (charge_terms lgamma g out q t) = Some (match snd (charge_terms lgamma g out q t) with Some v => v | None => v end).
  Proof. intros N. unfold charge_terms. destruct (mode g); [reflexivity | reflexivity | contradiction]. Qed.

  Lemma get_inv g rows charges exclusions pulses r : get g rows charges exclusions pulses = Ok r ->
    exists i, Result g rows charges exclusions pulses r i.
  Proof.
    cbv beta delta [cascade_get_tensors]. cbv zeta.
    destruct (existsb (fun row => Nat.ltb (length row) 7) rows); [discriminate |].
    destruct (existsb _ (map _ rows)); [discriminate |].
    destruct (Nat.eqb_spec (g_models g * 4 + n_charge (mode g)) (g_filters g)) as [LAY |]; [| discriminate].
    cbv beta iota delta [negb]. destruct (Nat.leb_spec (g_models g) 1) as [| NM]; [discriminate |].
    intros H. apply bind_ok in H. destruct H as (excl & X & H). apply bind_ok in H. destruct H as (i & EFF & H).
    apply bind_ok in H. destruct H as (pdf & PDF & H). injection H as <-. exists i.
    constructor; cbn [a_comps a_excl a_excl_sum a_charges a_unc a_var a_llh a_pdf]; try assumption; try reflexivity.
    - destruct exclusions as [xs |].
      + apply bind_ok in X. destruct X as ([fe fs] & X & E). injection E as <-. exists fe, fs.
        split; [exact X |]. split; reflexivity.
      + injection X as <-. split; reflexivity.
    - intros e c. destruct excl as [[fe fs] |]; reflexivity.
    - destruct (mode g) eqn:M; try reflexivity; intros e c; apply llh_mode; rewrite M; discriminate.
    - destruct excl as [[fe fs] |]; exact PDF.
  Qed.

  Lemma densities_ok n f ps : ValidPulses n ps ->
    pulse_densities n f ps = Ok (map (fun p => f (u_event p) (u_cell p) (u_time p)) ps).
  Proof.
    intros V. induction V as [| p ps V1 V2 IH]; [reflexivity |]. cbn [pulse_densities map].
    rewrite (proj2 (in_range_true _ _ _) V1), IH. reflexivity.
  Qed.

  Lemma densities_inv n f ps l : pulse_densities n f ps = Ok l ->
    ValidPulses n ps /\ l = map (fun p => f (u_event p) (u_cell p) (u_time p)) ps.
  Proof.
    revert l. induction ps as [| p ps IH]; intros l H; cbn [pulse_densities] in H.
    - injection H as <-. split; [constructor | reflexivity].
    - destruct (in_range n (u_event p) (u_cell p)) eqn:R; [| discriminate]. apply bind_ok in H.
      destruct H as (l0 & H & E). injection E as <-. destruct (IH _ H) as (V & ->).
      split; [constructor; [apply in_range_true; exact R | exact V] | reflexivity].
  Qed.

  Lemma get_some g rows charges exclusions pulses :
    Forall (fun row => length row = num_parameters g) rows -> (forall c, length (local_vars c) = g_local g) ->
    (g_models g * 4 + n_charge (mode g) = g_filters g)%nat -> (1 < g_models g)%nat ->
    (exists i, (if g_global g then name_index (cascade_names format g) "DOMEfficiency" else Ok 0%nat) = Ok i) ->
    match exclusions with
    | None => True
    | Some xs => exists f, cascade_exclusion erf (length rows) (the_time rows) (the_comps g rows) xs = Ok f
    end ->
    ValidPulses (length rows) pulses -> exists r, get g rows charges exclusions pulses = Ok r.
  Proof.
    intros SH LV LAY NM (i & EFF) X V. destruct (shape_ok g rows SH LV) as (A & B).
    cbv beta delta [cascade_get_tensors]. rewrite A. cbv zeta. rewrite B. rewrite LAY, Nat.eqb_refl.
    cbv beta iota delta [negb]. destruct (Nat.leb_spec (g_models g) 1); [lia |]. rewrite EFF.
    destruct exclusions as [xs |].
    - destruct X as (f & X). unfold the_comps, the_time in X. rewrite X. cbn [bind].
      rewrite densities_ok by exact V. cbn [bind]. eexists. reflexivity.
    - cbn [bind]. rewrite densities_ok by exact V. cbn [bind]. eexists. reflexivity.
  Qed.

  (** A call that succeeds without excluded windows succeeds with separate ones
      and for other pulses. *)
  Lemma get_again g rows charges charges' exclusions pulses pulses' r : IsErf erf ->
    (forall inputs e c, length (net inputs e c) = g_filters g) ->
    get g rows charges None pulses = Ok r ->
    match exclusions with None => True | Some xs => Ordered xs /\ Separate xs /\ ValidWindows (length rows) xs end ->
    ValidPulses (length rows) pulses' -> exists r', get g rows charges' exclusions pulses' = Ok r'.
  Proof.
    intros HE SH G X V. destruct (get_inv _ _ _ _ _ _ G) as (i & Q). pose proof G as G0.
    cbv beta delta [cascade_get_tensors] in G0 |- *. cbv zeta in G0 |- *.
    destruct (existsb (fun row => Nat.ltb (length row) 7) rows); [discriminate |].
    destruct (existsb _ (map _ rows)); [discriminate |].
    rewrite (q_layout _ _ _ _ _ _ _ Q), Nat.eqb_refl. cbv beta iota delta [negb].
    pose proof (q_models _ _ _ _ _ _ _ Q) as NM. destruct (Nat.leb_spec (g_models g) 1); [lia |].
    rewrite (q_eff _ _ _ _ _ _ _ Q).
    destruct exclusions as [xs |].
    - destruct X as (O & S & VW).
      destruct (exclusion_ok erf HE (length rows) (the_time rows) (the_comps g rows) xs O S VW) as (fe & fs & E & _).
      { intros e c. apply components_mixture; [exact NM |]. rewrite SH, (q_layout _ _ _ _ _ _ _ Q). lia. }
      unfold the_comps, the_time in E. rewrite E. cbn [bind]. rewrite densities_ok by exact V. cbn [bind].
      eexists. reflexivity.
    - cbn [bind]. rewrite densities_ok by exact V. cbn [bind]. eexists. reflexivity.
  Qed.
End Inputs.

Lemma mass_unique f u v : TotalMass f u -> TotalMass f v -> u = v.
Proof.
  intros U V. destruct (Req_dec u v) as [E | N]; [exact E | exfalso].
  set (d := Rabs (u - v) / 2). assert (D : 0 < d) by (unfold d; pose proof (Rabs_pos_lt (u - v)); lra).
  destruct (U d D) as (m1 & M1). destruct (V d D) as (m2 & M2). set (m := Rmax m1 m2).
  pose proof (Rmax_l m1 m2). pose proof (Rmax_r m1 m2). fold m in H, H0.
  destruct (M1 (- m - 1) (m + 1) ltac:(lra) ltac:(lra)) as (x & X1 & X2).
  destruct (M2 (- m - 1) (m + 1) ltac:(lra) ltac:(lra)) as (y & Y1 & Y2).
  pose proof (integrates_unique _ _ _ _ _ _ (fun t => eq_refl) X1 Y1) as E. subst y.
  pose proof (Rabs_triang (u - x) (x - v)) as T. replace (u - x + (x - v)) with (u - v) in T by ring.
  rewrite (Rabs_minus_sym u x) in T. unfold d in *. lra.
Qed.

Lemma mass_ext f g u : (forall t, f t = g t) -> TotalMass f u -> TotalMass g u.
Proof.
  intros E M eps P. destruct (M eps P) as (m & H). exists m. intros a b A B. destruct (H a b A B) as (v & V & W).
  exists v. split; [| exact W]. apply integrates_is_RInt. apply integrates_is_RInt in V.
  eapply is_RInt_ext; [| exact V]. intros x _. apply E.
Qed.

Lemma mass_scale f u k : TotalMass f u -> TotalMass (fun t => k * f t) (k * u).
Proof.
  intros M eps P. destruct (M (eps / (Rabs k + 1))) as (m & H).
  { apply Rdiv_lt_0_compat; [exact P |]. pose proof (Rabs_pos k). lra. }
  exists m. intros a b A B. destruct (H a b A B) as (v & V & W). exists (k * v). split.
  - apply integrates_is_RInt. apply integrates_is_RInt in V. apply (is_RInt_scal _ _ _ k) in V. exact V.
  - replace (k * v - k * u) with (k * (v - u)) by ring. rewrite Rabs_mult.
    pose proof (Rabs_pos k) as K. pose proof (Rabs_pos (v - u)) as K'.
    apply Rle_lt_trans with ((Rabs k + 1) * Rabs (v - u)); [apply Rmult_le_compat_r; lra |].
    replace eps with ((Rabs k + 1) * (eps / (Rabs k + 1))) by (field; lra).
    apply Rmult_lt_compat_l; lra.
Qed.

Lemma mass_plus f g u v : TotalMass f u -> TotalMass g v -> TotalMass (fun t => f t + g t) (u + v).
Proof.
  intros F G eps P. destruct (F (eps / 2) ltac:(lra)) as (m1 & M1). destruct (G (eps / 2) ltac:(lra)) as (m2 & M2).
  exists (Rmax m1 m2). intros a b A B. pose proof (Rmax_l m1 m2). pose proof (Rmax_r m1 m2).
  destruct (M1 a b ltac:(lra) ltac:(lra)) as (x & X & XE). destruct (M2 a b ltac:(lra) ltac:(lra)) as (y & Y & YE).
  exists (x + y). split.
  - apply integrates_is_RInt. apply integrates_is_RInt in X. apply integrates_is_RInt in Y.
    exact (is_RInt_plus (V := R_NormedModule) _ _ _ _ _ _ X Y).
  - replace (x + y - (u + v)) with ((x - u) + (y - v)) by ring. pose proof (Rabs_triang (x - u) (y - v)). lra.
Qed.

Lemma mass_const v u : v <> 0 -> ~ TotalMass (fun _ => v) u.
Proof.
  intros V M. destruct (M 1 Rlt_0_1) as (m & H).
  assert (K : forall a b x, Integrates (fun _ => v) a b x -> x = v * (b - a)).
  { intros a b x I. apply integrates_is_RInt in I. rewrite <- (is_RInt_unique _ _ _ _ I), RInt_const.
    unfold scal. cbn. unfold mult. cbn. ring. }
  set (d := 2 / Rabs v). assert (VP : 0 < Rabs v) by (apply Rabs_pos_lt; exact V).
  assert (D : 0 < d) by (unfold d; apply Rdiv_lt_0_compat; lra).
  set (a := - m - 1 - Rabs m). set (b := m + 1 + Rabs m).
  pose proof (Rle_abs m). pose proof (Rle_abs (- m)). rewrite Rabs_Ropp in *. pose proof (Rabs_pos m).
  destruct (H a b ltac:(unfold a; lra) ltac:(unfold b; lra)) as (x & X & XE). apply K in X.
  destruct (H a (b + d) ltac:(unfold a; lra) ltac:(unfold b; lra)) as (y & Y & YE). apply K in Y.
  assert (E : y - x = v * d) by (rewrite X, Y; ring).
  assert (Rabs (y - x) = 2).
  { rewrite E, Rabs_mult, (Rabs_right d) by lra. unfold d. field. lra. }
  pose proof (Rabs_triang (y - u) (u - x)) as T. replace (y - u + (u - x)) with (y - x) in T by ring.
  rewrite (Rabs_minus_sym u x) in T. lra.
Qed.
