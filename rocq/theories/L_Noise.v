(** Lemmas for the noise source. *)
From Coq Require Import Reals Lra Lia Psatz.
From Coquelicot Require Import Coquelicot.
From Verif Require Import Py PyFacts RList M_Source S_Basis M_Noise S_Noise.
Open Scope R_scope.

(** ** Clipping *)

Lemma clip_range x lo hi : lo <= hi -> lo <= clip x lo hi <= hi.
Proof. intros H. unfold clip, Rmax, Rmin. destruct (Rle_dec x hi); destruct (Rle_dec _ lo); lra. Qed.

Lemma clip_mono x y lo hi : x <= y -> clip x lo hi <= clip y lo hi.
Proof.
  intros H. unfold clip, Rmax, Rmin. destruct (Rle_dec x hi), (Rle_dec y hi);
    repeat match goal with |- context [Rle_dec ?a ?b] => destruct (Rle_dec a b) end; lra.
Qed.

Lemma clip_id x lo hi : lo <= x <= hi -> clip x lo hi = x.
Proof. intros H. unfold clip, Rmax, Rmin. destruct (Rle_dec x hi); [| lra]. destruct (Rle_dec x lo); lra. Qed.

(** Length of a window after clipping *)
Definition clen (a b : R) (x : exclusion) : R := clip (x_stop x) a b - clip (x_start x) a b.

Lemma clen_overlap a b x : a < b -> x_start x <= x_stop x -> clen a b x = Overlap (a, b) x.
Proof.
  intros H O. unfold clen, Overlap, clip, Rmax, Rmin. cbn [fst snd].
  destruct (Rle_dec (x_stop x) b), (Rle_dec (x_start x) b), (Rle_dec (x_start x) a);
  repeat match goal with |- context [Rle_dec ?u ?v] => destruct (Rle_dec u v) end; lra.
Qed.

(** ** Integral of the indicator of a window *)

Definition ind (x : exclusion) (t : R) : R := if Rle_dec (x_start x) t then if Rlt_dec t (x_stop x) then 1 else 0 else 0.

Lemma ind_integral a b x : a < b -> x_start x <= x_stop x -> is_RInt (ind x) a b (clen a b x).
Proof.
  intros AB O. set (cs := clip (x_start x) a b). set (ct := clip (x_stop x) a b).
  pose proof (clip_range (x_start x) a b ltac:(lra)) as RS. fold cs in RS.
  pose proof (clip_range (x_stop x) a b ltac:(lra)) as RT. fold ct in RT.
  pose proof (clip_mono (x_start x) (x_stop x) a b O) as M. fold cs ct in M.
  assert (I1 : is_RInt (ind x) a cs 0).
  { apply (is_RInt_ext (fun _ => 0)).
    - rewrite Rmin_left, Rmax_right by lra. intros t (T1 & T2). unfold ind.
      destruct (Rle_dec (x_start x) t) as [L |]; [exfalso | reflexivity].
      unfold cs, clip, Rmax, Rmin in T2. destruct (Rle_dec (x_start x) b); destruct (Rle_dec _ a); lra.
    - pose proof (is_RInt_const a cs 0) as K. unfold scal in K. cbn in K. unfold mult in K. cbn in K.
      rewrite Rmult_0_r in K. exact K. }
  assert (I2 : is_RInt (ind x) cs ct (ct - cs)).
  { apply (is_RInt_ext (fun _ => 1)).
    - rewrite Rmin_left, Rmax_right by lra. intros t (T1 & T2). unfold ind.
      assert (x_start x <= t).
      { unfold cs, clip, Rmax, Rmin in T1. destruct (Rle_dec (x_start x) b); destruct (Rle_dec _ a); lra. }
      assert (t < x_stop x).
      { unfold ct, clip, Rmax, Rmin in T2. destruct (Rle_dec (x_stop x) b); destruct (Rle_dec _ a); lra. }
      destruct (Rle_dec (x_start x) t); [| lra]. destruct (Rlt_dec t (x_stop x)); [reflexivity | lra].
    - pose proof (is_RInt_const cs ct 1) as K. unfold scal in K. cbn in K. unfold mult in K. cbn in K.
      rewrite Rmult_1_r in K. exact K. }
  assert (I3 : is_RInt (ind x) ct b 0).
  { apply (is_RInt_ext (fun _ => 0)).
    - rewrite Rmin_left, Rmax_right by lra. intros t (T1 & T2). unfold ind.
      destruct (Rle_dec (x_start x) t); [| reflexivity].
      destruct (Rlt_dec t (x_stop x)); [exfalso | reflexivity].
      unfold ct, clip, Rmax, Rmin in T1. destruct (Rle_dec (x_stop x) b); destruct (Rle_dec _ a); lra.
    - pose proof (is_RInt_const ct b 0) as K. unfold scal in K. cbn in K. unfold mult in K. cbn in K.
      rewrite Rmult_0_r in K. exact K. }
  pose proof (is_RInt_Chasles _ _ _ _ _ _ (is_RInt_Chasles _ _ _ _ _ _ I1 I2) I3) as C.
  unfold plus in C. cbn in C. unfold clen. fold cs ct. replace (ct - cs) with (0 + (ct - cs) + 0) by ring. exact C.
Qed.

(** ** Sums over the windows of a DOM *)

Definition total_ind (xs : list exclusion) (e : nat) (c : cell) (t : R) : R :=
  Rsum (map (fun x => ind x t) (filter (At e c) xs)).
Definition total_len (a b : R) (xs : list exclusion) (e : nat) (c : cell) : R :=
  Rsum (map (clen a b) (filter (At e c) xs)).

Lemma at_true e c x : At e c x = true <-> x_event x = e /\ x_cell x = c.
Proof.
  unfold At. rewrite !andb_true_iff, !Nat.eqb_eq. destruct (x_cell x) as (u, v), c as (u', v'). cbn.
  split; [intros ((-> & ->) & ->); split; reflexivity | intros (-> & [= -> ->]); repeat split].
Qed.

Lemma total_ind_integral a b xs e c : a < b -> Ordered xs ->
  is_RInt (total_ind xs e c) a b (total_len a b xs e c).
Proof.
  intros AB O. induction O as [| x xs OX O IH].
  - unfold total_ind, total_len. cbn. pose proof (is_RInt_const a b 0) as K. unfold scal in K. cbn in K.
    unfold mult in K. cbn in K. rewrite Rmult_0_r in K. exact K.
  - unfold total_ind, total_len in *. cbn [filter]. destruct (At e c x); [| exact IH].
    cbn [map]. rewrite Rsum_cons.
    apply (is_RInt_ext (fun t => plus (ind x t) (Rsum (map (fun x0 => ind x0 t) (filter (At e c) xs))))).
    + intros t _. reflexivity.
    + apply (is_RInt_plus (V := R_NormedModule)); [apply ind_integral; assumption | exact IH].
Qed.

Lemma ind_or x t : ind x t = 0 \/ ind x t = 1.
Proof. unfold ind. destruct (Rle_dec _ _); [destruct (Rlt_dec _ _) |]; auto. Qed.

Lemma ind_one x t : ind x t = 1 <-> x_start x <= t < x_stop x.
Proof. unfold ind. destruct (Rle_dec _ _); [destruct (Rlt_dec _ _) |]; split; intros; lra. Qed.

Lemma total_ind_value xs e c t : Separate xs ->
  (Excluded xs e c t -> total_ind xs e c t = 1) /\ (~ Excluded xs e c t -> total_ind xs e c t = 0).
Proof.
  intros S. induction S as [| x xs A S (IH1 & IH2)].
  - split; [intros (x & [] & _) | reflexivity].
  - unfold total_ind in *. cbn [filter]. destruct (At e c x) eqn:K.
    + pose proof (proj1 (at_true e c x) K) as (KE & KC). cbn [map]. rewrite Rsum_cons.
      destruct (ind_or x t) as [Z | O].
      * rewrite Z, Rplus_0_l. split.
        -- intros (y & [<- | I] & YE & YC & YT); [apply ind_one in YT; lra |].
           apply IH1. exists y. auto.
        -- intros N. apply IH2. intros (y & I & Y). apply N. exists y. split; [right; exact I | exact Y].
      * rewrite O. assert (N : ~ Excluded xs e c t).
        { intros (y & I & YE & YC & YT). rewrite Forall_forall in A. specialize (A y I).
          apply ind_one in O. unfold Apart in A. rewrite KE, KC, YE, YC in A.
          destruct (A eq_refl eq_refl); lra. }
        split; intros H.
        -- rewrite (IH2 N). ring.
        -- exfalso. apply H. exists x. apply ind_one in O. split; [left; reflexivity |]. auto.
    + split.
      * intros (y & [<- | I] & YE & YC & YT).
        -- rewrite (proj2 (at_true e c x)) in K by auto. discriminate.
        -- apply IH1. exists y. auto.
      * intros N. apply IH2. intros (y & I & Y). apply N. exists y. split; [right; exact I | exact Y].
Qed.

(** The time a DOM is read out *)
Lemma live_time a b xs e c : a < b -> Ordered xs -> Separate xs ->
  LiveTime xs e c a b (b - a - total_len a b xs e c).
Proof.
  intros AB O S. exists (fun t => 1 - total_ind xs e c t). split.
  - intros t. destruct (total_ind_value xs e c t S) as (T1 & T2).
    split; intros H; [rewrite (T1 H) | rewrite (T2 H)]; ring.
  - assert (I : is_RInt (fun t => 1 - total_ind xs e c t) a b (b - a - total_len a b xs e c)).
    { apply (is_RInt_minus (V := R_NormedModule) (fun _ => 1) (total_ind xs e c)); [| apply total_ind_integral; assumption].
      pose proof (is_RInt_const a b 1) as K. unfold scal in K. cbn in K. unfold mult in K. cbn in K.
      rewrite Rmult_1_r in K. exact K. }
    assert (X : ex_RInt (fun t => 1 - total_ind xs e c t) a b) by (eexists; exact I).
    exists (ex_RInt_Reals_0 _ a b X). rewrite <- RInt_Reals. apply is_RInt_unique. exact I.
Qed.

(** The integral of a function only depends on its values *)
Lemma integrates_unique f g a b u v : (forall t, f t = g t) -> Integrates f a b u -> Integrates g a b v -> u = v.
Proof.
  intros E (pf & <-) (pg & <-). rewrite <- !RInt_Reals. apply RInt_ext. intros t _. apply E.
Qed.

Lemma live_time_unique xs e c a b u v : LiveTime xs e c a b u -> LiveTime xs e c a b v -> u = v.
Proof.
  intros (f & F & I) (g & G & J). apply (integrates_unique f g a b u v); [| exact I | exact J].
  intros t. destruct (Classical_Prop.classic (Excluded xs e c t)) as [H | H];
    [rewrite (proj1 (F t) H), (proj1 (G t) H) | rewrite (proj2 (F t) H), (proj2 (G t) H)]; reflexivity.
Qed.

Lemma integrates_scale f k a b v : Integrates f a b v -> Integrates (fun t => k * f t) a b (k * v).
Proof.
  intros (pr & E).
  assert (I : is_RInt f a b v).
  { apply ex_RInt_Reals_1 in pr as X. rewrite <- E, <- RInt_Reals. apply (RInt_correct (V := R_CompleteNormedModule)), X. }
  assert (J : is_RInt (fun t => k * f t) a b (k * v)) by apply (is_RInt_scal (V := R_NormedModule) f a b k v I).
  assert (X : ex_RInt (fun t => k * f t) a b) by (eexists; exact J).
  exists (ex_RInt_Reals_0 _ a b X). rewrite <- RInt_Reals. apply is_RInt_unique. exact J.
Qed.

(** The total length is between nothing and the length of the interval *)
Lemma total_len_range a b xs e c : a < b -> Ordered xs -> Separate xs -> 0 <= total_len a b xs e c <= b - a.
Proof.
  intros AB O S. split.
  - apply Rsum_nonneg. apply Forall_map. apply Forall_forall. intros x I. apply filter_In in I.
    unfold clen. pose proof (proj1 (Forall_forall _ _) O x (proj1 I)) as L. cbn in L.
    pose proof (clip_mono _ _ a b L). lra.
  - destruct (live_time a b xs e c AB O S) as (f & F & pr & E).
    assert (0 <= RiemannInt pr); [| lra].
    apply ex_RInt_Reals_1 in pr as X. rewrite <- RInt_Reals.
    apply RInt_ge_0; [lra | exact X |]. intros t _.
    destruct (Classical_Prop.classic (Excluded xs e c t)) as [H | H];
      [rewrite (proj1 (F t) H) | rewrite (proj2 (F t) H)]; lra.
Qed.

(** ** The code *)

Lemma cells_in c : In c detector_cells <-> InDetector c.
Proof.
  destruct c as (s, d). pose proof (in_prod_iff (seq 0 86) (seq 0 60) s d) as P. rewrite !in_seq in P.
  unfold detector_cells, InDetector. cbn [fst snd]. split; intros H; [apply P in H | apply P]; lia.
Qed.

Lemma in_range_true n e c : in_range n e c = true <-> (e < n)%nat /\ InDetector c.
Proof. unfold in_range, InDetector. rewrite !andb_true_iff, !Nat.ltb_lt. tauto. Qed.

Definition window_of (windows : list (R * R)) (e : nat) : R * R := nth e windows (0, 0).

Lemma window_nth windows e : (e < length windows)%nat -> nth_error windows e = Some (window_of windows e).
Proof. intros H. apply nth_error_nth'. exact H. Qed.

Lemma open_window windows e : Open windows -> (e < length windows)%nat ->
  fst (window_of windows e) < snd (window_of windows e).
Proof. intros O H. unfold Open in O. rewrite Forall_forall in O. apply O. apply nth_In. exact H. Qed.

(** The fraction of a window *)
Definition frac (windows : list (R * R)) (x : exclusion) : R :=
  let w := window_of windows (x_event x) in clen (fst w) (snd w) x / livetime w.

Lemma ratio_range u l : 0 <= u <= l -> 0 < l -> 0 <= u / l <= 1.
Proof.
  intros U L. pose proof (Rinv_0_lt_compat l L) as I. split; [apply Rmult_le_pos; lra |].
  apply (Rmult_le_reg_r l); [exact L |]. unfold Rdiv. rewrite Rmult_assoc, Rinv_l by lra. lra.
Qed.

Lemma clen_range a b x : a < b -> x_start x <= x_stop x -> 0 <= clen a b x <= b - a.
Proof.
  intros H O. unfold clen. pose proof (clip_mono _ _ a b O).
  pose proof (clip_range (x_start x) a b ltac:(lra)). pose proof (clip_range (x_stop x) a b ltac:(lra)). lra.
Qed.

Lemma frac_range windows x : Open windows -> (x_event x < length windows)%nat -> x_start x <= x_stop x ->
  0 <= frac windows x <= 1.
Proof.
  intros O E L. unfold frac. pose proof (open_window windows _ O E) as W.
  apply ratio_range; [apply clen_range; assumption | unfold livetime; lra].
Qed.

Lemma checked_true v : checked v = true <-> - (1 / 10000) < v < 10001 / 10000.
Proof. unfold checked. rewrite andb_true_iff, !Rltb_true. tauto. Qed.

Lemma fractions_ok windows xs : Open windows -> Ordered xs -> ValidWindows (length windows) xs ->
  tw_fractions windows xs = Ok (map (fun x => (x, frac windows x)) xs).
Proof.
  intros OP O V. induction xs as [| x xs IH]; [reflexivity |].
  pose proof (Forall_inv V) as (VX & _). pose proof (Forall_inv O) as OX. cbn beta in *.
  pose proof (frac_range windows x OP VX OX) as F. pose proof (open_window windows _ OP VX) as W.
  cbn [tw_fractions map]. rewrite (window_nth windows _ VX). unfold tw_fraction.
  rewrite (proj2 (Reqb_false _ 0)) by (unfold livetime; lra).
  change ((clip (x_stop x) (fst (window_of windows (x_event x))) (snd (window_of windows (x_event x))) -
    clip (x_start x) (fst (window_of windows (x_event x))) (snd (window_of windows (x_event x)))) /
    livetime (window_of windows (x_event x))) with (frac windows x).
  rewrite (proj2 (checked_true _)) by lra.
  rewrite (IH (Forall_inv_tail O) (Forall_inv_tail V)). cbn [bind]. rewrite clip_id by lra. reflexivity.
Qed.

Lemma scatter_map (g : exclusion -> R) xs e c :
  scatter (map (fun x => (x, g x)) xs) e c = Rsum (map g (filter (At e c) xs)).
Proof.
  unfold scatter. f_equal. induction xs as [| x xs IH]; [reflexivity |]. cbn [map filter fst].
  change (Nat.eqb (x_event x) e && Nat.eqb (fst (x_cell x)) (fst c) && Nat.eqb (snd (x_cell x)) (snd c))%bool
    with (At e c x).
  destruct (At e c x); [cbn [map snd]; f_equal; exact IH | exact IH].
Qed.

Lemma scatter_len windows xs e c : (e < length windows)%nat ->
  let w := window_of windows e in
  scatter (map (fun x => (x, frac windows x)) xs) e c = total_len (fst w) (snd w) xs e c / livetime w.
Proof.
  intros E w. rewrite scatter_map. unfold total_len.
  rewrite (Rsum_map_ext _ (fun x => / livetime w * clen (fst w) (snd w) x)).
  - rewrite Rsum_map_scal. unfold Rdiv. ring.
  - intros x I. apply filter_In in I. destruct I as (_ & A). apply at_true in A. destruct A as (A & _).
    unfold frac. rewrite A. fold w. unfold Rdiv. ring.
Qed.

Lemma total_overlap windows xs e c : Open windows -> Ordered xs -> (e < length windows)%nat ->
  let w := window_of windows e in total_len (fst w) (snd w) xs e c = TotalOverlap w xs e c.
Proof.
  intros OP O E w. unfold total_len, TotalOverlap. apply Rsum_map_ext. intros x I.
  apply filter_In in I. destruct I as (I & _). rewrite (surjective_pairing w) at 3.
  apply clen_overlap; [apply open_window; assumption |].
  exact (proj1 (Forall_forall _ _) O x I).
Qed.

Lemma total_len_nonneg a b xs e c : a < b -> Ordered xs -> 0 <= total_len a b xs e c.
Proof.
  intros AB O. apply Rsum_nonneg. apply Forall_map. apply Forall_forall. intros x I. apply filter_In in I.
  pose proof (proj1 (Forall_forall _ _) O x (proj1 I)) as L. cbn in L. apply (clen_range a b x AB L).
Qed.

Lemma dom_exclusion_spec windows xs : Open windows -> Ordered xs -> ValidWindows (length windows) xs ->
  ((forall e c, (e < length windows)%nat -> InDetector c ->
      TotalOverlap (window_of windows e) xs e c < 10001 / 10000 * livetime (window_of windows e)) ->
   exists f, dom_exclusion windows xs = Ok f /\
     forall e c, (e < length windows)%nat ->
       f e c = Rmin 1 (TotalOverlap (window_of windows e) xs e c / livetime (window_of windows e))) /\
  ((exists e c, (e < length windows)%nat /\ InDetector c /\
      10001 / 10000 * livetime (window_of windows e) <= TotalOverlap (window_of windows e) xs e c) ->
   dom_exclusion windows xs = Err AssertionError).
Proof.
  intros OP O V. unfold dom_exclusion. rewrite (fractions_ok windows xs OP O V). cbn [bind].
  replace (forallb _ xs) with true; cbn [negb].
  2:{ symmetry. apply forallb_forall. intros x I. apply in_range_true.
      exact (proj1 (Forall_forall _ _) V x I). }
  set (sc := scatter _).
  assert (SC : forall e c, (e < length windows)%nat ->
    sc e c = TotalOverlap (window_of windows e) xs e c / livetime (window_of windows e) /\
    0 <= sc e c /\ 0 < livetime (window_of windows e)).
  { intros e c E. pose proof (open_window windows e OP E) as W.
    assert (LP : 0 < livetime (window_of windows e)) by (unfold livetime; lra).
    assert (EQ : sc e c = TotalOverlap (window_of windows e) xs e c / livetime (window_of windows e)).
    { unfold sc. rewrite scatter_len by exact E. rewrite total_overlap by assumption. reflexivity. }
    split; [exact EQ |]. split; [| exact LP]. unfold sc. rewrite scatter_len by exact E.
    apply Rmult_le_pos; [apply total_len_nonneg; assumption | left; apply Rinv_0_lt_compat; exact LP]. }
  clearbody sc. split.
  - intros H.
    replace (forallb _ (seq 0 (length windows))) with true.
    2:{ symmetry. apply forallb_forall. intros e E. apply in_seq in E. apply forallb_forall. intros c C.
        apply cells_in in C. destruct (SC e c ltac:(lia)) as (EQ & NN & LP). apply checked_true.
        split; [lra |]. rewrite EQ. specialize (H e c ltac:(lia) C).
        apply (Rmult_lt_reg_r (livetime (window_of windows e))); [exact LP |].
        unfold Rdiv at 1. rewrite Rmult_assoc, Rinv_l by lra. lra. }
    eexists. split; [reflexivity |]. intros e c E. cbn beta.
    destruct (SC e c E) as (EQ & NN & LP). rewrite <- EQ. unfold clip. rewrite (Rmin_comm 1).
    apply Rmax_left. apply Rmin_glb; lra.
  - intros (e & c & E & C & H).
    replace (forallb _ (seq 0 (length windows))) with false; [reflexivity |].
    symmetry. apply not_true_is_false. intros T. rewrite forallb_forall in T.
    specialize (T e ltac:(apply in_seq; lia)). cbv beta in T. rewrite forallb_forall in T.
    specialize (T c (proj2 (cells_in c) C)). cbv beta in T. apply checked_true in T.
    destruct (SC e c E) as (EQ & NN & LP). rewrite EQ in T. destruct T as (_ & T).
    apply (Rmult_lt_compat_r (livetime (window_of windows e))) in T; [| exact LP].
    unfold Rdiv at 1 in T. rewrite Rmult_assoc, Rinv_l in T by lra. lra.
Qed.

Lemma gather_ok {A} n (f : nat -> cell -> A) ids : ValidIds n ids ->
  gather_pulses n f ids = Ok (map (fun i => f (fst i) (snd i)) ids).
Proof.
  intros V. induction V as [| (e, c) ids X V IH]; [reflexivity |]. cbn [gather_pulses map fst snd].
  rewrite (proj2 (in_range_true n e c)) by exact X. rewrite IH. reflexivity.
Qed.

Lemma gather_err {A} n (f : nat -> cell -> A) ids : ~ ValidIds n ids -> gather_pulses n f ids = Err IndexError.
Proof.
  intros V. induction ids as [| (e, c) ids IH]; [exfalso; apply V; constructor |]. cbn [gather_pulses].
  destruct (in_range n e c) eqn:E; [| reflexivity]. rewrite IH; [reflexivity |].
  intros W. apply V. constructor; [apply in_range_true; exact E | exact W].
Qed.

(** ** Learned scaling *)

Lemma elu_lower x : -1 < elu x.
Proof.
  unfold elu. destruct (Rltb x 0) eqn:C; [pose proof (exp_pos x); lra |]. apply Rltb_false in C. lra.
Qed.
Lemma elu_nonneg x : 0 <= x -> elu x = x.
Proof. intros H. unfold elu. rewrite (proj2 (Rltb_false x 0)) by lra. reflexivity. Qed.
Lemma elu_neg x : x < 0 -> elu x = exp x - 1.
Proof. intros H. unfold elu. rewrite (proj2 (Rltb_true x 0)) by lra. reflexivity. Qed.
Lemma elu_mono x y : x < y -> elu x < elu y.
Proof.
  intros H. destruct (Rlt_dec x 0) as [X | X], (Rlt_dec y 0) as [Y | Y];
    rewrite ?(elu_neg x), ?(elu_neg y), ?(elu_nonneg x), ?(elu_nonneg y) by lra.
  - pose proof (exp_increasing x y H). lra.
  - pose proof (exp_increasing x 0 X) as E. rewrite exp_0 in E. lra.
  - lra.
  - exact H.
Qed.
(** Every value above -1 is reached *)
Lemma elu_onto y : -1 < y -> exists x, elu x = y.
Proof.
  intros H. destruct (Rlt_dec y 0) as [Y | Y].
  - exists (ln (y + 1)). rewrite elu_neg; [rewrite exp_ln by lra; ring |].
    rewrite <- ln_1. apply ln_increasing; lra.
  - exists y. apply elu_nonneg. lra.
Qed.
