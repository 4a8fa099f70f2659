(** Properties of the goodness-of-fit module: p-values (C52), data batches of
    simulated events (C53), simulated pulses (C91), choice of components and
    times (C92), held parameters (C93), charge models (C94) and what is compared
    (C99). *)
From Coq Require Import ZArith Reals Psatz Lia Sorting.Permutation Sorting.Sorted.
From Verif Require Import Py PyFacts RList M_Trafo M_Reco L_Reco M_Basis S_Basis T_Basis M_Gof S_Gof S_GofRun L_Gof.
Open Scope R_scope.

(** ** C52 *)

Theorem C52_p_values samples v : samples <> [] ->
  let n := Rlen samples in
  let lower := INR (below samples v) in
  let upper := INR (not_below samples v) in
  compute_p_value samples v = Ok (upper / n, 2 * Rmin lower upper / n) /\
  0 <= upper / n <= 1 /\ 0 <= 2 * Rmin lower upper / n <= 1.
Proof.
  intros N n lower upper. pose proof (Rlen_pos samples N) as NP. fold n in NP.
  assert (SP : lower + upper = n).
  { unfold lower, upper, n, Rlen. rewrite <- plus_INR, below_split. reflexivity. }
  assert (L0 : 0 <= lower) by apply pos_INR. assert (U0 : 0 <= upper) by apply pos_INR.
  assert (IP : 0 < / n) by (apply Rinv_0_lt_compat; exact NP).
  assert (FR : forall x, 0 <= x <= n -> 0 <= x / n <= 1).
  { intros x (X0 & X1). split; [apply Rmult_le_pos; lra |].
    apply (Rmult_le_reg_r n); [exact NP |]. unfold Rdiv. rewrite Rmult_assoc, Rinv_l by lra. lra. }
  split.
  - rewrite compute_below by exact N. fold n. fold lower. f_equal. f_equal.
    + f_equal. lra.
    + replace (n / 2 - Rabs (n / 2 - lower)) with (Rmin lower upper).
      * field. lra.
      * unfold Rmin, Rabs. destruct (Rle_dec lower upper), (Rcase_abs (n / 2 - lower)); lra.
  - split; apply FR; [lra |]. unfold Rmin. destruct (Rle_dec lower upper); lra.
Qed.

Theorem C52_order samples samples' v : Permutation samples samples' ->
  compute_p_value samples v = compute_p_value samples' v.
Proof.
  intros P. destruct samples as [| x l].
  - apply Permutation_nil in P. subst. reflexivity.
  - assert (N' : samples' <> []).
    { intros ->. apply Permutation_sym, Permutation_nil in P. discriminate. }
    rewrite !compute_below by (assumption || discriminate).
    rewrite (below_perm _ _ v P). unfold Rlen. rewrite (Permutation_length P). reflexivity.
Qed.

(** The one-sided value decreases with the value of the data. *)
Theorem C52_monotone samples v w p1 p2 q1 q2 : v <= w ->
  compute_p_value samples v = Ok (p1, p2) -> compute_p_value samples w = Ok (q1, q2) -> q1 <= p1.
Proof.
  intros L. destruct samples as [| x l].
  - cbv [compute_p_value Rlen length INR]. rewrite (proj2 (Reqb_true 0 0)) by reflexivity. discriminate.
  - set (s := x :: l). assert (N : s <> []) by discriminate. pose proof (Rlen_pos s N) as NP.
    rewrite !compute_below by exact N. intros [= <- _] [= <- _].
    apply Rmult_le_compat_r; [left; apply Rinv_0_lt_compat; exact NP |].
    assert ((below s v <= below s w)%nat).
    { clear -L. clearbody s. unfold below. induction s as [| y s IH]; simpl; [lia |].
      destruct (Rltb y v) eqn:A, (Rltb y w) eqn:B; simpl; try lia.
      apply Rltb_true in A. apply Rltb_false in B. exfalso. lra. }
    apply le_INR in H. lra.
Qed.

(** A value which no sample is below of has the one-sided value 1 and the
    two-sided value 0, also if all samples are equal to it. *)
Theorem C52_ties samples v : samples <> [] -> (forall x, In x samples -> v <= x) ->
  compute_p_value samples v = Ok (1, 0).
Proof.
  intros N F. destruct (C52_p_values samples v N) as (E & _). rewrite E.
  assert (B : below samples v = 0%nat).
  { unfold below. rewrite filter_none; [reflexivity |]. intros x X. apply Rltb_false. auto. }
  pose proof (below_split samples v) as SP. rewrite B in *. simpl in SP.
  pose proof (Rlen_pos samples N) as NP. unfold Rlen in *. rewrite SP in *. simpl (INR 0).
  f_equal. f_equal.
  - field. lra.
  - rewrite Rmin_left by lra. unfold Rdiv. ring.
Qed.

(** So two-sided it is not a p-value: data which is like every sample gets
    zero. *)
Theorem C52_two_sided_refuted n v : (0 < n)%nat -> compute_p_value (repeat v n) v = Ok (1, 0).
Proof.
  intros N. apply C52_ties; [destruct n; [lia | discriminate] |].
  intros x X. apply repeat_spec in X. lra.
Qed.

Theorem C52_no_samples v : compute_p_value [] v = Err ZeroDivisionError.
Proof.
  unfold compute_p_value, Rlen. simpl. rewrite (proj2 (Reqb_true 0 0)) by reflexivity. reflexivity.
Qed.

(** ** C91 *)

Section Pulses.
  Variables (dc : nat -> nat -> nat -> list R) (du : nat -> nat -> nat -> list (R * R)).
  Variables (erfinv : R -> R) (argsort : list R -> list nat).
  Hypothesis IA : IsArgsort argsort.
  Hypothesis UC : UniformCharges dc.
  Hypothesis UP : UniformPairs du.

  (** The pulses of every DOM: as many as drawn, with positive charges that add
      up to their number, ordered in time.  Other identifiers do not occur. *)
  Theorem C91_pulses num_pe l t0 q rows ids :
    sample_event_pulses dc du erfinv argsort num_pe l t0 q = Ok (rows, ids) ->
    length rows = length ids /\
    (forall i, In i ids -> exists s o, (s < 86)%nat /\ (o < 60)%nat /\
       i = (0%Z, Z.of_nat s, Z.of_nat o)) /\
    forall s o, (s < 86)%nat -> (o < 60)%nat ->
      let p := pulses_of s o ids rows in
      length p = num_pe s o /\ Rsum (charges p) = INR (num_pe s o) /\
      Forall (fun c => 0 < c) (charges p) /\ StronglySorted Rle (times p).
  Proof.
    unfold sample_event_pulses.
    destruct (all_pulses _ _ _ _ _ _ _ _ _) as [(rows' & ids') |] eqn:AP; [| discriminate].
    cbn [bind]. destruct (forallb _ doms); [discriminate |]. intros [= -> ->].
    destruct (all_pulses_spec _ _ _ _ _ _ _ _ IA UC UP _ _ _ doms_nodup AP) as (A & B & C).
    split; [exact A |]. split.
    - intros i I. destruct (B i I) as (s & o & D & E & _). apply doms_in in D.
      exists s, o. destruct D. auto.
    - intros s o S O. set (p := pulses_of s o ids rows).
      destruct (C s o (proj2 (doms_in s o) (conj S O))) as (ids'' & D).
      destruct (dom_pulses_spec _ _ _ _ _ _ _ _ _ _ _ _ _ _ _ IA UC UP D) as (X1 & _ & X2 & X3 & X4 & _).
      fold p in X1, X2, X3, X4. auto.
  Qed.

  (** The charge quantile of a pulse is the fraction of the charge of its DOM up
      to and including it, so that of the last pulse is one. *)
  Theorem C91_quantiles num_pe l t0 rows ids s o k w :
    sample_event_pulses dc du erfinv argsort num_pe l t0 true = Ok (rows, ids) ->
    (s < 86)%nat -> (o < 60)%nat ->
    let p := pulses_of s o ids rows in
    nth_error p k = Some w ->
    M_Pulse.r_third w = Some (Rsum (firstn (S k) (charges p)) / Rsum (charges p)) /\
    (S k = length p -> M_Pulse.r_third w = Some 1).
  Proof.
    unfold sample_event_pulses.
    destruct (all_pulses _ _ _ _ _ _ _ _ _) as [(rows' & ids') |] eqn:AP; [| discriminate].
    cbn [bind]. destruct (forallb _ doms); [discriminate |]. intros [= -> ->] S O. set (p := pulses_of s o ids rows). intros W.
    destruct (all_pulses_spec _ _ _ _ _ _ _ _ IA UC UP _ _ _ doms_nodup AP) as (_ & _ & C).
    destruct (C s o (proj2 (doms_in s o) (conj S O))) as (ids'' & D).
    destruct (dom_pulses_spec _ _ _ _ _ _ _ _ _ _ _ _ _ _ _ IA UC UP D) as (X1 & _ & X2 & X3 & _ & X5).
    fold p in X1, X2, X3, X5.
    assert (KL : (k < length p)%nat) by (apply nth_error_Some; rewrite W; discriminate).
    assert (LC : length (charges p) = length p) by apply map_length.
    assert (TH : nth_error (thirds p) k = Some (M_Pulse.r_third w))
      by (unfold thirds; apply map_nth_error; exact W).
    rewrite X5 in TH. rewrite nth_error_map in TH.
    rewrite (nth_error_nth' _ 0) in TH
      by (unfold cumsum; rewrite cumsum_from_length; lia).
    cbn [option_map] in TH. rewrite cumsum_nth in TH by lia. 
    assert (TE : M_Pulse.r_third w =
              Some (Rsum (firstn (Datatypes.S k) (charges p)) / INR (num_pe s o))) by congruence.
    rewrite TE, X2.
    split; [reflexivity |]. intros E. rewrite firstn_all2 by lia. rewrite X2. f_equal. apply Rinv_r.
    apply not_0_INR. lia.
  Qed.

  (** An event without pulses cannot be simulated. *)
  Theorem C91_empty num_pe l t0 q :
    (forall s o, (s < 86)%nat -> (o < 60)%nat -> num_pe s o = 0%nat) ->
    sample_event_pulses dc du erfinv argsort num_pe l t0 q = Err ValueError.
  Proof.
    intros Z. unfold sample_event_pulses.
    assert (ZD : forall d, In d doms -> num_pe (fst d) (snd d) = 0%nat).
    { intros (s & o) D. apply doms_in in D. apply Z; apply D. }
    assert (AP : forall ds, incl ds doms -> all_pulses dc du erfinv argsort ds num_pe l t0 q = Ok ([], [])).
    { induction ds as [| (s & o) ds IH]; intros I; [reflexivity |]. cbn [all_pulses].
      assert (E : num_pe s o = 0%nat) by (apply (ZD (s, o)), I; left; reflexivity).
      unfold dom_pulses. rewrite E. cbn [Nat.eqb bind].
      rewrite IH by (intros x X; apply I; right; exact X). reflexivity. }
    rewrite AP by apply incl_refl. cbn [bind].
    replace (forallb _ doms) with true; [reflexivity |]. symmetry. apply forallb_forall.
    intros d D. rewrite ZD by exact D. reflexivity.
  Qed.
End Pulses.

(** ** C92 *)

(** For scales that are not negative and add up to at most one, the component is
    in range and is number [k] iff the random number is in the interval between
    the sums of the first [k] and the first [k + 1] scales; the last component
    takes what is left.  So component [k] has probability [scale k]. *)
Theorem C92_component scales u : scales <> [] -> Forall (fun x => 0 <= x) scales ->
  Rsum scales <= 1 -> 0 <= u < 1 ->
  let c := searchsorted (cum_scale scales) u in
  (c < length scales)%nat /\
  forall k, (k < length scales)%nat ->
    (c = k <-> (k = 0%nat \/ Rsum (firstn k scales) < u) /\
               (S k = length scales \/ u <= Rsum (firstn (S k) scales))).
Proof.
  intros N F T U c. pose proof (cum_scale_sorted scales F T) as SO.
  destruct (searchsorted_spec _ u SO) as (K & A & B). fold c in K, A, B. rewrite cum_scale_length in K, B.
  assert (NP : (0 < length scales)%nat) by (destruct scales; [contradiction | simpl; lia]).
  assert (C : (c < length scales)%nat).
  { destruct (Nat.eq_dec c (length scales)) as [E |]; [| lia].
    specialize (A (length scales - 1)%nat ltac:(lia)). rewrite cum_scale_nth in A by lia.
    replace (Nat.eqb (S (length scales - 1)) (length scales)) with true in A
      by (symmetry; apply Nat.eqb_eq; lia). lra. }
  assert (NL : forall k, (S k < length scales)%nat ->
     nth k (cum_scale scales) 0 = Rsum (firstn (S k) scales)).
  { intros k L. rewrite cum_scale_nth by lia.
    replace (Nat.eqb (S k) (length scales)) with false by (symmetry; apply Nat.eqb_neq; lia). reflexivity. }
  split; [exact C |]. intros k L. split.
  - intros <-. split.
    + destruct c as [| c']; [left; reflexivity | right]. rewrite <- NL by lia. apply A. lia.
    + destruct (Nat.eq_dec (S c) (length scales)) as [E | E]; [left; exact E | right].
      rewrite <- NL by lia. apply B. lia.
  - intros (H1 & H2). destruct (Nat.lt_trichotomy c k) as [O | [O | O]]; [| exact O |].
    + exfalso. destruct H1 as [H1 | H1]; [lia |].
      assert (Q : u <= Rsum (firstn (S c) scales)) by (rewrite <- NL by lia; apply B; lia).
      pose proof (firstn_sum_mono scales (S c) k F ltac:(lia)). lra.
    + exfalso. destruct H2 as [H2 | H2]; [lia |].
      assert (Q : Rsum (firstn (S k) scales) < u) by (rewrite <- NL by lia; apply A; lia). lra.
Qed.

(** The time of a pulse of that component follows its distribution function,
    scaled to microseconds after the time of the source. *)
Theorem C92_time erf erfinv scales mu sigma r t0 u m s a T :
  IsErf erf -> IsErfInv erf erfinv -> 0 < snd u < 1 ->
  let c := searchsorted (cum_scale scales) (fst u) in
  nth_error mu c = Some m -> nth_error sigma c = Some s -> nth_error r c = Some a ->
  0 < s -> 0 < a ->
  exists t, pulse_time erfinv (cum_scale scales) mu sigma r t0 u = Ok t /\
    (t <= T <-> snd u <= asymmetric_gauss_cdf erf ((T - t0) / 1000) m s a).
Proof.
  intros HE HI U c EM ES EA SP AP. unfold pulse_time. fold c. rewrite EM, ES, EA.
  eexists. split; [reflexivity |].
  pose proof (C59_quantile erf HE erfinv HI (snd u) m s a SP AP U) as Q.
  set (x := asymmetric_gauss_ppf erfinv (snd u) m s a) in *.
  assert (E : x * 1000 + t0 <= T <-> x <= (T - t0) / 1000) by lra.
  rewrite E. clear E. set (y := (T - t0) / 1000). rewrite <- Q at 1. split; intros L.
  - destruct (Req_dec x y) as [-> | NE]; [lra |]. left.
    apply (C59_increasing erf HE); try assumption. lra.
  - apply Rnot_lt_le. intros C.
    pose proof (C59_increasing erf HE y x m s a SP AP C). lra.
Qed.

(** ** C53 *)

Section Batch.
  Variables (dc : nat -> nat -> nat -> list R) (du : nat -> nat -> nat -> list (R * R)).
  Variables (erfinv : R -> R) (argsort : list R -> list nat).
  Hypothesis IA : IsArgsort argsort.
  Hypothesis UC : UniformCharges dc.
  Hypothesis UP : UniformPairs du.

  (** Only the pulses and their identifiers change; the charges of the DOMs are
      those of the observed event.  So the batch is consistent iff they are the
      simulated ones. *)
  Theorem C53_consistent st batch q num_pe l t0 rows ids :
    Indices st batch -> nth_error batch (g_charge st) = Some (VCharge q) ->
    sample_event_pulses dc du erfinv argsort num_pe l t0 (g_quantiles st) = Ok (rows, ids) ->
    exists batch', simulated_batch st batch rows ids = Ok batch' /\
      (forall k, k <> g_pulses st -> k <> g_ids st -> nth_error batch' k = nth_error batch k) /\
      (Consistent st batch' <->
       forall s o, (s < 86)%nat -> (o < 60)%nat -> q s o = INR (num_pe s o)).
  Proof.
    intros (I1 & I2 & I3 & D1 & D2 & D3) Q SE. unfold simulated_batch.
    destruct (set_item_total (g_pulses st) (VPulses rows) batch I1) as (b1 & E1).
    destruct (set_item_ok _ _ _ _ E1) as (_ & L1 & N1).
    destruct (set_item_total (g_ids st) (VIds ids) b1) as (b2 & E2); [rewrite L1; exact I2 |].
    destruct (set_item_ok _ _ _ _ E2) as (_ & L2 & N2).
    rewrite E1. cbn [bind]. rewrite E2. exists b2. split; [reflexivity |].
    assert (OT : forall k, k <> g_pulses st -> k <> g_ids st -> nth_error b2 k = nth_error batch k).
    { intros k K1 K2. rewrite N2, (proj2 (Nat.eqb_neq k _) K2), N1, (proj2 (Nat.eqb_neq k _) K1). reflexivity. }
    split; [exact OT |].
    assert (NP : nth_error b2 (g_pulses st) = Some (VPulses rows)).
    { rewrite N2, (proj2 (Nat.eqb_neq _ _) D1), N1, Nat.eqb_refl. reflexivity. }
    assert (NI : nth_error b2 (g_ids st) = Some (VIds ids)) by (rewrite N2, Nat.eqb_refl; reflexivity).
    assert (NC : nth_error b2 (g_charge st) = Some (VCharge q)) by (rewrite OT by congruence; exact Q).
    destruct (C91_pulses dc du erfinv argsort IA UC UP _ _ _ _ _ _ SE) as (_ & _ & P).
    unfold Consistent. split.
    - intros (rows' & ids' & q' & A & B & C & D) s o S O.
      assert (rows' = rows) by congruence. assert (ids' = ids) by congruence.
      assert (q' = q) by congruence. subst. rewrite <- D by assumption. apply P; assumption.
    - intros H. exists rows, ids, q. repeat (split; [assumption |]). intros s o S O.
      rewrite H by assumption. apply P; assumption.
  Qed.
End Batch.

Section Module.
  Variable tr : option trafo.
  Variable pname : string.
  Variable st : gsettings.
  Variable multivariate : list R -> mat -> nat -> list (list R).
  Variable tensors : list (list R) -> result (list latent).
  Variable draw_count : nat -> nat -> nat -> R -> R -> nat.
  Variable draw_charges : nat -> nat -> nat -> nat -> list R.
  Variable draw_uniform : nat -> nat -> nat -> nat -> list (R * R).
  Variable erfinv : R -> R.
  Variable argsort : list R -> list nat.
  Variable minimise : list value -> array -> list R -> result (list R).
  Variable loss : array -> list value -> array -> result loss_value.

  Let run := execute tr pname st multivariate tensors draw_count draw_charges draw_uniform
               erfinv argsort minimise loss.
  Let step := sample_step tr pname st draw_count draw_charges draw_uniform erfinv argsort
                minimise loss.

  Lemma sample_loop_all batch (Q : list R -> (nat -> nat -> nat) * R * (nat -> nat -> R) -> Prop) :
    (forall e hyp l x, step batch e hyp l = Ok x -> Q hyp x) ->
    forall hyps e ls xs,
    sample_loop tr pname st draw_count draw_charges draw_uniform erfinv argsort minimise loss
      batch e hyps ls = Ok xs -> Forall2 Q hyps xs.
  Proof.
    intros H. induction hyps as [| hyp hyps IH]; intros e ls xs; cbn [sample_loop].
    - destruct ls; intros [= <-]; constructor.
    - destruct ls as [| l ls]; [discriminate |].
      destruct (sample_step _ _ _ _ _ _ _ _ _ _ batch e hyp l) as [x |] eqn:S1; [| discriminate].
      cbn [bind]. destruct (sample_loop _ _ _ _ _ _ _ _ _ _ _ _ hyps ls) as [xs' |] eqn:S2; [| discriminate].
      cbn [bind]. intros [= <-]. constructor; [apply (H e hyp l); exact S1 | apply (IH _ _ _ S2)].
  Qed.

  (** The terms of the loss that depend on the charges of the DOMs do not see
      the simulation: with only such terms, without a covariance matrix,
      reconstruction of the samples and normalisation, every sample has the loss
      of the data and the p-values are 1 and 0 whatever is drawn. *)
  Theorem C53_charge_terms batch best result_trafo out :
    Indices st batch ->
    (forall p b b' s, nth_error b (g_charge st) = nth_error b' (g_charge st) ->
       loss p b s = loss p b' s) ->
    g_reconstruct st = false -> g_normalise st = false -> (0 < g_samples st)%nat ->
    (if g_trafo st then transform tr (table (length best) [best]) pname true
     else Ok (table (length best) [best])) = Ok result_trafo ->
    run batch result_trafo (table (length best) [best]) None = Ok out ->
    (forall y, In y (o_sample_loss out) -> y = o_data_loss out) /\ o_p1 out = 1 /\ o_p2 out = 0.
  Proof.
    intros (I1 & I2 & I3 & D1 & D2 & D3) HL RE NO NS RT. unfold run, execute.
    cbn [ar_rows table hypotheses].
    destruct (tensors _) as [ls |]; [| discriminate]. cbn [bind].
    destruct (sample_loop _ _ _ _ _ _ _ _ _ _ _ _ _ _) as [xs |] eqn:SL; [| discriminate]. cbn [bind].
    assert (RV : rev (repeat best (g_samples st)) = repeat best (g_samples st)).
    { clear. induction (g_samples st) as [| n IH]; [reflexivity |]. simpl. rewrite IH.
      symmetry. apply repeat_cons. }
    rewrite RV. destruct (g_samples st) as [| n] eqn:GN; [lia |]. cbn [repeat].
    set (seed := table (length best) [best]) in *.
    destruct (loss_function st loss result_trafo batch seed) as [v |] eqn:LF; [| discriminate].
    cbn [bind]. destruct (event_loss st v) as [(x & dom) |] eqn:EL; [| discriminate]. cbn [bind].
    destruct (nth_error batch (g_charge st)) as [[| | q |] |] eqn:NC; try discriminate.
    rewrite NO.
    assert (AL : Forall2 (fun hyp y => hyp = best -> snd (fst y) = x)
                   (repeat best (S n)) xs).
    { apply (sample_loop_all batch _) with (2 := SL). intros e hyp l y S E. subst hyp.
      unfold step, sample_step in S. destruct (sample_num_pe _ _ _) as [counts |]; [| discriminate].
      cbn [bind] in S. destruct (nth_error best (g_time st)) as [t0 |]; [| discriminate].
      destruct (sample_event_pulses _ _ _ _ _ _ _ _) as [(rows & ids) |]; [| discriminate].
      cbn [bind] in S. destruct (simulated_batch st batch rows ids) as [batch' |] eqn:SB; [| discriminate].
      cbn [bind] in S. rewrite RE in S. fold seed in S. rewrite RT in S. cbn [bind] in S.
      destruct (ar_rows result_trafo) as [| row [| ? ?]]; try discriminate.
      destruct (_ || _)%bool; [| discriminate].
      assert (LF' : loss_function st loss result_trafo batch' seed = Ok v).
      { unfold loss_function in *. destruct (_ && _)%bool; [| discriminate]. rewrite <- LF. apply HL.
        unfold simulated_batch in SB.
        destruct (set_item (g_pulses st) (VPulses rows) batch) as [b1 |] eqn:E1; [| discriminate].
        cbn [bind] in SB. apply set_item_ok in E1 as (_ & _ & N1). apply set_item_ok in SB as (_ & _ & N2).
        rewrite N2, N1.
        rewrite (proj2 (Nat.eqb_neq (g_charge st) (g_ids st))) by congruence.
        rewrite (proj2 (Nat.eqb_neq (g_charge st) (g_pulses st))) by congruence. reflexivity. }
      rewrite LF' in S. cbn [bind] in S. rewrite EL in S. cbn [bind] in S. injection S as <-. reflexivity. }
    set (sample := map _ xs).
    assert (EQ : forall y, In y sample -> y = x).
    { intros y Y. unfold sample in Y. apply in_map_iff in Y as (((counts & y') & d) & E & I).
      subst y. clear -AL I. remember (repeat best (S n)) as hyps eqn:EH.
      assert (ALL : forall h, In h hyps -> h = best) by (subst; apply repeat_spec). clear EH.
      induction AL as [| h z hyps xs P AL IH]; [contradiction |]. destruct I as [-> | I].
      - apply (P (ALL h (or_introl eq_refl))).
      - apply IH; [exact I |]. intros h' H'. apply ALL. right. exact H'. }
    assert (NE : sample <> []).
    { unfold sample. inversion AL. discriminate. }
    rewrite (C52_ties sample x NE) by (intros y Y; rewrite (EQ y Y); lra). cbn [bind].
    intros [= <-]. cbn. auto.
  Qed.

  (** ** C99 *)

  Lemma dom_sum_eq f : Rsum (map (fun d => f (fst d) (snd d)) doms) = dom_sum f.
  Proof.
    unfold doms, dom_sum. generalize (seq 0 86) (seq 0 60). intros a b. induction a as [| s a IH]; [reflexivity |].
    cbn [list_prod map]. rewrite map_app, Rsum_app, IH, map_map. reflexivity.
  Qed.

  (** A sample: [counts] are drawn from the charges that the model expects for
      the hypothesis, the pulses are those of these counts with the times of
      the same hypothesis, and [y] is the loss of the observed batch with these
      pulses. *)
  Definition Sampled (batch : list value) (e : nat) (hyp : list R) (l : latent)
    (counts : nat -> nat -> nat) (y : R) (dom : nat -> nat -> R) : Prop :=
    let seed := table (length hyp) [hyp] in
    (forall s o, (s < 86)%nat -> (o < 60)%nat -> exists r p,
       sample_parameters (l_charge l s o) (l_var l s o) false = Ok (r, p) /\
       counts s o = draw_count e s o r p) /\
    exists t0 rows ids batch' res v,
      nth_error hyp (g_time st) = Some t0 /\
      sample_event_pulses (draw_charges e) (draw_uniform e) erfinv argsort counts l t0
        (g_quantiles st) = Ok (rows, ids) /\
      WithPulses st batch rows ids batch' /\
      (g_reconstruct st = false ->
       (if g_trafo st then transform tr seed pname true else Ok seed) = Ok res) /\
      (g_reconstruct st = true -> exists start x,
         (if g_trafo st then transform tr seed pname true else Ok seed) = Ok start /\
         minimise batch' seed (concat (ar_rows start)) = Ok x /\
         reshape (length (g_fit st)) x = Ok res) /\
      loss res batch' seed = Ok v /\ LossOf st v y dom.

  Lemma all_fitted_count fit : all_fitted fit = true -> num_fitted fit = length fit.
  Proof.
    unfold all_fitted, num_fitted. induction fit as [| [] fit IH]; cbn; intros H; [reflexivity | | discriminate].
    rewrite IH by exact H. reflexivity.
  Qed.

  Lemma pair_inj {A B} (a a' : A) (b b' : B) : Ok (a, b) = Ok (a', b') -> a = a' /\ b = b'.
  Proof. intros [= -> ->]. split; reflexivity. Qed.
  Lemma ok_inj {A} (a a' : A) : Ok a = Ok a' -> a = a'.
  Proof. intros [= ->]. reflexivity. Qed.

  Lemma event_loss_ok v x dom : event_loss st v = Ok (x, dom) -> LossOf st v x dom.
  Proof.
    unfold event_loss, LossOf. destruct v as [sc ev d | z], (g_per_dom st).
    - rewrite (dom_sum_eq d). intros H. apply pair_inj in H as (<- & <-). left. split; [reflexivity |].
      exists sc, ev. split; [reflexivity |]. generalize (dom_sum d). intros. ring.
    - discriminate.
    - discriminate.
    - intros H. apply pair_inj in H as (<- & _). right. split; reflexivity.
  Qed.

  Lemma step_sampled batch e hyp l counts y dom :
    step batch e hyp l = Ok (counts, y, dom) -> Sampled batch e hyp l counts y dom.
  Proof.
    unfold step, sample_step. destruct (sample_num_pe draw_count e l) as [cn |] eqn:SN; [| discriminate].
    cbn [bind]. destruct (nth_error hyp (g_time st)) as [t0 |] eqn:T0; [| discriminate].
    destruct (sample_event_pulses _ _ _ _ _ _ _ _) as [(rows & ids) |] eqn:SE; [| discriminate].
    cbn [bind]. destruct (simulated_batch st batch rows ids) as [batch' |] eqn:SB; [| discriminate].
    cbn [bind].
    match goal with |- bind ?x _ = _ -> _ => destruct x as [res |] eqn:RE; [| discriminate] end.
    cbn [bind]. destruct (ar_rows res) as [| row [| ? ?]]; try discriminate.
    destruct (_ || _)%bool; [| discriminate].
    destruct (loss_function st loss res batch' _) as [v |] eqn:LF; [| discriminate]. cbn [bind].
    destruct (event_loss st v) as [(x & d) |] eqn:EL; [| discriminate]. cbn [bind].
    intros [= <- <- <-]. split.
    - unfold sample_num_pe in SN. destruct (forallb _ doms) eqn:FA; [| discriminate].
      injection SN as <-. intros s o S O. rewrite forallb_forall in FA.
      specialize (FA (s, o) (proj2 (doms_in s o) (conj S O))). cbn [fst snd] in FA.
      destruct (sample_parameters _ _ _) as [(r & p) |]; [| discriminate]. exists r, p. split; reflexivity.
    - exists t0, rows, ids, batch', res, v. split; [exact T0 |]. split; [exact SE |]. split.
      { unfold simulated_batch in SB. apply bind_ok in SB. destruct SB as (b1 & E1 & E2).
        apply set_item_ok in E1 as (_ & L1 & N1). apply set_item_ok in E2 as (_ & L2 & N2).
        split; [lia |]. split; [rewrite N2, Nat.eqb_refl; reflexivity |]. split.
        - intros D. rewrite N2, (proj2 (Nat.eqb_neq _ _) D), N1, Nat.eqb_refl. reflexivity.
        - intros k K1 K2. rewrite N2, (proj2 (Nat.eqb_neq _ _) K2), N1, (proj2 (Nat.eqb_neq _ _) K1). reflexivity. }
      assert (LF' : loss res batch' (table (length hyp) [hyp]) = Ok v).
      { unfold loss_function in LF. destruct (_ && _)%bool; [exact LF | discriminate]. }
      split; [intros G; rewrite G in RE; exact RE |]. split.
      { intros G. rewrite G in RE. unfold reconstruction_method in RE.
        apply bind_ok in RE. destruct RE as (start & E1 & RE). apply bind_ok in RE.
        destruct RE as (x0 & F & RE). apply bind_ok in RE. destruct RE as (z & M & RS).
        unfold fitted_columns in F. destruct (all_fitted (g_fit st)) eqn:AF; [| discriminate].
        injection F as <-. exists start, z. rewrite (all_fitted_count _ AF) in RS. auto. }
      split; [exact LF' | apply event_loss_ok; exact EL].
  Qed.

  Lemma loop_sampled batch : forall hyps e ls xs,
    sample_loop tr pname st draw_count draw_charges draw_uniform erfinv argsort minimise loss
      batch e hyps ls = Ok xs ->
    length xs = length hyps /\
    forall i hyp, nth_error hyps i = Some hyp -> exists l counts y dom,
      nth_error ls i = Some l /\ nth_error xs i = Some (counts, y, dom) /\
      Sampled batch (e + i) hyp l counts y dom.
  Proof.
    induction hyps as [| hyp hyps IH]; intros e ls xs; cbn [sample_loop].
    - destruct ls; intros [= <-]; (split; [reflexivity |]); intros [| i] h; discriminate.
    - destruct ls as [| l ls]; [discriminate |].
      destruct (sample_step _ _ _ _ _ _ _ _ _ _ batch e hyp l) as [[[c y] d] |] eqn:S1; [| discriminate].
      cbn [bind]. destruct (sample_loop _ _ _ _ _ _ _ _ _ _ _ _ hyps ls) as [xs' |] eqn:S2; [| discriminate].
      cbn [bind]. intros [= <-]. destruct (IH _ _ _ S2) as (LN & H). split; [cbn; rewrite LN; reflexivity |].
      intros [| i] h; cbn [nth_error].
      + intros [= <-]. exists l, c, y, d. split; [reflexivity |]. split; [reflexivity |].
        rewrite Nat.add_0_r. apply step_sampled. exact S1.
      + intros N. destruct (H i h N) as (l' & c' & y' & d' & A & B & C).
        exists l', c', y', d'. split; [exact A |]. split; [exact B |].
        rewrite <- Nat.add_succ_comm. exact C.
  Qed.

  Lemma map_index_nth (f : nat -> R -> R) h i : (i < length h)%nat ->
    nth i (map (fun x => f (fst x) (snd x)) (combine (seq 0 (length h)) h)) 0 = f i (nth i h 0).
  Proof.
    intros L. rewrite (nth_indep _ 0 ((fun x => f (fst x) (snd x)) (0%nat, 0)))
      by (rewrite map_length, combine_length, seq_length; lia).
    rewrite (map_nth (fun x => f (fst x) (snd x))), combine_nth by apply seq_length.
    cbn [fst snd]. rewrite seq_nth by exact L. reflexivity.
  Qed.

  (** The hypotheses: copies of the best fit, or draws around it, for the
      chosen parameters in the logarithm of one plus their value. *)
  Theorem C99_hypotheses best cov :
    let hyps := hypotheses st multivariate best cov in
    match cov with
    | None => hyps = repeat best (g_samples st)
    | Some c => exists center draws, Logs (g_log st) best center /\
        draws = multivariate center c (g_samples st) /\ Forall2 (Exps (g_log st)) draws hyps
    end.
  Proof.
    cbv zeta. destruct cov as [c |]; [| reflexivity]. cbn [hypotheses].
    exists (to_log st best). eexists. split; [| split; [reflexivity |]].
    - split; [unfold to_log; rewrite map_length, combine_length, seq_length; apply Nat.min_id |].
      intros i L. unfold to_log.
      rewrite (map_index_nth (fun k x => if nth k (g_log st) false then ln (1 + x) else x)) by exact L.
      reflexivity.
    - induction (multivariate (to_log st best) c (g_samples st)) as [| h l IH]; cbn [map]; constructor; [| exact IH].
      split; [unfold from_log; rewrite map_length, combine_length, seq_length; apply Nat.min_id |].
      intros i L. unfold from_log.
      rewrite (map_index_nth (fun k x => if nth k (g_log st) false then exp x - 1 else x)) by exact L.
      reflexivity.
  Qed.

  (** What is compared: the losses of the samples, each of its own simulated
      event, and the loss of the observed event at the best fit, all divided by
      the total charge plus one if asked for. *)
  Theorem C99_compared batch result_trafo best cov out :
    run batch result_trafo (table (length best) [best]) cov = Ok out ->
    let hyps := hypotheses st multivariate best cov in
    exists ls samples q v x dom,
      tensors hyps = Ok ls /\ hyps <> [] /\ length samples = length hyps /\
      (forall i hyp, nth_error hyps i = Some hyp -> exists l counts y d,
         nth_error ls i = Some l /\ nth_error samples i = Some (counts, y, d) /\
         Sampled batch i hyp l counts y d) /\
      nth_error batch (g_charge st) = Some (VCharge q) /\
      loss result_trafo batch (table (length (last hyps [])) [last hyps []]) = Ok v /\
      LossOf st v x dom /\
      o_data_loss out = scaled st (dom_sum q) x /\
      o_sample_loss out = map (fun '(counts, y, _) =>
        scaled st (dom_sum (fun s o => INR (counts s o))) y) samples /\
      compute_p_value (o_sample_loss out) (o_data_loss out) = Ok (o_p1 out, o_p2 out) /\
      (g_per_dom st = false -> o_dom_p out = None) /\
      (g_per_dom st = true -> exists p, o_dom_p out = Some p /\ forall s o,
         p s o = compute_p_value
           (map (fun '(counts, _, d) => scaled st (dom_sum (fun s o => INR (counts s o))) (d s o)) samples)
           (scaled st (dom_sum q) (dom s o))).
  Proof.
    unfold run, execute. cbn [ar_rows table]. set (hyps := hypotheses st multivariate best cov).
    destruct (tensors hyps) as [ls |] eqn:TL; [| discriminate]. cbn [bind].
    destruct (sample_loop _ _ _ _ _ _ _ _ _ _ _ _ _ _) as [xs |] eqn:SL; [| discriminate]. cbn [bind].
    destruct (rev hyps) as [| lh rh] eqn:RV; [discriminate |].
    assert (HL : hyps = rev rh ++ [lh]).
    { rewrite <- (rev_involutive hyps), RV. reflexivity. }
    assert (LA : last hyps [] = lh) by (rewrite HL; apply last_last).
    destruct (loss_function st loss result_trafo batch _) as [v |] eqn:LF; [| discriminate].
    cbn [bind]. destruct (event_loss st v) as [(x & dom) |] eqn:EL; [| discriminate]. cbn [bind].
    destruct (nth_error batch (g_charge st)) as [[| | q |] |] eqn:NC; try discriminate.
    destruct (compute_p_value _ _) as [(p1 & p2) |] eqn:CP; [| discriminate]. cbn [bind].
    intros H. apply ok_inj in H as <-. cbn [o_data_loss o_sample_loss o_p1 o_p2 o_dom_p].
    destruct (loop_sampled _ _ _ _ _ SL) as (LX & SX).
    exists ls, xs, q, v, x, dom. split; [reflexivity |].
    split; [rewrite HL; destruct (rev rh); discriminate |]. split; [exact LX |].
    split; [exact SX |]. split; [reflexivity |]. rewrite LA. split.
    { unfold loss_function in LF. destruct (_ && _)%bool; [exact LF | discriminate]. }
    split; [apply event_loss_ok; exact EL |].
    unfold total_count in *. unfold scaled.
    assert (ES : forall f, map (fun '(counts, y, d) =>
        if g_normalise st
        then f y d / (Rsum (map (fun d => INR (counts (fst d) (snd d))) doms) + 1) else f y d) xs =
      map (fun '(counts, y, d) =>
        if g_normalise st then f y d / (dom_sum (fun s o => INR (counts s o)) + 1) else f y d) xs).
    { intros f. apply map_ext. intros ((cn, y), d). rewrite (dom_sum_eq (fun s o => INR (cn s o))). reflexivity. }
    rewrite (dom_sum_eq q) in *. split; [reflexivity |].
    split; [apply (ES (fun y _ => y)) |]. split; [exact CP |]. split.
    - intros ->. reflexivity.
    - intros ->. eexists. split; [reflexivity |]. intros s o. cbv beta.
      rewrite (ES (fun _ d => d s o)). reflexivity.
  Qed.

  (** Without samples the module raises. *)
  Theorem C99_no_samples batch result_trafo best ls :
    g_samples st = 0%nat -> tensors [] = Ok ls ->
    run batch result_trafo (table (length best) [best]) None = Err UnboundLocalError.
  Proof.
    intros Z T. unfold run, execute. cbn [ar_rows table hypotheses]. rewrite Z. cbn [repeat].
    rewrite T. cbn [bind]. destruct ls; reflexivity.
  Qed.

  (** ** C93 *)

  (** With a held parameter the module always raises. *)
  Lemma num_fitted_lt fit : all_fitted fit = false -> (num_fitted fit < length fit)%nat.
  Proof.
    unfold all_fitted, num_fitted. induction fit as [| b fit IH]; [discriminate |].
    assert (FL : (length (filter (fun b => b) fit) <= length fit)%nat).
    { clear. induction fit as [| [] fit IH]; simpl; lia. }
    destruct b; simpl; intros H; [specialize (IH H); lia | lia].
  Qed.

  Theorem C93_held batch result_trafo result_inv cov out :
    all_fitted (g_fit st) = false -> run batch result_trafo result_inv cov <> Ok out.
  Proof.
    intros H. unfold run, execute. destruct (ar_rows result_inv) as [| best [| ? ?]]; try discriminate.
    destruct (tensors _) as [ls |]; [| discriminate]. cbn [bind].
    set (hyps := hypotheses st multivariate best cov).
    destruct (sample_loop _ _ _ _ _ _ _ _ _ _ _ _ _ _) as [xs |] eqn:SL; [| discriminate]. cbn [bind].
    assert (AL : Forall2 (fun _ _ => False) hyps xs).
    { apply (sample_loop_all batch _) with (2 := SL). intros e hyp l y S.
      unfold step, sample_step in S. destruct (sample_num_pe _ _ _) as [counts |]; [| discriminate].
      cbn [bind] in S. destruct (nth_error hyp (g_time st)) as [t0 |]; [| discriminate].
      destruct (sample_event_pulses _ _ _ _ _ _ _ _) as [(rows & ids) |]; [| discriminate].
      cbn [bind] in S. destruct (simulated_batch st batch rows ids) as [batch' |] eqn:SB; [| discriminate].
      cbn [bind] in S. pose proof (num_fitted_lt _ H) as NF.
      destruct (g_reconstruct st).
      - unfold reconstruction_method in S.
        destruct (if g_trafo st then _ else _) as [s |]; [| discriminate]. cbn [bind] in S.
        unfold fitted_columns in S. rewrite H in S. discriminate.
      - destruct (if g_trafo st then _ else _) as [s |] eqn:TS; [| discriminate]. cbn [bind] in S.
        assert (SH : ar_shape s = [length hyp]).
        { destruct (g_trafo st); [| injection TS as <-; reflexivity].
          unfold transform in TS. destruct (check_settings _ _ _) as [(? & t) |]; [| discriminate].
          destruct (match ti_log t with Some _ => _ | None => _ end); [| discriminate].
          destruct (dget pname _); [| discriminate]. injection TS as <-. reflexivity. }
        destruct (ar_rows s) as [| row [| ? ?]]; try discriminate.
        destruct (_ || _)%bool; [| discriminate].
        unfold loss_function in S. rewrite SH in S. cbn [last table ar_shape] in S.
        destruct (Nat.eqb_spec (length hyp) (num_fitted (g_fit st))); [| discriminate].
        destruct (Nat.eqb_spec (length hyp) (length (g_fit st))); [lia | discriminate]. }
    inversion AL as [EH | ]; [| contradiction]. simpl. discriminate.
  Qed.

  (** ** C94 *)

  (** The generator of counts only draws values of positive probability. *)
  Definition CountSupport : Prop :=
    forall e s o r p, 0 < r -> 0 <= p <= 1 -> 0 < nb_pmf r (1 - p) (draw_count e s o r p).

  (** If the variance of the charges is the mean, as of the Poisson model, every
      sampled count is zero and no event can be simulated: the module always
      raises. *)
  Theorem C94_poisson batch result_trafo result_inv cov out :
    CountSupport ->
    (forall hyps ls, tensors hyps = Ok ls -> forall l, In l ls -> forall s o,
       (s < 86)%nat -> (o < 60)%nat -> l_var l s o = dummy_variance Poisson (l_charge l s o)) ->
    run batch result_trafo result_inv cov <> Ok out.
  Proof.
    intros CS PM. unfold run, execute. destruct (ar_rows result_inv) as [| best [| ? ?]]; try discriminate.
    destruct (tensors _) as [ls |] eqn:TL; [| discriminate]. cbn [bind].
    specialize (PM _ _ TL). set (hyps := hypotheses st multivariate best cov) in *.
    destruct hyps as [| hyp hyps].
    { clear. simpl. destruct ls; discriminate. }
    cbn [sample_loop]. destruct ls as [| l ls]; [discriminate |].
    specialize (PM l (or_introl eq_refl)). unfold sample_step.
    destruct (sample_num_pe draw_count 0 l) as [counts |] eqn:SN; [| discriminate]. cbn [bind].
    destruct (nth_error hyp (g_time st)) as [t0 |]; [| discriminate].
    rewrite C91_empty; [discriminate |].
    intros s o S O. unfold sample_num_pe in SN.
    destruct (forallb _ doms) eqn:FB; [| discriminate]. injection SN as <-.
    rewrite forallb_forall in FB. specialize (FB (s, o) (proj2 (doms_in s o) (conj S O))).
    cbn [fst snd] in FB. rewrite (PM s o S O) in *. cbn [dummy_variance charge_variance] in *.
    destruct (sample_parameters _ _ _) as [(r & p) |] eqn:SP; [| discriminate].
    unfold sample_parameters in SP. set (mu := l_charge l s o) in *.
    destruct (Reqb mu 0) eqn:M0; [discriminate |]. apply Reqb_false in M0.
    destruct (Reqb _ 0); [discriminate |]. destruct (Rleb _ 0) eqn:RP; [discriminate |].
    apply Rleb_false in RP. destruct (_ || _)%bool; [discriminate |].
    assert (P1 : 1 - (mu - mu) / mu = 1) by (field; exact M0). rewrite P1 in SP.
    injection SP as <- <-. set (r := mu ^ 2 / (mu - mu + 1 / 1000000)) in *.
    specialize (CS 0%nat s o r 1 RP ltac:(lra)). unfold nb_pmf in CS.
    destruct (draw_count 0 s o r 1) as [| k] eqn:K; [exact K |].
    replace (1 - 1) with 0 in CS by ring. rewrite pow_i in CS by lia. lra.
  Qed.
End Module.

(** With the asymmetric Gaussian charge model the dummy batch, in which every DOM
    has charge one, selects the branch for small charges: one eleventh of the
    expected charge is simulated. *)
Theorem C94_asymmetric_gauss a b mu r p : 0 < mu ->
  sample_parameters mu (dummy_variance (AsymmetricGauss a b) mu) false = Ok (r, p) ->
  Distribution (nb_pmf r (1 - p)) (mu / 11) ((mu + 1 / 10000000) / 11).
Proof.
  intros M. unfold dummy_variance, charge_variance.
  rewrite (proj2 (Rltb_false 5 1)) by lra. rewrite pow2_sqrt by lra.
  intros E. pose proof (C89_moments mu (mu + 1 / 10000000) false r p ltac:(lra) ltac:(lra) E) as (D & _).
  cbv zeta in D. unfold wanted in D.
  replace ((mu + 1 / 10000000 - mu) / (mu + 1 / 10000000 - mu + 1 / 1000000)) with (1 / 11) in D
    by (replace (mu + 1 / 10000000 - mu) with (1 / 10000000) by ring; field).
  replace (mu / 11) with (1 / 11 * mu) by field.
  replace ((mu + 1 / 10000000) / 11) with (1 / 11 * (mu + 1 / 10000000)) by field. exact D.
Qed.

(** The parameters are accepted for every positive expectation. *)
Theorem C94_asymmetric_gauss_accepted a b mu : 0 < mu ->
  exists rp, sample_parameters mu (dummy_variance (AsymmetricGauss a b) mu) false = Ok rp.
Proof.
  intros M. unfold dummy_variance, charge_variance.
  rewrite (proj2 (Rltb_false 5 1)) by lra. rewrite pow2_sqrt by lra.
  apply C89_accepted; [lra | lra |]. unfold wanted. lra.
Qed.

(** With the negative binomial charge model the counts have nearly the mean and
    the variance of the model, if the over-dispersion is not tiny. *)
Theorem C94_negative_binomial alpha mu r p : 0 < mu -> 0 < alpha ->
  sample_parameters mu (dummy_variance (NegBinomial alpha) mu) false = Ok (r, p) ->
  let factor := alpha * mu ^ 2 / (alpha * mu ^ 2 + 1 / 1000000) in
  Distribution (nb_pmf r (1 - p)) (factor * mu) (factor * (mu + alpha * mu ^ 2)).
Proof.
  intros M A E. unfold dummy_variance, charge_variance in E.
  assert (P : 0 < alpha * mu ^ 2) by (apply Rmult_lt_0_compat; [exact A | apply pow_lt; exact M]).
  pose proof (C89_moments mu (mu + alpha * mu ^ 2) false r p ltac:(lra) ltac:(lra) E) as (D & _).
  cbv zeta in *. unfold wanted in D.
  replace (mu + alpha * mu ^ 2 - mu) with (alpha * mu ^ 2) in D by ring. exact D.
Qed.

Theorem C94_negative_binomial_accepted alpha mu : 0 < mu -> 0 < alpha ->
  exists rp, sample_parameters mu (dummy_variance (NegBinomial alpha) mu) false = Ok rp.
Proof.
  intros M A. assert (P : 0 < alpha * mu ^ 2) by (apply Rmult_lt_0_compat; [exact A | apply pow_lt; exact M]).
  unfold dummy_variance, charge_variance. apply C89_accepted; [lra | lra |]. unfold wanted. lra.
Qed.

(** ** Examples *)

Example p_value_ex : compute_p_value [3; 1; 2; 4] 2 = Ok (3 / 4, 2 * 1 / 4).
Proof.
  destruct (C52_p_values [3; 1; 2; 4] 2 ltac:(discriminate)) as (E & _). rewrite E. clear E.
  unfold below, not_below. cbn [filter].
  rewrite (proj2 (Rltb_false 3 2)), (proj2 (Rltb_true 1 2)), (proj2 (Rltb_false 2 2)),
    (proj2 (Rltb_false 4 2)) by lra.
  unfold Rlen. cbn [negb length INR]. f_equal. f_equal.
  - field.
  - rewrite Rmin_left by lra. field.
Qed.

(** Sorting positions exist. *)
Fixpoint pos_insert (l : list R) (i : nat) (idx : list nat) : list nat :=
  match idx with
  | [] => [i]
  | j :: idx' => if Rleb (nth i l 0) (nth j l 0) then i :: idx else j :: pos_insert l i idx'
  end.
Definition positions (l : list R) : list nat := fold_right (pos_insert l) [] (seq 0 (length l)).

Example argsort_ex : IsArgsort positions.
Proof.
  intros l. unfold positions. generalize (seq 0 (length l)). intros s.
  assert (P : forall i idx, Permutation (pos_insert l i idx) (i :: idx)).
  { intros i idx. induction idx as [| j idx IH]; [reflexivity |]. cbn [pos_insert].
    destruct (Rleb _ _); [reflexivity |]. rewrite IH. apply perm_swap. }
  split.
  - induction s as [| i s IH]; [reflexivity |]. simpl. rewrite P. constructor. exact IH.
  - induction s as [| i s IH]; [constructor |]. simpl.
    generalize dependent (fold_right (pos_insert l) [] s). intros idx H.
    induction H as [| j idx H IH F]; cbn [pos_insert].
    + constructor; constructor.
    + destruct (Rleb (nth i l 0) (nth j l 0)) eqn:C.
      * apply Rleb_true in C. constructor; [constructor; assumption |]. constructor; [exact C |].
        rewrite Forall_forall in *. intros k K. specialize (F k K). lra.
      * apply Rleb_false in C. constructor; [exact IH |]. rewrite Forall_forall in *.
        intros k K. apply (Permutation_in _ (P i idx)) in K. destruct K as [<- | K]; [lra | auto].
Qed.

(** So do generators, and the count generator which always draws zero has the
    support. *)
Example draws_ex : UniformCharges (fun _ _ n => repeat 1 n) /\
  UniformPairs (fun _ _ n => repeat (1 / 2, 1 / 2) n) /\ CountSupport (fun _ _ _ _ _ => 0%nat).
Proof.
  split; [| split].
  - intros s o n. split; [apply repeat_length |]. apply Forall_forall. intros x X.
    apply repeat_spec in X. subst. lra.
  - intros s o n. split; [apply repeat_length |]. apply Forall_forall. intros x X.
    apply repeat_spec in X. subst. simpl. lra.
  - intros e s o r p R P. unfold nb_pmf. simpl. rewrite Rmult_1_l, Rmult_1_r. apply exp_pos.
Qed.

(** A simulated event with one pulse at one DOM, in a batch whose observed charge
    is two: not consistent. *)
Definition ex_latent : latent :=
  mk_latent (fun _ _ => 1) (fun _ _ => 2) (fun _ _ => [1]) (fun _ _ => [0]) (fun _ _ => [1])
    (fun _ _ => [1]).
Definition ex_count (s o : nat) : nat := if Nat.eqb s 5 && Nat.eqb o 7 then 1%nat else 0%nat.
Definition ex_settings : gsettings :=
  mk_gsettings [true] false 3 false false false false [false] 1 2 0 0.
Definition ex_batch : list value :=
  [VCharge (fun s o => 2 * INR (ex_count s o)); VPulses []; VIds []; VOther 4].

Example simulated_ex erfinv : exists rows ids,
  sample_event_pulses (fun _ _ n => repeat 1 n) (fun _ _ n => repeat (1 / 2, 1 / 2) n) erfinv
    positions ex_count ex_latent 10 false = Ok (rows, ids).
Proof.
  assert (C : searchsorted (cum_scale [1]) (1 / 2) = 0%nat).
  { unfold searchsorted, cum_scale. cbn. rewrite (proj2 (Rltb_false _ _)) by lra. reflexivity. }
  assert (AP : forall ds, exists rows ids,
    all_pulses (fun _ _ n => repeat 1 n) (fun _ _ n => repeat (1 / 2, 1 / 2) n) erfinv
      positions ds ex_count ex_latent 10 false = Ok (rows, ids)).
  { induction ds as [| (s & o) ds (rows & ids & IH)]; [do 2 eexists; reflexivity |].
    cbn [all_pulses]. rewrite IH. unfold dom_pulses, ex_count.
    destruct (Nat.eqb s 5 && Nat.eqb o 7); [| do 2 eexists; reflexivity].
    cbn [Nat.eqb repeat pulse_times]. unfold pulse_time. cbn [fst snd ex_latent l_scale l_mu l_sigma l_r].
    rewrite C. cbn [nth_error bind]. do 2 eexists. reflexivity. }
  destruct (AP doms) as (rows & ids & E). exists rows, ids. unfold sample_event_pulses. rewrite E.
  cbn [bind]. replace (forallb _ doms) with false; [reflexivity |]. symmetry. apply not_true_is_false.
  intros F. rewrite forallb_forall in F. specialize (F (5%nat, 7%nat)).
  assert (I : In (5%nat, 7%nat) doms) by (apply doms_in; lia). specialize (F I). discriminate.
Qed.

Example inconsistent_ex erfinv : exists rows ids batch',
  sample_event_pulses (fun _ _ n => repeat 1 n) (fun _ _ n => repeat (1 / 2, 1 / 2) n) erfinv
    positions ex_count ex_latent 10 false = Ok (rows, ids) /\
  simulated_batch ex_settings ex_batch rows ids = Ok batch' /\ ~ Consistent ex_settings batch'.
Proof.
  destruct (simulated_ex erfinv) as (rows & ids & E).
  destruct draws_ex as (UC & UP & _).
  destruct (C53_consistent _ _ erfinv positions argsort_ex UC UP ex_settings ex_batch _ _ _ _ rows ids
    ltac:(repeat split; simpl; lia) eq_refl E) as (b & S & _ & C).
  exists rows, ids, b. split; [exact E |]. split; [exact S |]. intros K.
  pose proof (proj1 C K 5%nat 7%nat ltac:(lia) ltac:(lia)) as Q. cbn in Q. lra.
Qed.

(** Scales of a mixture *)
Example component_ex : searchsorted (cum_scale [1 / 4; 1 / 2; 1 / 4]) (1 / 2) = 1%nat.
Proof.
  apply (C92_component [1 / 4; 1 / 2; 1 / 4] (1 / 2)); try (simpl; lra); try discriminate;
    try (split; right; simpl; lra).
  - repeat constructor; lra.
  - simpl. lia.
Qed.

(** The module runs: three samples of the event above. *)
Example run_ex erfinv : exists out,
  execute None "x_parameters" ex_settings (fun _ _ _ => []) (fun h => Ok (map (fun _ => ex_latent) h))
    (fun _ s o _ _ => ex_count s o) (fun _ _ _ n => repeat 1 n)
    (fun _ _ _ n => repeat (1 / 2, 1 / 2) n) erfinv positions (fun _ _ x => Ok x)
    (fun _ _ _ => Ok (Scalar 5)) ex_batch (table 1 [[10]]) (table 1 [[10]]) None = Ok out.
Proof.
  destruct (simulated_ex erfinv) as (rows & ids & E).
  assert (ST : forall e, exists x,
    sample_step None "x_parameters" ex_settings (fun _ s o _ _ => ex_count s o)
      (fun _ _ _ n => repeat 1 n) (fun _ _ _ n => repeat (1 / 2, 1 / 2) n) erfinv positions
      (fun _ _ x => Ok x) (fun _ _ _ => Ok (Scalar 5)) ex_batch e [10] ex_latent = Ok x).
  { intros e. unfold sample_step.
    assert (SN : sample_num_pe (fun _ s o _ _ => ex_count s o) e ex_latent = Ok ex_count).
    { unfold sample_num_pe. cbn [ex_latent l_charge l_var].
      destruct (proj2 (C89_accepted 1 2 false ltac:(lra) ltac:(lra))) as ((r & p) & SP).
      { unfold wanted. lra. }
      rewrite SP. replace (forallb _ doms) with true; [reflexivity |].
      symmetry. apply forallb_forall. reflexivity. }
    rewrite SN. cbn [bind nth_error ex_settings g_time g_quantiles]. rewrite E. cbn [bind].
    eexists. reflexivity. }
  destruct (ST 0%nat) as (x0 & E0). destruct (ST 1%nat) as (x1 & E1). destruct (ST 2%nat) as (x2 & E2).
  unfold execute. cbn [ar_rows table hypotheses ex_settings g_samples repeat map bind sample_loop].
  rewrite E0. cbn [bind]. rewrite E1. cbn [bind]. rewrite E2. cbn [bind rev app].
  match goal with |- context [loss_function ?a ?b ?c ?d ?e] =>
    replace (loss_function a b c d e) with (@Ok loss_value (Scalar 5)) by reflexivity end.
  cbn [bind event_loss ex_settings g_per_dom ex_batch nth_error g_charge g_normalise map].
  match goal with |- context [compute_p_value ?s ?v] =>
    destruct (C52_p_values s v) as (EP & _) end; [discriminate |].
  rewrite EP. eexists. reflexivity.
Qed.

Print Assumptions C52_p_values.
Print Assumptions C52_order.
Print Assumptions C52_monotone.
Print Assumptions C52_ties.
Print Assumptions C52_two_sided_refuted.
Print Assumptions C52_no_samples.
Print Assumptions C91_pulses.
Print Assumptions C91_quantiles.
Print Assumptions C91_empty.
Print Assumptions C92_component.
Print Assumptions C92_time.
Print Assumptions C53_consistent.
Print Assumptions C53_charge_terms.
Print Assumptions C93_held.
Print Assumptions C94_poisson.
Print Assumptions C94_asymmetric_gauss.
Print Assumptions C94_asymmetric_gauss_accepted.
Print Assumptions C99_hypotheses.
Print Assumptions C99_compared.
Print Assumptions C99_no_samples.
Print Assumptions C94_negative_binomial.
Print Assumptions C94_negative_binomial_accepted.
