(** Properties of the cascade source: inputs of the network (C104), layout of its
    output (C105), density of the pulse times (C106), excluded windows (C107,
    C108), order of the components (C109), charges (C110) and units (C111). *)
From Coq Require Import Reals Lra Lia Psatz Sorting.Permutation Sorting.Sorted.
From Verif Require Import Py PyFacts PyStr RList M_Source S_Source L_Source M_Basis S_Basis T_Basis M_Noise S_Noise L_Noise
  M_Cascade S_Cascade L_Cascade.
From Verif Require M_Gof L_Gof.
Open Scope R_scope.

Arguments q_layout {format trafo mean std norm_const coords local_vars erf lgamma rel_eff net g rows charges exclusions pulses r i} _.
Arguments q_models {format trafo mean std norm_const coords local_vars erf lgamma rel_eff net g rows charges exclusions pulses r i} _.
Arguments q_eff {format trafo mean std norm_const coords local_vars erf lgamma rel_eff net g rows charges exclusions pulses r i} _.
Arguments q_comps {format trafo mean std norm_const coords local_vars erf lgamma rel_eff net g rows charges exclusions pulses r i} _.
Arguments q_excl {format trafo mean std norm_const coords local_vars erf lgamma rel_eff net g rows charges exclusions pulses r i} _.
Arguments q_charges {format trafo mean std norm_const coords local_vars erf lgamma rel_eff net g rows charges exclusions pulses r i} _.
Arguments q_unc {format trafo mean std norm_const coords local_vars erf lgamma rel_eff net g rows charges exclusions pulses r i} _.
Arguments q_var {format trafo mean std norm_const coords local_vars erf lgamma rel_eff net g rows charges exclusions pulses r i} _.
Arguments q_llh {format trafo mean std norm_const coords local_vars erf lgamma rel_eff net g rows charges exclusions pulses r i} _.
Arguments q_pdf {format trafo mean std norm_const coords local_vars erf lgamma rel_eff net g rows charges exclusions pulses r i} _.
Arguments get_inv {format trafo mean std norm_const coords local_vars erf lgamma rel_eff net g rows charges exclusions pulses r} _.
Arguments get_again {format trafo mean std norm_const coords local_vars erf lgamma rel_eff net g rows charges} charges' exclusions {pulses} pulses' {r} _ _ _.

Lemma cut {A} (l : list A) a m : firstn m (skipn a l) ++ skipn (a + m) l = skipn a l.
Proof.
  revert l. induction a as [| a IH]; intros l; [apply firstn_skipn |].
  destruct l as [| x l]; [cbn; rewrite firstn_nil; reflexivity | apply IH].
Qed.

Section Cascade.
  Variable format : string -> nat -> string.
  Variable trafo : nat -> R -> R.
  Variables mean std : nat -> R.
  Variable norm_const : R.
  Variable coords : cell -> R * R * R.
  Variable local_vars : cell -> list R.
  Variables erf lgamma : R -> R.
  Variable rel_eff : cell -> R.
  Variable net : list (list (list R)) -> nat -> cell -> list R.

  Notation get := (cascade_get_tensors format trafo mean std norm_const coords local_vars erf lgamma rel_eff net).
  Notation input := (event_input trafo mean std norm_const coords local_vars).

  (** ** C104 *)

  (** A batch of events with the documented number of parameters is accepted. *)
  Theorem C104_accepted g rows charges pulses :
    (forall c, length (local_vars c) = g_local g) ->
    Forall (fun row => length row = num_parameters g) rows ->
    (4 * g_models g + n_charge (mode g) = g_filters g)%nat -> (1 < g_models g)%nat ->
    (g_global g = true -> In "DOMEfficiency"%string (cascade_names format g)) ->
    ValidPulses (length rows) pulses ->
    exists r, get g rows charges None pulses = Ok r /\ length (a_pdf r) = length pulses.
  Proof.
    intros LV SH LAY NM EFF V.
    destruct (get_some format trafo mean std norm_const coords local_vars erf lgamma rel_eff net g rows charges None pulses
      SH LV ltac:(lia) NM) as (r & G); [| exact I | exact V |].
    - destruct (g_global g); [| eexists; reflexivity]. specialize (EFF eq_refl).
      unfold name_index. destruct (fold_dset_some (combine (cascade_names format g) (seq 0 (length (cascade_names format g)))) [] "DOMEfficiency")
        as (i & E).
      + left. rewrite map_fst_combine by apply seq_length. exact EFF.
      + exists i. apply lookup_ok. exact E.
    - exists r. split; [exact G |]. destruct (get_inv G) as (i & Q).
      destruct (densities_inv _ _ _ _ (q_pdf Q)) as (_ & E). rewrite E.
      apply map_length.
  Qed.

  (** The names of the parameters are as many; the first seven are those of the
      columns that the functions of the model read. *)
  Theorem C104_names g : length (cascade_names format g) = num_parameters g /\
    (forall i name, In (i, name) [(0, "x"); (1, "y"); (2, "z"); (3, "zenith"); (4, "azimuth"); (5, "energy"); (6, "time")]%nat%string ->
       nth_error (cascade_names format g) i = Some name) /\
    (forall l i name, g_labels g = Some l -> nth_error l i = Some name ->
       nth_error (cascade_names format g) (7 + i) = Some name).
  Proof.
    split; [apply names_length |]. split.
    - intros i name I. cbn in I. repeat (destruct I as [[= <- <-] | I]; [reflexivity |]). destruct I.
    - intros l i name E N. unfold cascade_names. rewrite E. cbn [app Nat.add nth_error]. rewrite nth_error_app1; [exact N |].
      apply nth_error_Some. congruence.
  Qed.

  (** Events with another number of parameters are rejected. *)
  Theorem C104_rejected g rows charges exclusions pulses row :
    (forall c, length (local_vars c) = g_local g) -> In row rows -> length row <> num_parameters g ->
    get g rows charges exclusions pulses = Err IndexError \/ get g rows charges exclusions pulses = Err ValueError.
  Proof.
    intros LV I N. cbv beta delta [cascade_get_tensors].
    destruct (existsb (fun row => Nat.ltb (length row) 7) rows) eqn:S; [left; reflexivity | right]. cbv zeta.
    rewrite (shape_err trafo mean std norm_const coords local_vars g rows row I N LV S). reflexivity.
  Qed.

  (** A shift of an event in time, with its pulses and excluded windows, changes
      nothing. *)
  Theorem C104_translation g rows rows' d charges exclusions pulses : length rows' = length rows ->
    (forall e, (e < length rows)%nat -> Shifted (d e) (nth e rows []) (nth e rows' [])) ->
    (forall e, (e < length rows)%nat -> (7 <= length (nth e rows []))%nat) ->
    SameTensors (length rows)
      (get g rows' charges (option_map (map (shift_window d)) exclusions) (map (shift_pulse d) pulses))
      (get g rows charges exclusions pulses).
  Proof.
    intros L S L7. apply get_shift; [exact L |]. intros e E. specialize (S e E).
    assert (N : forall i, i <> 6%nat -> nth i (nth e rows' []) 0 = nth i (nth e rows []) 0).
    { intros i I. exact (shifted_nth _ _ _ _ S I). }
    split; [exact (proj1 S) |]. split; [apply input_ext; [exact (proj1 S) | auto | rewrite !N by lia; reflexivity] |].
    split; [auto |]. destruct S as (_ & S). rewrite (S 6%nat) by (specialize (L7 e E); lia). reflexivity.
  Qed.

  (** Angles of the same direction give the same result. *)
  Theorem C104_direction g rows rows' charges exclusions pulses : length rows' = length rows ->
    (forall e, (e < length rows)%nat -> Turned (nth e rows []) (nth e rows' [])) ->
    SameTensors (length rows) (get g rows' charges exclusions pulses) (get g rows charges exclusions pulses).
  Proof.
    intros L T.
    pose proof (get_shift format trafo mean std norm_const coords local_vars erf lgamma rel_eff net
      g rows rows' (fun _ => 0) charges exclusions pulses L) as G.
    replace (option_map (map (shift_window (fun _ => 0))) exclusions) with exclusions in G.
    2:{ destruct exclusions as [xs |]; [| reflexivity]. cbn [option_map]. f_equal. symmetry.
        rewrite <- (map_id xs) at 2. apply map_ext. intros [e c a b]. unfold shift_window. cbn. rewrite !Rplus_0_r. reflexivity. }
    replace (map (shift_pulse (fun _ => 0)) pulses) with pulses in G.
    2:{ symmetry. rewrite <- (map_id pulses) at 2. apply map_ext. intros [e c t]. unfold shift_pulse. cbn.
        rewrite Rplus_0_r. reflexivity. }
    apply G. intros e E. destruct (T e E) as (LE & N & D1 & D2 & D3).
    split; [exact LE |]. split.
    - apply input_ext; [exact LE | auto |]. unfold direction.
      replace (- sin (nth 3 (nth e rows' []) 0) * cos (nth 4 (nth e rows' []) 0))
        with (- (sin (nth 3 (nth e rows' []) 0) * cos (nth 4 (nth e rows' []) 0))) by ring.
      replace (- sin (nth 3 (nth e rows' []) 0) * sin (nth 4 (nth e rows' []) 0))
        with (- (sin (nth 3 (nth e rows' []) 0) * sin (nth 4 (nth e rows' []) 0))) by ring.
      rewrite D1, D2, D3. f_equal. f_equal; ring.
    - split; [auto |]. rewrite N by lia. ring.
  Qed.

  (** ** C105 *)

  (** The output of the network is cut into the variables of the charge and four
      blocks, one value per component, none used twice or left out. *)
  Theorem C105_layout g rows charges exclusions pulses r e c :
    (forall inputs e c, length (net inputs e c) = g_filters g) ->
    get g rows charges exclusions pulses = Ok r ->
    (1 < g_models g)%nat /\ length (a_comps r e c) = g_models g /\
    exists q mu sigma skew weight,
      net (map (input g) rows) e c = q ++ mu ++ sigma ++ skew ++ weight /\
      length mu = g_models g /\ length sigma = g_models g /\ length skew = g_models g /\ length weight = g_models g /\
      length q = match g_charge g with
                 | VBool true => 3%nat
                 | VStr s => if String.eqb s "negative_binomial" then 2%nat else 1%nat
                 | _ => 1%nat
                 end /\
      forall k co, nth_error (a_comps r e c) k = Some co ->
        k_sigma co = bend (2 + nth k sigma 0) + 1001 / 1000 /\
        k_r co = bend (1 + nth k skew 0) + 1001 / 1000 /\
        (exists total, total <> 0 /\ k_scale co = (bend (1 + nth k weight 0) + 100001 / 100000) / total) /\
        (g_sort g = false -> k_mu co = 1 + nth k mu 0).
  Proof.
    intros SH G. destruct (get_inv G) as (i & Q).
    pose proof (q_layout Q) as LAY.
    pose proof (q_models Q) as NM.
    rewrite (q_comps Q). unfold the_comps.
    specialize (SH (map (input g) rows) e c). set (out := net _ e c) in *. clearbody out.
    split; [exact NM |]. split; [apply components_length |].
    set (nc := n_charge (mode g)) in *. set (n := g_models g) in *.
    exists (firstn nc out), (slice nc n out), (slice (nc + n) n out), (slice (nc + 2 * n) n out), (slice (nc + 3 * n) n out).
    split.
    { unfold slice. rewrite (firstn_all2 (skipn (nc + 3 * n) out)) by (rewrite skipn_length; lia).
      replace (nc + 3 * n)%nat with ((nc + 2 * n) + n)%nat by lia. rewrite cut.
      replace (nc + 2 * n)%nat with ((nc + n) + n)%nat by lia. rewrite !cut.
      symmetry. apply firstn_skipn. }
    rewrite !slice_length by lia. repeat (split; [reflexivity |]). split.
    { rewrite firstn_length, SH. unfold nc, mode in *. destruct (g_charge g) as [| b | | | s | |]; cbn [n_charge] in *; try lia.
      - destruct b; cbn [n_charge] in *; lia.
      - destruct (String.eqb s "negative_binomial"); cbn [n_charge] in *; lia. }
    intros k co K.
    assert (KN : (k < n)%nat).
    { unfold n. rewrite <- (components_length g out). apply nth_error_Some. rewrite K. discriminate. }
    assert (EB : forall x, elu x = bend x).
    { intros x. unfold elu, bend, Rltb. destruct (Rlt_dec x 0); reflexivity. }
    assert (NM0 : forall (f : R -> R) l, length l = n -> nth k (map f l) 0 = f (nth k l 0)).
    { intros f l L. rewrite (nth_indep _ 0 (f 0)) by (rewrite map_length; lia). apply map_nth. }
    assert (MIX : Mixture (components g out)) by (apply components_mixture; fold nc n; lia).
    pose proof (proj1 (Forall_forall _ _) (proj1 MIX) co (nth_error_In _ _ K)) as (SP & _).
    unfold components in K. fold nc n in K. rewrite nth_error_map in K.
    rewrite (nth_error_nth' (seq 0 n) 0%nat) in K by (rewrite seq_length; exact KN).
    rewrite seq_nth in K by exact KN. cbn [option_map plus] in K. injection K as <-.
    cbn [k_sigma k_r k_scale k_mu] in *.
    replace (nc + (n + 0))%nat with (nc + n)%nat in * by lia.
    replace (nc + (n + (n + 0)))%nat with (nc + 2 * n)%nat in * by lia.
    replace (nc + (n + (n + (n + 0))))%nat with (nc + 3 * n)%nat in * by lia.
    replace (nc + 0)%nat with nc in * by lia.
    split; [rewrite NM0 by (apply slice_length; lia); rewrite EB; f_equal; f_equal; ring |].
    split; [rewrite NM0 by (apply slice_length; lia); rewrite EB; f_equal; f_equal; ring |].
    split.
    - rewrite map_map in SP |- *. rewrite NM0 in SP |- * by (apply slice_length; lia).
      match goal with |- exists total, _ /\ _ / ?t = _ => exists t end. split.
      + intros Z. rewrite Z in SP. unfold Rdiv in SP. rewrite Rinv_0 in SP. lra.
      + rewrite EB. f_equal. f_equal. f_equal. ring.
    - intros ->. rewrite NM0 by (apply slice_length; lia). ring.
  Qed.

  (** Any other number of filters, or less than two components, is rejected. *)
  Theorem C105_rejected g rows charges exclusions pulses :
    (forall c, length (local_vars c) = g_local g) ->
    Forall (fun row => length row = num_parameters g) rows ->
    (4 * g_models g + n_charge (mode g) <> g_filters g \/ g_models g <= 1)%nat ->
    get g rows charges exclusions pulses = Err ValueError.
  Proof.
    intros LV SH H. destruct (shape_ok trafo mean std norm_const coords local_vars g rows SH LV) as (A & B).
    cbv beta delta [cascade_get_tensors]. rewrite A. cbv zeta. rewrite B.
    destruct (Nat.eqb_spec (g_models g * 4 + n_charge (mode g)) (g_filters g)) as [E | E]; [| reflexivity].
    cbn [negb]. destruct (Nat.leb_spec (g_models g) 1); [reflexivity |]. exfalso. lia.
  Qed.

  (** The distribution of the charges is only described for the values True and
      'negative_binomial' of the option; every other value means Poisson, also if
      it is true as a condition. *)
  Theorem C105_modes g rows charges exclusions pulses r :
    get g rows charges exclusions pulses = Ok r ->
    (a_llh r = None <-> g_charge g <> VBool true /\ g_charge g <> VStr "negative_binomial").
  Proof.
    intros G. destruct (get_inv G) as (i & Q). pose proof (q_llh Q) as L.
    assert (M : mode g = Poisson <-> g_charge g <> VBool true /\ g_charge g <> VStr "negative_binomial").
    { unfold mode. destruct (g_charge g) as [| b | | | s | |]; try (split; [intros _; split; discriminate | reflexivity]).
      - destruct b; split; try discriminate; [intros (H & _); congruence | intros _; split; discriminate | reflexivity].
      - destruct (String.eqb_spec s "negative_binomial") as [-> | N]; split; try discriminate.
        + intros (_ & H). congruence.
        + intros _. split; [discriminate | congruence].
        + reflexivity. }
    rewrite <- M. destruct (a_llh r) as [f |]; [| tauto]. split; [discriminate |]. intros E. exfalso.
    specialize (L 0%nat (0, 0)%nat). unfold charge_terms in L. rewrite E in L. discriminate L.
  Qed.

  (** ** C106 *)

  (** The time distribution of every DOM is a mixture. *)
  Theorem C106_mixture g rows charges exclusions pulses r e c :
    (forall inputs e c, length (net inputs e c) = g_filters g) ->
    get g rows charges exclusions pulses = Ok r -> Mixture (a_comps r e c).
  Proof.
    intros SH G. destruct (get_inv G) as (i & Q). rewrite (q_comps Q). apply components_mixture; [exact (q_models Q) |].
    rewrite SH, (q_layout Q). lia.
  Qed.

  Lemma comps_mixture g rows charges exclusions pulses r :
    (forall inputs e c, length (net inputs e c) = g_filters g) ->
    get g rows charges exclusions pulses = Ok r ->
    forall e c, Mixture (the_comps trafo mean std norm_const coords local_vars net g rows e c) /\
      the_comps trafo mean std norm_const coords local_vars net g rows e c <> [].
  Proof.
    intros SH G e c. destruct (get_inv G) as (i & Q). split.
    - rewrite <- (q_comps Q). eapply C106_mixture; eassumption.
    - intros E. pose proof (components_length g (net (map (input g) rows) e c)) as L.
      unfold the_comps in E. rewrite E in L. pose proof (q_models Q). cbn in L. lia.
  Qed.

  Notation tcomps := (the_comps trafo mean std norm_const coords local_vars net).

  Lemma none_density g rows charges pulses r e c : IsErf erf ->
    (forall inputs e c, length (net inputs e c) = g_filters g) ->
    get g rows charges None pulses = Ok r -> (e < length rows)%nat -> InDetector c ->
    IsDensity (get g rows charges None) e c
      (fun t => Rsum (map (fun k => k_scale k * fk (the_time rows e) k t) (tcomps g rows e c))).
  Proof.
    intros HE SH G E C t.
    destruct (get_again charges None [{| u_event := e; u_cell := c; u_time := t |}] HE SH G I) as (r' & G').
    { constructor; [split; assumption | constructor]. }
    exists r'. split; [exact G' |]. destruct (get_inv G') as (i' & Q').
    destruct (densities_inv _ _ _ _ (q_pdf Q')) as (_ & P). rewrite P. cbn [map u_event u_cell u_time].
    rewrite (proj1 (q_excl Q')). rewrite density_none. reflexivity.
  Qed.

  Lemma density_unique call e c f f' : IsDensity call e c f -> IsDensity call e c f' -> forall t, f t = f' t.
  Proof.
    intros A B t. destruct (A t) as (r & R & P). destruct (B t) as (r' & R' & P'). rewrite R in R'.
    injection R' as <-. rewrite P in P'. injection P' as E. exact E.
  Qed.

  (** The density is positive and its integral over all times, in nanoseconds, is
      one thousand. *)
  Theorem C106_density g rows charges pulses r e c : IsErf erf ->
    (forall inputs e c, length (net inputs e c) = g_filters g) ->
    get g rows charges None pulses = Ok r -> (e < length rows)%nat -> InDetector c ->
    exists f, IsDensity (get g rows charges None) e c f /\ (forall t, 0 < f t) /\ TotalMass f 1000 /\
      forall t, f t = Rsum (map (fun k => k_scale k *
        asymmetric_gauss ((t - nth 6 (nth e rows []) 0) / 1000) (k_mu k) (k_sigma k) (k_r k)) (a_comps r e c)).
  Proof.
    intros HE SH G E C. eexists. split; [eapply none_density; eassumption |].
    destruct (comps_mixture _ _ _ _ _ _ SH G e c) as (M & NE).
    assert (D := mix_dist erf HE (the_time rows e) k_scale _ NE).
    specialize (D ltac:(eapply Forall_impl; [| exact (proj1 M)]; cbn; intros; tauto) (mixture_wide _ M)).
    rewrite (proj2 M), Rmult_1_r in D.
    split; [exact (d_pos _ _ _ D) |]. split; [exact (total_mass _ _ _ D) |].
    intros t. destruct (get_inv G) as (i & Q). rewrite (q_comps Q). apply Rsum_map_ext. intros k _. unfold fk, the_time.
    f_equal. f_equal. field.
  Qed.

  (** The density of a pulse does not depend on the other pulses or the observed
      charges. *)
  Theorem C106_pulses g rows charges charges' exclusions pulses r j p f :
    get g rows charges exclusions pulses = Ok r -> nth_error pulses j = Some p ->
    IsDensity (get g rows charges' exclusions) (u_event p) (u_cell p) f ->
    nth_error (a_pdf r) j = Some (f (u_time p)).
  Proof.
    intros G J D. destruct (get_inv G) as (i & Q). destruct (D (u_time p)) as (r' & G' & P').
    destruct (get_inv G') as (i' & Q').
    destruct (densities_inv _ _ _ _ (q_pdf Q)) as (_ & P). rewrite P, nth_error_map, J. cbn [option_map]. f_equal.
    destruct (densities_inv _ _ _ _ (q_pdf Q')) as (_ & P0). rewrite P0 in P'. cbn [map u_event u_cell u_time] in P'.
    injection P' as <-. f_equal.
    pose proof (q_excl Q) as X. pose proof (q_excl Q') as X'. destruct exclusions as [xs |].
    - destruct X as (fe & fs & X & X1 & _). destruct X' as (fe' & fs' & X' & X1' & _). rewrite X in X'.
      injection X' as <- <-. rewrite X1, X1'. reflexivity.
    - rewrite (proj1 X), (proj1 X'). reflexivity.
  Qed.

  (** ** C107 *)

  Definition excluded_part g rows xs e c : R :=
    Rsum (map (fun k => k_scale k * ex erf (the_time rows e) xs e c k) (tcomps g rows e c)).

  Lemma none_mass g rows charges pulses r e c xs f ro : IsErf erf ->
    (forall inputs e c, length (net inputs e c) = g_filters g) ->
    get g rows charges None pulses = Ok r -> (e < length rows)%nat -> InDetector c ->
    Ordered xs -> Separate xs -> IsDensity (get g rows charges None) e c f -> ReadOut xs e c ro ->
    TotalMass (fun t => f t * ro t) (1000 * (1 - excluded_part g rows xs e c)) /\
    0 <= excluded_part g rows xs e c < 1.
  Proof.
    intros HE SH G E C O S D RO.
    destruct (comps_mixture _ _ _ _ _ _ SH G e c) as (M & NE).
    assert (DD := mix_dist erf HE (the_time rows e) k_scale _ NE).
    specialize (DD ltac:(eapply Forall_impl; [| exact (proj1 M)]; cbn; intros; tauto) (mixture_wide _ M)).
    rewrite (proj2 M), Rmult_1_r in DD.
    assert (P : parts (fun t => Rsum (map (fun k => k_scale k * Fk erf (the_time rows e) k t) (tcomps g rows e c))) xs e c
      = 1000 * excluded_part g rows xs e c).
    { rewrite parts_mix. unfold excluded_part. rewrite <- Rsum_map_scal. apply Rsum_map_ext. intros k _.
      rewrite ex_parts. ring. }
    split.
    - pose proof (allowed_mass _ _ _ DD xs e c ro O S RO) as A. rewrite P in A.
      replace (1000 * (1 - excluded_part g rows xs e c)) with (1000 - 1000 * excluded_part g rows xs e c) by ring.
      eapply mass_ext; [| exact A]. intros t. cbn beta.
      rewrite (density_unique _ _ _ _ _ (none_density _ _ _ _ _ _ _ HE SH G E C) D t). reflexivity.
    - pose proof (parts_range _ _ _ DD xs e c O S) as R. rewrite P in R. lra.
  Qed.

  (** With separate windows the source never fails; the expected charge is scaled
      with the probability that a photon arrives while the DOM is read out, plus a
      thousandth. *)
  Theorem C107_charge g rows charges pulses r xs : IsErf erf ->
    (forall inputs e c, length (net inputs e c) = g_filters g) ->
    get g rows charges None pulses = Ok r -> Ordered xs -> Separate xs -> ValidWindows (length rows) xs ->
    exists r', get g rows charges (Some xs) pulses = Ok r' /\
      forall e c f ro live, (e < length rows)%nat -> InDetector c -> IsDensity (get g rows charges None) e c f ->
        ReadOut xs e c ro -> TotalMass (fun t => f t * ro t) (1000 * live) ->
        0 < live <= 1 /\
        a_charges r' e c - 1 / 10000000 = (a_charges r e c - 1 / 10000000) * (live + 1 / 1000).
  Proof.
    intros HE SH G O S V. destruct (get_inv G) as (i & Q).
    destruct (get_again charges (Some xs) pulses HE SH G (conj O (conj S V)) (proj1 (densities_inv _ _ _ _ (q_pdf Q)))) as (r' & G').
    exists r'. split; [exact G' |]. intros e c f ro live E C D RO T.
    destruct (none_mass _ _ _ _ _ _ _ _ _ _ HE SH G E C O S D RO) as (T' & R).
    pose proof (mass_unique _ _ _ T T') as L. assert (LE : live = 1 - excluded_part g rows xs e c) by lra. clear L.
    split; [lra |]. destruct (get_inv G') as (i' & Q'). rewrite (q_charges Q), (q_charges Q').
    rewrite (proj2 (q_excl Q)). destruct (q_excl Q') as (fe & fs & X & _ & X2). rewrite X2.
    destruct (exclusion_ok erf HE (length rows) (the_time rows) (tcomps g rows) xs O S V) as (fe0 & fs0 & X0 & _ & F).
    { intros e0 c0. exact (proj1 (comps_mixture _ _ _ _ _ _ SH G e0 c0)). }
    rewrite X in X0. injection X0 as <- <-. rewrite F. fold (excluded_part g rows xs e c).
    pose proof (q_eff Q) as E1. pose proof (q_eff Q') as E2. rewrite E1 in E2. injection E2 as <-. rewrite LE. ring.
  Qed.

  (** Such a share exists for every DOM. *)
  Theorem C107_share g rows charges pulses r xs e c f : IsErf erf ->
    (forall inputs e c, length (net inputs e c) = g_filters g) ->
    get g rows charges None pulses = Ok r -> Ordered xs -> Separate xs -> (e < length rows)%nat -> InDetector c ->
    IsDensity (get g rows charges None) e c f ->
    exists ro live, ReadOut xs e c ro /\ TotalMass (fun t => f t * ro t) (1000 * live).
  Proof.
    intros HE SH G O S E C D. eexists. eexists. split; [apply (readout_exists xs e c S) |].
    exact (proj1 (none_mass _ _ _ _ _ _ _ _ _ _ HE SH G E C O S D (readout_exists xs e c S))).
  Qed.

  (** The same window twice: the excluded share is added up and the check fails,
      although one copy is accepted. *)
  Theorem C107_double_refuted g rows charges pulses r e c : IsErf erf ->
    (forall inputs e c, length (net inputs e c) = g_filters g) ->
    get g rows charges None pulses = Ok r -> (e < length rows)%nat -> InDetector c ->
    exists x, x_event x = e /\ x_cell x = c /\ x_start x < x_stop x /\
      (exists r', get g rows charges (Some [x]) pulses = Ok r') /\
      get g rows charges (Some [x; x]) pulses = Err AssertionError.
  Proof.
    intros HE SH G E C. destruct (comps_mixture _ _ _ _ _ _ SH G e c) as (M & NE).
    destruct (get_inv G) as (i & Q).
    destruct (tcomps g rows e c) as [| k ks] eqn:KS; [congruence |].
    pose proof (Forall_inv (mixture_wide _ M)) as W. set (tc := the_time rows e).
    pose proof (fk_dist erf HE tc k W) as D.
    destruct (d_low _ _ _ D 100 ltac:(lra)) as (m1 & M1). destruct (d_high _ _ _ D 100 ltac:(lra)) as (m2 & M2).
    set (a := Rmin m1 m2 - 1). set (b := Rmax m1 m2 + 1).
    assert (A : a < m1) by (unfold a; pose proof (Rmin_l m1 m2); lra).
    assert (B : m2 < b) by (unfold b; pose proof (Rmax_r m1 m2); lra).
    assert (AB : a < b) by (unfold a, b; pose proof (Rmin_l m1 m2); pose proof (Rmax_l m1 m2); lra).
    specialize (M1 a A). specialize (M2 b B).
    set (x := {| x_event := e; x_cell := c; x_start := a; x_stop := b |}). exists x.
    split; [reflexivity |]. split; [reflexivity |]. split; [exact AB |].
    assert (T : 6 / 10 < tw_cdf erf tc k x).
    { pose proof (part_tw erf tc k x) as P. unfold part in P. cbn [x x_start x_stop] in P.
      apply Rabs_def2 in M1. apply Rabs_def2 in M2. lra. }
    assert (O1 : x_start x <= x_stop x) by (cbn; lra).
    assert (V1 : (x_event x < length rows)%nat /\ InDetector (x_cell x)) by (split; assumption).
    split.
    - apply (get_again charges (Some [x]) pulses HE SH G); [| exact (proj1 (densities_inv _ _ _ _ (q_pdf Q)))].
      split; [constructor; [exact O1 | constructor] |]. split; [repeat constructor |]. constructor; [exact V1 | constructor].
    - pose proof G as G0. cbv beta delta [cascade_get_tensors] in G0 |- *. cbv zeta in G0 |- *.
      destruct (existsb (fun row => Nat.ltb (length row) 7) rows); [discriminate |].
      destruct (existsb _ (map _ rows)); [discriminate |]. clear G0.
      rewrite (q_layout Q), Nat.eqb_refl. cbv beta iota delta [negb].
      pose proof (q_models Q) as NM. destruct (Nat.leb_spec (g_models g) 1); [lia |].
      fold (the_time rows). fold (tcomps g rows).
      match goal with |- bind (bind ?x _) _ = _ => assert (X : x = Err AssertionError) end; [| rewrite X; reflexivity].
      cbv beta delta [cascade_exclusion].
      replace (forallb _ [x; x]) with true.
      2:{ cbn [forallb]. rewrite (proj2 (in_range_true (length rows) (x_event x) (x_cell x)) V1). reflexivity. }
      cbv beta iota delta [negb]. destruct (forallb _ [x; x]); [| reflexivity]. cbv zeta.
      match goal with |- (if (if ?b then _ else _) then _ else _) = _ => destruct b eqn:F end; [| reflexivity].
      exfalso. rewrite forallb_forall in F. specialize (F e ltac:(apply in_seq; lia)).
      rewrite forallb_forall in F. specialize (F c (proj2 (cells_in c) C)). 
      fold (tcomps g rows e c) in F. rewrite KS in F. cbn [map forallb] in F. apply andb_prop in F. destruct F as (F & _).
      apply checked_true in F. cbn [filter] in F.
      replace (at_dom e c x) with true in F by (symmetry; apply at_true; split; reflexivity).
      cbn [map] in F. rewrite !Rsum_cons in F. pose proof (tw_range erf HE tc k x W O1) as R.
      fold (the_time rows e) in F. fold tc in F. rewrite clip_id in F by lra. unfold Rsum in F. cbn [fold_right] in F. lra.
  Qed.

  (** ** C108 *)

  Lemma some_density g rows charges pulses r e c xs : IsErf erf ->
    (forall inputs e c, length (net inputs e c) = g_filters g) ->
    get g rows charges None pulses = Ok r -> (e < length rows)%nat -> InDetector c ->
    Ordered xs -> Separate xs -> ValidWindows (length rows) xs ->
    IsDensity (get g rows charges (Some xs)) e c
      (fun t => Rsum (map (fun k => k_scale k / (1 - ex erf (the_time rows e) xs e c k + 1 / 1000)
                  * fk (the_time rows e) k t) (tcomps g rows e c))).
  Proof.
    intros HE SH G E C O S V t.
    destruct (get_again charges (Some xs) [{| u_event := e; u_cell := c; u_time := t |}] HE SH G (conj O (conj S V))) as (r' & G').
    { constructor; [split; assumption | constructor]. }
    exists r'. split; [exact G' |]. destruct (get_inv G') as (i' & Q').
    destruct (densities_inv _ _ _ _ (q_pdf Q')) as (_ & P). rewrite P. cbn [map u_event u_cell u_time].
    destruct (q_excl Q') as (fe & fs & X & X1 & X2). rewrite X1.
    destruct (exclusion_ok erf HE (length rows) (the_time rows) (tcomps g rows) xs O S V) as (fe0 & fs0 & X0 & F & _).
    { intros e0 c0. exact (proj1 (comps_mixture _ _ _ _ _ _ SH G e0 c0)). }
    rewrite X in X0. injection X0 as <- <-. rewrite F. rewrite density_some. reflexivity.
  Qed.

  Lemma some_dist g rows charges pulses r e c xs : IsErf erf ->
    (forall inputs e c, length (net inputs e c) = g_filters g) ->
    get g rows charges None pulses = Ok r -> Ordered xs -> Separate xs ->
    let w := fun k => k_scale k / (1 - ex erf (the_time rows e) xs e c k + 1 / 1000) in
    Dist (fun t => Rsum (map (fun k => w k * fk (the_time rows e) k t) (tcomps g rows e c)))
         (fun t => Rsum (map (fun k => w k * Fk erf (the_time rows e) k t) (tcomps g rows e c)))
         (1000 * Rsum (map w (tcomps g rows e c))).
  Proof.
    intros HE SH G O S w. destruct (comps_mixture _ _ _ _ _ _ SH G e c) as (M & NE).
    apply mix_dist; [exact HE | exact NE | | exact (mixture_wide _ M)].
    apply Forall_forall. intros k K. destruct M as (M & _). rewrite Forall_forall in M. specialize (M k K).
    assert (W : wide k) by (unfold wide; lra). pose proof (ex_range erf HE (the_time rows e) xs e c k W O S).
    unfold w. apply Rdiv_lt_0_compat; lra.
  Qed.

  (** With the excluded windows the density is still positive at all times, also
      the excluded ones; its integral over the times that are read out is less
      than one thousand. *)
  Theorem C108_mass g rows charges pulses r e c xs f ro : IsErf erf ->
    (forall inputs e c, length (net inputs e c) = g_filters g) ->
    get g rows charges None pulses = Ok r -> (e < length rows)%nat -> InDetector c ->
    Ordered xs -> Separate xs -> ValidWindows (length rows) xs ->
    IsDensity (get g rows charges (Some xs)) e c f -> ReadOut xs e c ro ->
    (forall t, 0 < f t) /\ exists m, TotalMass (fun t => f t * ro t) m /\ 0 < m <= 1000 / (1001 / 1000).
  Proof.
    intros HE SH G E C O S V D RO. pose proof (some_density _ _ _ _ _ _ _ _ HE SH G E C O S V) as D0.
    pose proof (some_dist _ _ _ _ _ e c xs HE SH G O S) as DD. cbv zeta in DD.
    set (x := ex erf (the_time rows e) xs e c) in *. set (ks := tcomps g rows e c) in *.
    destruct (comps_mixture _ _ _ _ _ _ SH G e c) as (M & NE). fold ks in M, NE.
    assert (XR : forall k, In k ks -> 0 < k_scale k /\ 0 <= x k < 1).
    { intros k K. destruct M as (M & _). rewrite Forall_forall in M. specialize (M k K). split; [lra |].
      apply ex_range; [exact HE | unfold wide; lra | exact O | exact S]. }
    split.
    - intros t. rewrite (density_unique _ _ _ _ _ D D0 t). apply (d_pos _ _ _ DD).
    - exists (1000 * Rsum (map (fun k => k_scale k * ((1 - x k) / (1 - x k + 1 / 1000))) ks)). split.
      + pose proof (allowed_mass _ _ _ DD xs e c ro O S RO) as A. rewrite parts_mix in A.
        match type of A with TotalMass _ ?v =>
          replace (1000 * Rsum (map (fun k => k_scale k * ((1 - x k) / (1 - x k + 1 / 1000))) ks)) with v end.
        * eapply mass_ext; [| exact A]. intros t. cbn beta. rewrite (density_unique _ _ _ _ _ D D0 t). reflexivity.
        * rewrite <- !Rsum_map_scal, <- Rsum_map_minus. apply Rsum_map_ext. intros k K. rewrite ex_parts. fold x.
          destruct (XR k K). field. lra.
      + assert (B : forall k, In k ks -> 0 < k_scale k * ((1 - x k) / (1 - x k + 1 / 1000)) <= k_scale k * (1 / (1001 / 1000))).
        { intros k K. destruct (XR k K) as (P & X). split.
          - apply Rmult_lt_0_compat; [exact P |]. apply Rdiv_lt_0_compat; lra.
          - apply Rmult_le_compat_l; [lra |]. apply (Rmult_le_reg_r (1 - x k + 1 / 1000)); [lra |].
            replace ((1 - x k) / (1 - x k + 1 / 1000) * (1 - x k + 1 / 1000)) with (1 - x k) by (field; lra). lra. }
        split.
        * apply Rmult_lt_0_compat; [lra |]. destruct ks as [| k ks]; [congruence |]. cbn [map]. rewrite Rsum_cons.
          pose proof (B k (or_introl eq_refl)).
          assert (0 <= Rsum (map (fun k => k_scale k * ((1 - x k) / (1 - x k + 1 / 1000))) ks)); [| lra].
          apply Rsum_nonneg. apply Forall_map. apply Forall_forall. intros k' K'.
          pose proof (B k' (or_intror K')). lra.
        * assert (L : Rsum (map (fun k => k_scale k * ((1 - x k) / (1 - x k + 1 / 1000))) ks)
                      <= Rsum (map (fun k => 1 / (1001 / 1000) * k_scale k) ks)).
          { apply Rsum_le. intros k K. pose proof (B k K). lra. }
          rewrite Rsum_map_scal, (proj2 M) in L. lra.
  Qed.

  (** A DOM without excluded windows loses a thousandth as soon as the tensor of
      windows exists. *)
  Theorem C108_other_doms g rows charges pulses r e c xs f f' : IsErf erf ->
    (forall inputs e c, length (net inputs e c) = g_filters g) ->
    get g rows charges None pulses = Ok r -> (e < length rows)%nat -> InDetector c ->
    Ordered xs -> Separate xs -> ValidWindows (length rows) xs ->
    (forall x, In x xs -> x_event x = e -> x_cell x <> c) ->
    IsDensity (get g rows charges None) e c f -> IsDensity (get g rows charges (Some xs)) e c f' ->
    forall t, f' t = f t / (1001 / 1000).
  Proof.
    intros HE SH G E C O S V N D D' t.
    rewrite (density_unique _ _ _ _ _ D' (some_density _ _ _ _ _ _ _ _ HE SH G E C O S V) t).
    rewrite (density_unique _ _ _ _ _ D (none_density _ _ _ _ _ _ _ HE SH G E C) t).
    assert (FN : filter (At e c) xs = []).
    { destruct (filter (At e c) xs) as [| x l] eqn:F; [reflexivity | exfalso].
      assert (I : In x (filter (At e c) xs)) by (rewrite F; left; reflexivity). apply filter_In in I.
      destruct I as (I & A). apply at_true in A. exact (N x I (proj1 A) (proj2 A)). }
    match goal with |- _ = ?a / ?b => replace (a / b) with (/ b * a) by (unfold Rdiv; ring) end.
    rewrite <- Rsum_map_scal. apply Rsum_map_ext. intros k _. unfold ex. rewrite FN.
    cbn [map]. unfold Rsum. cbn [fold_right]. field.
  Qed.

  (** ** C109 *)

  Lemma sort_fixed l : StronglySorted Rle l -> M_Gof.sort l = l.
  Proof.
    induction 1 as [| x l S IH F]; [reflexivity |]. cbn [M_Gof.sort fold_right]. unfold M_Gof.sort in IH. rewrite IH.
    destruct l as [| y l]; [reflexivity |]. cbn [M_Gof.insert]. pose proof (Forall_inv F).
    destruct (Rleb x y) eqn:L; [reflexivity |]. apply Rleb_false in L. lra.
  Qed.

  Definition mus g (out : list R) : list R := map (fun v => 1 + 1 * v) (slice (n_charge (mode g) + 0 * g_models g) (g_models g) out).

  Lemma mu_list b g out : (g_models g * 4 + n_charge (mode g) <= length out)%nat ->
    map k_mu (components (with_sort b g) out) = if b then M_Gof.sort (mus g out) else mus g out.
  Proof.
    intros L. unfold components. rewrite map_map. cbn [k_mu with_sort g_sort g_models].
    change (mode (with_sort b g)) with (mode g). fold (mus g out).
    assert (LM : length (mus g out) = g_models g).
    { unfold mus. rewrite map_length. apply slice_length. lia. }
    destruct b.
    - assert (LS : length (M_Gof.sort (mus g out)) = g_models g).
      { rewrite (Permutation_length (L_Gof.sort_perm _)). exact LM. }
      rewrite <- LS at 1. apply map_nth_seq.
    - rewrite <- LM at 1. apply map_nth_seq.
  Qed.

  (** The option sorts the positions of the components and leaves their widths,
      asymmetries and weights where they are. *)
  Theorem C109_sorted g rows charges exclusions pulses r exclusions' pulses' r' e c :
    (forall inputs e c, length (net inputs e c) = g_filters g) ->
    get (with_sort true g) rows charges exclusions pulses = Ok r ->
    get (with_sort false g) rows charges exclusions' pulses' = Ok r' ->
    StronglySorted Rle (map k_mu (a_comps r e c)) /\
    Permutation (map k_mu (a_comps r e c)) (map k_mu (a_comps r' e c)) /\
    map k_sigma (a_comps r e c) = map k_sigma (a_comps r' e c) /\
    map k_r (a_comps r e c) = map k_r (a_comps r' e c) /\
    map k_scale (a_comps r e c) = map k_scale (a_comps r' e c).
  Proof.
    intros SH G G'. destruct (get_inv G) as (i & Q). destruct (get_inv G') as (i' & Q').
    rewrite (q_comps Q), (q_comps Q'). unfold the_comps.
    change (event_input trafo mean std norm_const coords local_vars (with_sort true g)) with (input g).
    change (event_input trafo mean std norm_const coords local_vars (with_sort false g)) with (input g).
    pose proof (q_layout Q) as L. change (g_models (with_sort true g)) with (g_models g) in L.
    change (mode (with_sort true g)) with (mode g) in L. change (g_filters (with_sort true g)) with (g_filters g) in L.
    set (out := net (map (input g) rows) e c).
    assert (LO : (g_models g * 4 + n_charge (mode g) <= length out)%nat) by (unfold out; rewrite SH; lia).
    clearbody out. rewrite !mu_list by exact LO.
    split; [apply L_Gof.sort_sorted |]. split; [apply L_Gof.sort_perm |].
    unfold components. rewrite !map_map. split; [reflexivity |]. split; reflexivity.
  Qed.

  (** It has no effect on components in the right order. *)
  Theorem C109_ordered g rows charges exclusions pulses r exclusions' pulses' r' e c :
    (forall inputs e c, length (net inputs e c) = g_filters g) ->
    get (with_sort true g) rows charges exclusions pulses = Ok r ->
    get (with_sort false g) rows charges exclusions' pulses' = Ok r' ->
    StronglySorted Rle (map k_mu (a_comps r' e c)) -> a_comps r e c = a_comps r' e c.
  Proof.
    intros SH G G' ST. destruct (get_inv G) as (i & Q). destruct (get_inv G') as (i' & Q').
    rewrite (q_comps Q') in ST. rewrite (q_comps Q), (q_comps Q'). unfold the_comps in *.
    change (event_input trafo mean std norm_const coords local_vars (with_sort true g)) with (input g).
    change (event_input trafo mean std norm_const coords local_vars (with_sort false g)) with (input g) in *.
    pose proof (q_layout Q) as L. change (g_models (with_sort true g)) with (g_models g) in L.
    change (mode (with_sort true g)) with (mode g) in L. change (g_filters (with_sort true g)) with (g_filters g) in L.
    set (out := net (map (input g) rows) e c) in *.
    assert (LO : (g_models g * 4 + n_charge (mode g) <= length out)%nat) by (unfold out; rewrite SH; lia).
    clearbody out. rewrite mu_list in ST by exact LO. unfold components. cbn [with_sort g_sort g_models].
    change (mode (with_sort true g)) with (mode g). change (mode (with_sort false g)) with (mode g).
    fold (mus g out). rewrite (sort_fixed _ ST). reflexivity.
  Qed.

  (** ** C110 *)

  (** The expected charge *)
  Theorem C110_charge g rows charges pulses r e c : get g rows charges None pulses = Ok r ->
    exists eff, (g_global g = true -> exists i, nth_error (cascade_names format g) i = Some "DOMEfficiency"%string /\
                                     eff = nth i (nth e rows []) 0) /\
    a_charges r e c = exp (nth 0 (net (map (input g) rows) e c) 0)
      * (if g_scale g then nth 5 (nth e rows []) 0 / 10000 else 1)
      * (if g_relative g then rel_eff c else 1) * (if g_global g then eff else 1) + 1 / 10000000.
  Proof.
    intros G. destruct (get_inv G) as (i & Q). exists (nth i (nth e rows []) 0). split.
    - intros GG. exists i. split; [| reflexivity]. pose proof (q_eff Q) as E. rewrite GG in E.
      apply name_index_nth. exact E.
    - rewrite (q_charges Q), (proj2 (q_excl Q)). unfold the_raw, raw_charge.
      destruct (g_scale g), (g_relative g), (g_global g); ring.
  Qed.

  Lemma excl_sum_le n time comps xs fe fs e c : cascade_exclusion erf n time comps xs = Ok (fe, fs) -> fs e c <= 1.
  Proof.
    cbv beta delta [cascade_exclusion]. destruct (negb (forallb _ xs)); [discriminate |].
    destruct (negb (forallb _ xs)); [discriminate |]. cbv zeta.
    destruct (negb (forallb _ (seq 0 n))); [discriminate |].
    destruct (negb (forallb _ (seq 0 n))); [discriminate |].
    intros H. injection H as _ H. rewrite <- H. apply clip_range. lra.
  Qed.

  (** It is positive if the energy and the efficiencies are not negative, also
      with excluded windows. *)
  Theorem C110_positive g rows charges exclusions pulses r e c : get g rows charges exclusions pulses = Ok r ->
    Forall (fun row => 0 <= nth 5 row 0 /\
      forall i, nth_error (cascade_names format g) i = Some "DOMEfficiency"%string -> 0 <= nth i row 0) rows ->
    (forall c, 0 <= rel_eff c) -> 1 / 10000000 <= a_charges r e c.
  Proof.
    intros G P RE. destruct (get_inv G) as (i & Q).
    assert (PE : 0 <= nth 5 (nth e rows []) 0 /\ 0 <= (if g_global g then nth i (nth e rows []) 0 else 1)).
    { destruct (Nat.lt_ge_cases e (length rows)) as [E | E].
      - rewrite Forall_forall in P. destruct (P (nth e rows []) (nth_In _ _ E)) as (P5 & PF). split; [exact P5 |].
        destruct (g_global g) eqn:GG; [| lra]. pose proof (q_eff Q) as EF. rewrite GG in EF.
        apply PF. apply name_index_nth. exact EF.
      - rewrite (nth_overflow rows) by exact E. split; [cbn; lra |]. destruct (g_global g), i; cbn; lra. }
    destruct PE as (E5 & EF).
    rewrite (q_charges Q).
    assert (RW : 0 <= the_raw trafo mean std norm_const coords local_vars rel_eff net g rows i e c).
    { pose proof (exp_pos (nth 0 (net (map (input g) rows) e c) 0)) as X.
      specialize (RE c). unfold the_raw, raw_charge.
      assert (S : 0 <= nth 5 (nth e rows []) 0 / 10000) by lra.
      destruct (g_scale g), (g_relative g), (g_global g); repeat apply Rmult_le_pos; lra. }
    destruct (a_excl_sum r) as [f |] eqn:F; [| lra].
    assert (f e c <= 1).
    { pose proof (q_excl Q) as X. destruct exclusions as [xs |]; [| destruct X; congruence].
      destruct X as (fe & fs & X & _ & X2). rewrite F in X2. injection X2 as ->. exact (excl_sum_le _ _ _ _ _ _ e c X). }
    assert (0 <= the_raw trafo mean std norm_const coords local_vars rel_eff net g rows i e c * (1 - f e c + 1 / 1000)); [| lra].
    apply Rmult_le_pos; lra.
  Qed.

  (** Poisson: the variance is the expected charge. *)
  Theorem C110_poisson g rows charges exclusions pulses r e c : get g rows charges exclusions pulses = Ok r ->
    a_llh r = None -> a_var r e c = a_charges r e c /\ a_unc r e c = sqrt (a_charges r e c).
  Proof.
    intros G L. destruct (get_inv G) as (i & Q). pose proof (q_llh Q) as M. rewrite L in M.
    rewrite (q_var Q), (q_unc Q). unfold charge_terms. rewrite M. split; reflexivity.
  Qed.

  Lemma lgamma_fact k : IsLogGamma lgamma -> lgamma (INR k + 1) = ln (INR (fact k)).
  Proof.
    intros (L1 & L2). induction k as [| k IH].
    - cbn [INR fact]. rewrite Rplus_0_l, L1, ln_1. reflexivity.
    - rewrite S_INR, L2 by (pose proof (pos_INR k); lra). rewrite IH.
      change (fact (S k)) with (S k * fact k)%nat. rewrite mult_INR, S_INR, ln_mult.
      + ring.
      + pose proof (pos_INR k); lra.
      + apply lt_0_INR, lt_O_fact.
  Qed.

  (** Negative binomial: for whole charges the likelihood is the probability times
      the factorial of the charge; the variance is that of the distribution. *)
  Theorem C110_negative_binomial g rows exclusions pulses e c charges r : IsLogGamma lgamma ->
    g_charge g = VStr "negative_binomial" -> get g rows charges exclusions pulses = Ok r -> 0 < a_charges r e c ->
    exists p, Distribution p (a_charges r e c) (a_var r e c) /\ a_unc r e c = sqrt (a_var r e c) /\
      forall k charges', charges' e c = INR k ->
        exists r' llh v, get g rows charges' exclusions pulses = Ok r' /\ a_llh r' = Some llh /\
          llh e c = Fin v /\ exp v = p k * INR (fact k).
  Proof.
    intros LG GC G P. destruct (get_inv G) as (i & Q).
    assert (M : mode g = NegativeBinomial) by (unfold mode; rewrite GC; reflexivity).
    set (out := net (map (input g) rows) e c). set (al := charge_alpha (nth 1 out 0)).
    assert (AP : 0 < al) by (unfold al, charge_alpha; pose proof (elu_lower (nth 1 out 0 - 5)); lra).
    destruct (C88_distribution lgamma (a_charges r e c) al LG P AP) as (p & PP & D).
    exists p. split.
    { rewrite (q_var Q). unfold charge_terms. rewrite M. exact D. }
    split. { rewrite (q_var Q), (q_unc Q). unfold charge_terms. rewrite M. reflexivity. }
    intros k charges' CK.
    assert (G' : exists r', get g rows charges' exclusions pulses = Ok r' /\ a_charges r' e c = a_charges r e c).
    { pose proof G as G0. cbv beta delta [cascade_get_tensors] in G0 |- *. cbv zeta in G0 |- *.
      destruct (existsb (fun row => Nat.ltb (length row) 7) rows); [discriminate |].
      destruct (existsb _ (map _ rows)); [discriminate |].
      destruct (negb _); [discriminate |]. destruct (Nat.leb (g_models g) 1); [discriminate |].
      apply bind_ok in G0. destruct G0 as (excl & X & G0). rewrite X. cbn [bind].
      apply bind_ok in G0. destruct G0 as (i0 & EFF & G0). rewrite EFF. cbn [bind].
      apply bind_ok in G0. destruct G0 as (pdf & PDF & G0). rewrite PDF. cbn [bind]. injection G0 as <-.
      eexists. split; reflexivity. }
    destruct G' as (r' & G' & CE). destruct (get_inv G') as (i' & Q').
    pose proof (q_llh Q') as L. destruct (a_llh r') as [llh |] eqn:LL; [| congruence].
    specialize (L e c). destruct (PP k) as (v & V & EV). exists r', llh, (v + lgamma (INR k + 1)).
    split; [exact G' |]. split; [exact LL |]. split.
    - unfold charge_terms in L. rewrite M, CK, CE in L. cbn [snd] in L. injection L as <-.
      fold out al. apply C88_normalisation; assumption.
    - rewrite exp_plus, EV, (lgamma_fact k LG), exp_ln by (apply lt_0_INR, lt_O_fact). reflexivity.
  Qed.

  (** Its variance is never that of a Poisson distribution: the over-dispersion is
      at least a millionth. *)
  Theorem C110_overdispersed g rows charges exclusions pulses r e c :
    g_charge g = VStr "negative_binomial" -> get g rows charges exclusions pulses = Ok r ->
    a_charges r e c + 1 / 1000000 * a_charges r e c ^ 2 <= a_var r e c.
  Proof.
    intros GC G. destruct (get_inv G) as (i & Q).
    assert (M : mode g = NegativeBinomial) by (unfold mode; rewrite GC; reflexivity).
    rewrite (q_var Q). unfold charge_terms. rewrite M. cbn [fst snd].
    set (al := charge_alpha (nth 1 (net (map (input g) rows) e c) 0)). assert (AP : 1 / 1000000 <= al).
    { unfold al, charge_alpha. match goal with |- _ <= elu ?x + _ => pose proof (elu_lower x) end. lra. }
    apply Rplus_le_compat_l, Rmult_le_compat_r; [apply pow2_ge_0 | exact AP].
  Qed.

  (** Asymmetric normal distribution above an observed charge of five: its width
      is at least nine tenths of that of a Poisson distribution; below, the terms
      of a Poisson likelihood that depend on the expectation. *)
  Theorem C110_asymmetric g rows charges exclusions pulses r e c : g_charge g = VBool true ->
    get g rows charges exclusions pulses = Ok r -> 1 / 10000000 <= a_charges r e c ->
    exists llh sigma skew, a_llh r = Some llh /\ a_var r e c = a_unc r e c ^ 2 /\
      9 / 10 * sqrt (a_charges r e c) < sigma /\ 9 / 10 < skew /\
      (5 < charges e c ->
        llh e c = Fin (ln (asymmetric_gauss (charges e c) (a_charges r e c) sigma skew + 1 / 10000000)) /\
        a_unc r e c = (sigma + sigma * skew) / 2) /\
      (charges e c <= 5 ->
        llh e c = Fin (charges e c * ln (a_charges r e c + 1 / 10000000) - a_charges r e c) /\
        a_unc r e c ^ 2 = a_charges r e c + 1 / 10000000).
  Proof.
    intros GC G P. destruct (get_inv G) as (i & Q). set (out := net (map (input g) rows) e c).
    assert (M : mode g = Asymmetric) by (unfold mode; rewrite GC; reflexivity).
    pose proof (q_llh Q) as L. destruct (a_llh r) as [llh |] eqn:LL; [| congruence]. specialize (L e c).
    set (q := a_charges r e c) in *.
    set (s := sqrt (Rmax q (1 / 10000)) * sigma_scale (nth 1 out 0)). set (sk := charge_r (nth 2 out 0)).
    exists llh, s, sk. split; [reflexivity |].
    pose proof (q_var Q e c) as V. pose proof (q_unc Q e c) as U. fold out q in L, V, U. unfold charge_terms in L, V, U.
    rewrite M in L, V, U. cbn [fst snd] in L, V, U. fold s sk in L, V, U. injection L as L.
    split; [rewrite V, U; reflexivity |].
    assert (SS : 9 / 10 < sigma_scale (nth 1 out 0)).
    { unfold sigma_scale. pose proof (elu_lower (1 / 10 * nth 1 out 0 - 2)). lra. }
    assert (SK : 9 / 10 < sk) by (unfold sk, charge_r; pose proof (elu_lower (1 / 100 * nth 2 out 0 - 2)); lra).
    assert (SP : 9 / 10 * sqrt q < s).
    { unfold s. rewrite (Rmult_comm (sqrt (Rmax q (1 / 10000)))). 
      assert (A : sqrt q <= sqrt (Rmax q (1 / 10000))) by (apply sqrt_le_1_alt, Rmax_l).
      assert (B : 0 < sqrt (Rmax q (1 / 10000))) by (apply sqrt_lt_R0; pose proof (Rmax_r q (1 / 10000)); lra).
      apply Rle_lt_trans with (9 / 10 * sqrt (Rmax q (1 / 10000))); [apply Rmult_le_compat_l; lra |].
      apply Rmult_lt_compat_r; assumption. }
    assert (S0 : 0 < s) by (pose proof (sqrt_pos q); lra).
    split; [exact SP |]. split; [exact SK |]. split.
    - intros T. rewrite (proj2 (Rltb_true _ _) T) in L, U. rewrite <- L, U.
      pose proof (proj1 (C59_density (charges e c) q s sk S0 ltac:(lra))) as D. unfold elog.
      rewrite (proj2 (Rltb_true 0 _)) by lra. split; [reflexivity | field].
    - intros T. rewrite (proj2 (Rltb_false _ _) T) in L, U. rewrite <- L, U. unfold elog.
      rewrite (proj2 (Rltb_true 0 _)) by lra. cbn [escale eadd]. split; [f_equal; ring |].
      change (sqrt (q + 1 / 10000000) ^ 2) with (sqrt (q + 1 / 10000000) * (sqrt (q + 1 / 10000000) * 1)).
      rewrite Rmult_1_r. apply sqrt_sqrt. lra.
  Qed.

  (** ** C111 *)

  (** The result of the source for one event as one source among others
      (model/multi_source/base.py) *)
  Definition as_source (e : nat) (r : cascade_tensors) : tensors :=
    {| t_charges := a_charges r e; t_var := a_var r e;
       t_excl := fun c => match a_excl_sum r with Some f => f e c | None => 0 end; t_pdf := a_pdf r |}.

  (** A cascade and noise of constant density [p] per nanosecond: the combined
      density is one thousand times that of the cascade, per nanosecond, and noise
      with an expectation a thousand times smaller. *)
  Theorem C111_units g rows charges pulses r e c noise p : IsErf erf ->
    (forall inputs e c, length (net inputs e c) = g_filters g) ->
    get g rows charges None pulses = Ok r -> (e < length rows)%nat -> InDetector c ->
    exists f, TotalMass f 1 /\ (forall t, 0 < f t) /\
      forall t, exists r', get g rows charges None [{| u_event := e; u_cell := c; u_time := t |}] = Ok r' /\
        forall n, t_charges n c = noise -> t_pdf n = [p] ->
        exists co, finish [c] (accumulate [c] (accumulate [c] None (as_source e r')) n) = Ok co /\
          c_pdf co = [1000 * (a_charges r e c * f t + noise / 1000 * p) / (a_charges r e c + noise + 1 / 1000000)].
  Proof.
    intros HE SH G E C. destruct (C106_density _ _ _ _ _ _ _ HE SH G E C) as (f & D & P & T & _).
    exists (fun t => / 1000 * f t). split.
    { replace 1 with (/ 1000 * 1000) by field. apply mass_scale. exact T. }
    split; [intros t; specialize (P t); lra |].
    intros t. destruct (D t) as (r' & G' & PD). exists r'. split; [exact G' |]. intros n NC NP.
    unfold finish, accumulate. eexists. split; [reflexivity |]. cbn [c_pdf t_pdf].
    change (t_pdf (as_source e r')) with (a_pdf r'). rewrite PD, NP. unfold gather, zipw. cbn [map combine fst snd].
    cbn [t_charges]. change (t_charges (as_source e r') c) with (a_charges r' e c). rewrite NC.
    assert (CE : a_charges r' e c = a_charges r e c).
    { destruct (get_inv G) as (i & Q). destruct (get_inv G') as (i' & Q'). rewrite (q_charges Q), (q_charges Q').
      rewrite (proj2 (q_excl Q)), (proj2 (q_excl Q')). pose proof (q_eff Q) as E1. rewrite (q_eff Q') in E1.
      injection E1 as ->. reflexivity. }
    rewrite CE. unfold eps. f_equal. unfold Rdiv. generalize (/ (a_charges r e c + noise + 1 * / 1000000)). intros z. field.
  Qed.

  (** It is not proportional to the sum of the two densities per nanosecond weighted with the expected charges. *)
  Theorem C111_proportional_refuted g rows charges pulses r e c noise p : IsErf erf ->
    (forall inputs e c, length (net inputs e c) = g_filters g) ->
    get g rows charges None pulses = Ok r -> (e < length rows)%nat -> InDetector c ->
    0 < a_charges r e c -> 0 < noise -> 0 < p ->
    forall f, TotalMass f 1 -> ~ exists k, forall t, exists r' co n,
      get g rows charges None [{| u_event := e; u_cell := c; u_time := t |}] = Ok r' /\
      t_charges n c = noise /\ t_pdf n = [p] /\
      finish [c] (accumulate [c] (accumulate [c] None (as_source e r')) n) = Ok co /\
      c_pdf co = [k * (a_charges r e c * f t + noise * p)].
  Proof.
    intros HE SH G E C PC PN PP f TF (k & H).
    destruct (C111_units g rows charges pulses r e c noise p HE SH G E C) as (h & TH & HP & U).
    set (q := a_charges r e c) in *. set (b := q + noise + 1 / 1000000).
    assert (EQ : forall t, k * (q * f t + noise * p) * b = 1000 * q * h t + noise * p).
    { intros t. destruct (H t) as (r' & co & n & G' & NC & NP & F & CP).
      destruct (U t) as (r2 & G2 & F2). rewrite G' in G2. injection G2 as <-.
      destruct (F2 n NC NP) as (co2 & F3 & CP2). rewrite F in F3. injection F3 as <-. rewrite CP in CP2.
      injection CP2 as CP2. rewrite CP2. unfold b. field. unfold q in *. lra. }
    (* integrals *)
    assert (B : 0 < b) by (unfold b; lra).
    destruct (Req_dec k 0) as [K0 | K0].
    { specialize (EQ 0). rewrite K0 in EQ. specialize (HP 0). pose proof (Rmult_lt_0_compat _ _ PC HP).
      pose proof (Rmult_lt_0_compat _ _ PN PP). lra. }
    set (a := k * b). assert (A0 : a <> 0) by (unfold a; apply Rmult_integral_contrapositive; split; [exact K0 | lra]).
    assert (EQ2 : forall t, 1000 * q * h t + - (a * q) * f t = (a - 1) * noise * p).
    { intros t. specialize (EQ t). unfold a. lra. }
    assert (AE : a = 1).
    { (* otherwise the integral of a non-zero constant would be bounded *)
      destruct (Req_dec a 1) as [Z | Z]; [exact Z | exfalso].
      set (v := (a - 1) * noise * p) in *.
      assert (VN : v <> 0). { unfold v. apply Rmult_integral_contrapositive. split; [| lra].
        apply Rmult_integral_contrapositive. split; lra. }
      pose proof (mass_scale h 1 (1000 * q) TH) as M1. pose proof (mass_scale f 1 (- (a * q)) TF) as M2.
      pose proof (mass_plus _ _ _ _ M1 M2) as M3. apply (mass_ext _ (fun _ => v)) in M3; [| exact EQ2].
      exact (mass_const v _ VN M3). }
    rewrite AE in EQ2.
    assert (FH : forall t, f t = 1000 * h t).
    { intros t. specialize (EQ2 t). apply (Rmult_eq_reg_l q); lra. }
    pose proof (mass_scale h 1 1000 TH) as M. apply (mass_ext _ f) in M; [| intros t; symmetry; apply FH].
    pose proof (mass_unique _ _ _ M TF). lra.
  Qed.
End Cascade.

(** ** Witnesses *)

Section Witness.
  Variable format : string -> nat -> string.
  Variable trafo : nat -> R -> R.
  Variables mean std : nat -> R.
  Variable norm_const : R.
  Variable coords : cell -> R * R * R.
  Variables erf lgamma : R -> R.
  Variable rel_eff : cell -> R.

  (** Two components, no additional parameters *)
  Definition small (charge : value) (filters : nat) (sort scale : bool) : cascade_config :=
    {| g_labels := None; g_snowstorm := None; g_opening := true; g_coordinates := false; g_local := 0;
       g_filters := filters; g_models := 2; g_charge := charge; g_sort := sort; g_scale := scale;
       g_relative := false; g_global := false |}.
  Definition event (energy time : R) : list R := [0; 0; 0; 1; 2; energy; time].

  Notation get out := (cascade_get_tensors format trafo mean std norm_const coords (fun _ => []) erf lgamma rel_eff
    (fun _ _ _ => out)).

  Lemma small_ok charge filters sort scale out energy time charges pulses :
    (8 + n_charge (mode (small charge filters sort scale)) = filters)%nat -> ValidPulses 1 pulses ->
    exists r, get out (small charge filters sort scale) [event energy time] charges None pulses = Ok r.
  Proof.
    intros F V.
    destruct (C104_accepted format trafo mean std norm_const coords (fun _ => []) erf lgamma rel_eff (fun _ _ _ => out)
      (small charge filters sort scale) [event energy time] charges pulses) as (r & G & _).
    - reflexivity.
    - repeat constructor.
    - exact F.
    - cbn. lia.
    - discriminate.
    - exact V.
    - exists r. exact G.
  Qed.

  Lemma half_weight : (elu (1 + 1 * 0) + 100001 / 100000) /
    Rsum (map (fun v => elu (1 + 1 * v) + 100001 / 100000) [0; 0]) = 1 / 2.
  Proof.
    cbn [map]. rewrite !Rsum_cons. replace (1 + 1 * 0) with 1 by ring. rewrite elu_nonneg by lra.
    unfold Rsum. cbn [fold_right]. field.
  Qed.

  Lemma small_components filters sort scale q m1 m2 s1 s2 : -2 <= s1 -> -2 <= s2 ->
    components (small VNone filters sort scale) [q; m1; m2; s1; s2; 0; 0; 0; 0] =
      (let '(a, b) := if sort then if Rleb (1 + m1) (1 + m2) then (1 + m1, 1 + m2) else (1 + m2, 1 + m1)
                      else (1 + m1, 1 + m2) in
       [{| k_mu := a; k_sigma := s1 + 3001 / 1000; k_r := 2001 / 1000; k_scale := 1 / 2 |};
        {| k_mu := b; k_sigma := s2 + 3001 / 1000; k_r := 2001 / 1000; k_scale := 1 / 2 |}]).
  Proof.
    intros S1 S2. unfold components.
    change (n_charge (mode (small VNone filters sort scale))) with 1%nat. change (g_models (small VNone filters sort scale)) with 2%nat.
    change (g_sort (small VNone filters sort scale)) with sort.
    change (slice (1 + 0 * 2) 2 [q; m1; m2; s1; s2; 0; 0; 0; 0]) with [m1; m2].
    change (slice (1 + 1 * 2) 2 [q; m1; m2; s1; s2; 0; 0; 0; 0]) with [s1; s2].
    change (slice (1 + 2 * 2) 2 [q; m1; m2; s1; s2; 0; 0; 0; 0]) with [0; 0].
    change (slice (1 + 3 * 2) 2 [q; m1; m2; s1; s2; 0; 0; 0; 0]) with [0; 0].
    cbv zeta. cbn [seq map nth].
    change [elu (1 + 1 * 0) + 100001 / 100000; elu (1 + 1 * 0) + 100001 / 100000]
      with (map (fun v => elu (1 + 1 * v) + 100001 / 100000) [0; 0]).
    rewrite half_weight. replace (1 + 1 * 0) with 1 by ring.
    replace (1 + 1 * m1) with (1 + m1) by ring. replace (1 + 1 * m2) with (1 + m2) by ring.
    replace (2 + 1 * s1) with (2 + s1) by ring. replace (2 + 1 * s2) with (2 + s2) by ring.
    rewrite !elu_nonneg by lra. replace (1 + 1001 / 1000) with (2001 / 1000) by field.
    replace (2 + s1 + 1001 / 1000) with (s1 + 3001 / 1000) by field. replace (2 + s2 + 1001 / 1000) with (s2 + 3001 / 1000) by field.
    unfold M_Gof.sort. cbn [fold_right M_Gof.insert]. destruct sort; [| reflexivity].
    destruct (Rleb (1 + m1) (1 + m2)); reflexivity.
  Qed.

  (** C108: the density with excluded windows is not the density given that the
      pulse is in an allowed time; also the ratio of the densities at two allowed
      times changes. *)
  Theorem C108_conditional_refuted : IsErf erf -> exists out g row x f f' t1 t2,
    (exists r, get out g [row] (fun _ _ => 0) (Some [x]) [] = Ok r) /\
    IsDensity (get out g [row] (fun _ _ => 0) None) 0 (0, 0)%nat f /\
    IsDensity (get out g [row] (fun _ _ => 0) (Some [x])) 0 (0, 0)%nat f' /\
    ~ Excluded [x] 0 (0, 0)%nat t1 /\ ~ Excluded [x] 0 (0, 0)%nat t2 /\ f' t1 / f t1 <> f' t2 / f t2.
  Proof.
    intros HE. set (g := small VNone 9 false false). set (out := [0; -1; 0; 0; 0; 0; 0; 0; 0]). set (row := event 1 0).
    destruct (small_ok VNone 9 false false out 1 0 (fun _ _ => 0) [] eq_refl ltac:(constructor)) as (r0 & G).
    fold g row in G.
    assert (SH : forall (inputs : list (list (list R))) (e : nat) (c : cell), length out = g_filters g) by reflexivity.
    assert (ID : InDetector (0, 0)%nat) by (split; cbn; lia).
    set (k1 := {| k_mu := 0; k_sigma := 3001 / 1000; k_r := 2001 / 1000; k_scale := 1 / 2 |}).
    set (k2 := {| k_mu := 1; k_sigma := 3001 / 1000; k_r := 2001 / 1000; k_scale := 1 / 2 |}).
    assert (KS : the_comps trafo mean std norm_const coords (fun _ => []) (fun _ _ _ => out) g [row] 0 (0, 0)%nat = [k1; k2]).
    { unfold the_comps, out, g. rewrite small_components by lra. cbv iota beta.
      replace (1 + -1) with 0 by ring. replace (1 + 0) with 1 by ring. replace (0 + 3001 / 1000) with (3001 / 1000) by ring.
      reflexivity. }
    assert (TC : the_time [row] 0 = 0) by reflexivity.
    set (F := fun mu x => asymmetric_gauss_cdf erf x mu (3001 / 1000) (2001 / 1000)).
    assert (S0 : 0 < 3001 / 1000) by lra. assert (R0 : 0 < 2001 / 1000) by lra.
    assert (FM : forall mu, F mu mu = 1 / (2001 / 1000 + 1)) by (intros mu; exact (proj2 (C59_range erf HE mu mu _ _ S0 R0))).
    assert (LT : F 1 0 < F 0 0).
    { rewrite FM, <- (FM 1). apply (C59_increasing erf HE); lra. }
    destruct (proj1 (C59_limits erf HE 0 _ _ S0 R0) ((F 0 0 - F 1 0) / 2) ltac:(lra)) as (m & M).
    set (h := Rmax 1 (1 - m)). assert (H1 : 1 <= h) by apply Rmax_l.
    assert (H2 : - h < m) by (unfold h; pose proof (Rmax_r 1 (1 - m)); lra).
    specialize (M (- h) H2). fold (F 0 (- h)) in M. rewrite Rminus_0_r in M. apply Rabs_def2 in M.
    assert (FP : forall mu x, 0 < F mu x) by (intros mu x; exact (proj1 (proj1 (C59_range erf HE x mu _ _ S0 R0)))).
    set (x := {| x_event := 0%nat; x_cell := (0, 0)%nat; x_start := - (1000 * h); x_stop := 0 |}).
    assert (O : Ordered [x]) by (constructor; [cbn; lra | constructor]).
    assert (SE : Separate [x]) by (repeat constructor).
    assert (VW : ValidWindows (length [row]) [x]) by (constructor; [split; [cbn; lia | exact ID] | constructor]).
    set (e1 := ex erf 0 [x] 0 (0, 0)%nat k1). set (e2 := ex erf 0 [x] 0 (0, 0)%nat k2).
    assert (EX : forall k, ex erf 0 [x] 0 (0, 0)%nat k = tw_cdf erf 0 k x + 0) by reflexivity.
    assert (E1 : e1 = F 0 0 - F 0 (- h)).
    { unfold e1. rewrite EX. unfold tw_cdf, F, k1, x. cbn [x_stop x_start k_mu k_sigma k_r].
      replace ((0 - 0) * (1 / 1000)) with 0 by field. replace ((- (1000 * h) - 0) * (1 / 1000)) with (- h) by field. ring. }
    assert (E2 : e2 = F 1 0 - F 1 (- h)).
    { unfold e2. rewrite EX. unfold tw_cdf, F, k2, x. cbn [x_stop x_start k_mu k_sigma k_r].
      replace ((0 - 0) * (1 / 1000)) with 0 by field. replace ((- (1000 * h) - 0) * (1 / 1000)) with (- h) by field. ring. }
    pose proof (FP 1 (- h)) as FP1.
    assert (E12 : e2 < e1) by lra.
    assert (W1 : wide k1) by (split; cbn; lra). assert (W2 : wide k2) by (split; cbn; lra).
    pose proof (ex_range erf HE 0 [x] 0 (0, 0)%nat k1 W1 O SE) as X1. fold e1 in X1.
    pose proof (ex_range erf HE 0 [x] 0 (0, 0)%nat k2 W2 O SE) as X2. fold e2 in X2.
    pose proof (none_density format trafo mean std norm_const coords (fun _ => []) erf lgamma rel_eff (fun _ _ _ => out)
      g [row] (fun _ _ => 0) [] r0 0 (0, 0)%nat HE SH G ltac:(cbn; lia) ID) as D.
    pose proof (some_density format trafo mean std norm_const coords (fun _ => []) erf lgamma rel_eff (fun _ _ _ => out)
      g [row] (fun _ _ => 0) [] r0 0 (0, 0)%nat [x] HE SH G ltac:(cbn; lia) ID O SE VW) as D'.
    rewrite KS, TC in D, D'. exists out, g, row, x. eexists. eexists. exists 0, 1000.
    split. { exact (get_again (fun _ _ => 0) (Some [x]) [] HE SH G (conj O (conj SE VW)) ltac:(constructor)). }
    split; [exact D |]. split; [exact D' |].
    split. { intros (y & [<- | []] & _ & _ & Y). cbn in Y. lra. }
    split. { intros (y & [<- | []] & _ & _ & Y). cbn in Y. lra. }
    cbn [map]. rewrite !Rsum_cons. unfold Rsum. cbn [fold_right]. fold e1 e2.
    assert (P : forall k t, wide k -> 0 < fk 0 k t) by (intros k t W; exact (d_pos _ _ _ (fk_dist erf HE 0 k W) t)).
    assert (N : forall mu t, fk 0 {| k_mu := mu; k_sigma := 3001 / 1000; k_r := 2001 / 1000; k_scale := 1 / 2 |} t
      = asymmetric_gauss (t / 1000) mu (3001 / 1000) (2001 / 1000)).
    { intros mu t. unfold fk. cbn [k_mu k_sigma k_r]. f_equal. field. }
    pose proof (P k1 0 W1) as P11. pose proof (P k1 1000 W1) as P12. pose proof (P k2 0 W2) as P21. pose proof (P k2 1000 W2) as P22.
    assert (A1 : fk 0 k1 1000 < fk 0 k1 0).
    { unfold k1. rewrite !N. unfold asymmetric_gauss. cbv zeta. rewrite (proj2 (Rltb_false (1000 / 1000) 0)) by lra.
      rewrite (proj2 (Rltb_false (0 / 1000) 0)) by lra. apply Rmult_lt_compat_l; [apply norm_pos; lra |].
      apply exp_increasing. replace (0 / 1000 - 0) with 0 by field. replace (1000 / 1000 - 0) with 1 by field.
      set (z := 3001 / 1000 * (2001 / 1000)). assert (Z : 0 < 1 / z) by (unfold z; apply Rdiv_lt_0_compat; lra).
      pose proof (pow_lt (1 / z) 2 Z). replace (0 / z) with 0 by (unfold Rdiv; ring). lra. }
    assert (A2 : fk 0 k2 0 < fk 0 k2 1000).
    { unfold k2. rewrite !N. unfold asymmetric_gauss. cbv zeta. rewrite (proj2 (Rltb_true (0 / 1000) 1)) by lra.
      rewrite (proj2 (Rltb_false (1000 / 1000) 1)) by lra. apply Rmult_lt_compat_l; [apply norm_pos; lra |].
      apply exp_increasing. replace (0 / 1000 - 1) with (-1) by field. replace (1000 / 1000 - 1) with 0 by field.
      assert (Z : 0 < (-1 / (3001 / 1000)) ^ 2) by (replace ((-1 / (3001 / 1000)) ^ 2) with ((1 / (3001 / 1000)) ^ 2) by field; apply pow_lt; lra).
      replace (0 / (3001 / 1000 * (2001 / 1000))) with 0 by (unfold Rdiv; ring). lra. }
    set (p11 := fk 0 k1 0) in *. set (p12 := fk 0 k1 1000) in *. set (p21 := fk 0 k2 0) in *. set (p22 := fk 0 k2 1000) in *.
    change (k_scale k1) with (1 / 2). change (k_scale k2) with (1 / 2).
    clearbody p11 p12 p21 p22 e1 e2. intros Z.
    set (a1 := / (1 - e1 + 1 / 1000)). set (a2 := / (1 - e2 + 1 / 1000)).
    assert (AA : a2 < a1) by (unfold a1, a2; apply Rinv_lt_contravar; [apply Rmult_lt_0_compat; lra | lra]).
    replace (1 / 2 / (1 - e1 + 1 / 1000)) with (1 / 2 * a1) in Z by (unfold a1; field; lra).
    replace (1 / 2 / (1 - e2 + 1 / 1000)) with (1 / 2 * a2) in Z by (unfold a2; field; lra).
    clearbody a1 a2.
    assert (Z' : (a1 * p11 + a2 * p21) * (p12 + p22) = (a1 * p12 + a2 * p22) * (p11 + p21)).
    { apply (f_equal (fun v => v * ((p11 + p21) * (p12 + p22)))) in Z.
      replace ((1 / 2 * a1 * p11 + (1 / 2 * a2 * p21 + 0)) / (1 / 2 * p11 + (1 / 2 * p21 + 0)) * ((p11 + p21) * (p12 + p22)))
        with ((a1 * p11 + a2 * p21) * (p12 + p22)) in Z by (field; lra).
      rewrite Z. field. lra. }
    assert (W : (a1 - a2) * (p11 * p22 - p12 * p21) = 0) by lra.
    apply Rmult_integral in W. destruct W as [W | W]; [lra |].
    assert (p12 * p21 < p11 * p22) by (apply Rmult_le_0_lt_compat; lra). lra.
  Qed.

  (** C109: sorting changes the density if the components differ in their widths. *)
  Theorem C109_density_refuted : IsErf erf -> exists out g row f f' t,
    g_sort g = true /\
    IsDensity (get out g [row] (fun _ _ => 0) None) 0 (0, 0)%nat f /\
    IsDensity (get out (with_sort false g) [row] (fun _ _ => 0) None) 0 (0, 0)%nat f' /\ f t <> f' t.
  Proof.
    intros HE. set (out := [0; 1; -1; - (1001 / 1000); 999 / 1000; 0; 0; 0; 0]). set (row := event 1 0).
    assert (ID : InDetector (0, 0)%nat) by (split; cbn; lia).
    destruct (small_ok VNone 9 true false out 1 0 (fun _ _ => 0) [] eq_refl ltac:(constructor)) as (r & G).
    destruct (small_ok VNone 9 false false out 1 0 (fun _ _ => 0) [] eq_refl ltac:(constructor)) as (r' & G').
    fold row in G, G'.
    pose proof (none_density format trafo mean std norm_const coords (fun _ => []) erf lgamma rel_eff (fun _ _ _ => out)
      (small VNone 9 true false) [row] (fun _ _ => 0) [] r 0 (0, 0)%nat HE (fun _ _ _ => eq_refl) G ltac:(cbn; lia) ID) as D.
    pose proof (none_density format trafo mean std norm_const coords (fun _ => []) erf lgamma rel_eff (fun _ _ _ => out)
      (small VNone 9 false false) [row] (fun _ _ => 0) [] r' 0 (0, 0)%nat HE (fun _ _ _ => eq_refl) G' ltac:(cbn; lia) ID) as D'.
    exists out, (small VNone 9 true false), row. eexists. eexists. exists 0.
    split; [reflexivity |]. split; [exact D |]. split; [exact D' |]. clear D D'.
    change (the_time [row] 0) with 0. unfold the_comps, out. rewrite !small_components by lra.
    rewrite (proj2 (Rleb_false (1 + 1) (1 + -1))) by lra. cbv iota beta zeta. cbn [map]. rewrite !Rsum_cons.
    unfold Rsum. cbn [fold_right k_scale].
    replace (1 + -1) with 0 by ring. replace (1 + 1) with 2 by ring.
    replace (- (1001 / 1000) + 3001 / 1000) with 2 by field. replace (999 / 1000 + 3001 / 1000) with 4 by field.
    unfold fk. cbn [k_mu k_sigma k_r]. replace ((0 - 0) * (1 / 1000)) with 0 by field.
    unfold asymmetric_gauss. cbv zeta. rewrite (proj2 (Rltb_false 0 0)) by lra. rewrite (proj2 (Rltb_true 0 2)) by lra.
    set (n2 := 2 / (sqrt (2 * PI * 2 ^ 2) * (2001 / 1000 + 1))). set (n4 := 2 / (sqrt (2 * PI * 4 ^ 2) * (2001 / 1000 + 1))).
    pose proof PI_RGT_0 as PP.
    assert (N4 : 0 < n4) by (unfold n4; apply norm_pos; lra).
    assert (NN : n4 < n2).
    { unfold n4, n2. assert (Q2 : 0 < sqrt (2 * PI * 2 ^ 2)) by (apply sqrt_lt_R0; lra).
      assert (Q4 : sqrt (2 * PI * 2 ^ 2) < sqrt (2 * PI * 4 ^ 2)) by (apply sqrt_lt_1_alt; lra).
      apply Rmult_lt_compat_l; [lra |]. apply Rinv_lt_contravar.
      - apply Rmult_lt_0_compat; apply Rmult_lt_0_compat; lra.
      - apply Rmult_lt_compat_r; lra. }
    replace (- (1 / 2) * ((0 - 0) / (2 * (2001 / 1000))) ^ 2) with 0 by field.
    replace (- (1 / 2) * ((0 - 0) / (4 * (2001 / 1000))) ^ 2) with 0 by field.
    replace (- (1 / 2) * ((0 - 2) / 4) ^ 2) with (- (1 / 8)) by field.
    replace (- (1 / 2) * ((0 - 2) / 2) ^ 2) with (- (1 / 2)) by field. rewrite exp_0.
    assert (E1 : exp (- (1 / 2)) < exp (- (1 / 8))) by (apply exp_increasing; lra).
    pose proof (exp_increasing (- (1 / 8)) 0 ltac:(lra)) as E2. rewrite exp_0 in E2.
    clearbody n2 n4. intros Z.
    assert (n4 * (1 - exp (- (1 / 8))) < n2 * (1 - exp (- (1 / 2)))) by (apply Rmult_le_0_lt_compat; lra). lra.
  Qed.

  (** C110: a negative energy gives a negative expected charge. *)
  Theorem C110_negative_refuted : exists out g row r,
    get out g [row] (fun _ _ => 0) None [] = Ok r /\ a_charges r 0 (0, 0)%nat < 0.
  Proof.
    set (out := [0; 0; 0; 0; 0; 0; 0; 0; 0]).
    destruct (small_ok VNone 9 false true out (-20000) 0 (fun _ _ => 0) [] eq_refl ltac:(constructor)) as (r & G).
    exists out, (small VNone 9 false true), (event (-20000) 0), r. split; [exact G |].
    destruct (C110_charge format trafo mean std norm_const coords (fun _ => []) erf lgamma rel_eff (fun _ _ _ => out)
      _ _ _ _ _ 0 (0, 0)%nat G) as (eff & _ & C). rewrite C. unfold out. cbn [nth small g_scale g_relative g_global event].
    rewrite exp_0. lra.
  Qed.

  (** C110: the likelihood of a charge can exceed one. *)
  Theorem C110_exceeds_refuted : exists out g row charges r llh v,
    get out g [row] charges None [] = Ok r /\ a_llh r = Some llh /\ charges 0%nat (0, 0)%nat = 5 /\
    a_charges r 0 (0, 0)%nat = 5 /\ llh 0%nat (0, 0)%nat = Fin v /\ 1 < exp v.
  Proof.
    set (out := [ln (5 - 1 / 10000000); 20; 200; 0; 0; 0; 0; 0; 0; 0; 0]).
    destruct (small_ok (VBool true) 11 false false out 1 0 (fun _ _ => 5) [] eq_refl ltac:(constructor)) as (r & G).
    destruct (C110_charge format trafo mean std norm_const coords (fun _ => []) erf lgamma rel_eff (fun _ _ _ => out)
      _ _ _ _ _ 0 (0, 0)%nat G) as (eff & _ & C). unfold out in C. cbn [nth small g_scale g_relative g_global] in C.
    rewrite exp_ln in C by lra.
    assert (C5 : a_charges r 0 (0, 0)%nat = 5) by (rewrite C; field). clear C.
    destruct (C110_asymmetric format trafo mean std norm_const coords (fun _ => []) erf lgamma rel_eff (fun _ _ _ => out)
      (small (VBool true) 11 false false) _ _ _ _ _ 0 (0, 0)%nat eq_refl G ltac:(rewrite C5; lra)) as (llh & s & k & L & _ & _ & _ & _ & LE).
    destruct (LE ltac:(cbn beta; lra)) as (LL & _). cbn beta in LL. rewrite C5 in LL.
    exists out, (small (VBool true) 11 false false), (event 1 0), (fun _ _ => 5), r, llh. eexists.
    split; [exact G |]. split; [exact L |]. split; [reflexivity |]. split; [exact C5 |]. split; [exact LL |].
    rewrite <- exp_0 at 1. apply exp_increasing.
    assert (1 < ln (5 + 1 / 10000000)); [| lra].
    rewrite <- (ln_exp 1) at 1. apply ln_increasing; [apply exp_pos |]. pose proof exp_le_3. lra.
  Qed.

  (** C110: the uncertainty of the expected charge depends on the observed charge. *)
  Theorem C110_uncertainty_refuted : exists out g row charges charges' r r',
    get out g [row] charges None [] = Ok r /\ get out g [row] charges' None [] = Ok r' /\
    a_charges r 0 (0, 0)%nat = a_charges r' 0 (0, 0)%nat /\ a_unc r 0 (0, 0)%nat <> a_unc r' 0 (0, 0)%nat.
  Proof.
    set (out := [0; 20; 200; 0; 0; 0; 0; 0; 0; 0; 0]).
    destruct (small_ok (VBool true) 11 false false out 1 0 (fun _ _ => 5) [] eq_refl ltac:(constructor)) as (r & G).
    destruct (small_ok (VBool true) 11 false false out 1 0 (fun _ _ => 6) [] eq_refl ltac:(constructor)) as (r' & G').
    exists out, (small (VBool true) 11 false false), (event 1 0), (fun _ _ => 5), (fun _ _ => 6), r, r'.
    split; [exact G |]. split; [exact G' |].
    destruct (C110_charge format trafo mean std norm_const coords (fun _ => []) erf lgamma rel_eff (fun _ _ _ => out)
      _ _ _ _ _ 0 (0, 0)%nat G) as (eff & _ & C). unfold out in C. cbn [nth small g_scale g_relative g_global] in C.
    destruct (C110_charge format trafo mean std norm_const coords (fun _ => []) erf lgamma rel_eff (fun _ _ _ => out)
      _ _ _ _ _ 0 (0, 0)%nat G') as (eff' & _ & C'). unfold out in C'. cbn [nth small g_scale g_relative g_global] in C'.
    rewrite exp_0 in C, C'. set (q := 1 + 1 / 10000000).
    assert (Q : a_charges r 0 (0, 0)%nat = q) by (rewrite C; unfold q; ring).
    assert (Q' : a_charges r' 0 (0, 0)%nat = q) by (rewrite C'; unfold q; ring).
    split; [rewrite Q, Q'; reflexivity |].
    destruct (get_inv G) as (i & RR). destruct (get_inv G') as (i' & RR'). rewrite (q_unc RR), (q_unc RR'), Q, Q'.
    unfold charge_terms. change (mode (small (VBool true) 11 false false)) with Asymmetric. cbn [fst].
    rewrite (proj2 (Rltb_false 5 5)) by lra. rewrite (proj2 (Rltb_true 5 6)) by lra.
    unfold out. cbn [nth]. unfold sigma_scale, charge_r. rewrite !elu_nonneg by lra.
    rewrite Rmax_left by (unfold q; lra). intros Z.
    assert (S : sqrt (q + 1 / 10000000) < sqrt (4 * q)) by (apply sqrt_lt_1_alt; unfold q; lra).
    rewrite sqrt_mult in S by (unfold q; lra). replace (sqrt 4) with 2 in S.
    2:{ replace 4 with (2 * 2) by ring. symmetry. apply sqrt_square. lra. }
    assert (0 < sqrt q) by (apply sqrt_lt_R0; unfold q; lra). lra.
  Qed.

  (** *** Examples *)

  (** The hypotheses of C104-C111: a batch of one event is accepted, its density
      exists, two excluded windows, shifted and turned parameters. *)
  Definition out9 : list R := [1; 0; 1; 0; 0; 0; 0; 0; 0].
  Definition windows2 : list exclusion :=
    [{| x_event := 0%nat; x_cell := (3, 5)%nat; x_start := 100; x_stop := 200 |};
     {| x_event := 0%nat; x_cell := (3, 5)%nat; x_start := 200; x_stop := 250 |}].

  Example accepted_event : exists r, get out9 (small VNone 9 true true) [event 1000 50] (fun _ _ => 2) None
    [{| u_event := 0%nat; u_cell := (3, 5)%nat; u_time := 300 |}] = Ok r /\ length out9 = g_filters (small VNone 9 true true).
  Proof.
    destruct (small_ok VNone 9 true true out9 1000 50 (fun _ _ => 2) [{| u_event := 0%nat; u_cell := (3, 5)%nat; u_time := 300 |}]
      eq_refl) as (r & G); [repeat constructor; cbn; lia |]. exists r. split; [exact G | reflexivity].
  Qed.

  Example separate_windows : Ordered windows2 /\ Separate windows2 /\ ValidWindows 1 windows2.
  Proof.
    split; [repeat constructor; cbn; lra |]. split; [| repeat constructor; cbn; lia].
    constructor; [| repeat constructor]. constructor; [| constructor]. intros _ _. left. cbn. lra.
  Qed.

  Example shifted_event : Shifted 25 (event 1000 50) (event 1000 75).
  Proof. split; [reflexivity |]. intros i I. cbn in I. do 7 (destruct i as [| i]; [cbn; ring |]). lia. Qed.

  Example turned_event : Turned (event 1000 50) [0; 0; 0; Ropp 1; 2 + PI; 1000; 50].
  Proof.
    split; [reflexivity |]. split.
    - intros i N3 N4. do 7 (destruct i as [| i]; [try contradiction; try reflexivity |]). reflexivity.
    - cbn [nth event]. rewrite sin_neg, cos_neg, neg_cos, neg_sin. repeat split; ring.
  Qed.

  Example negative_binomial_event : exists r, get [1; 0; 0; 1; 0; 0; 0; 0; 0; 0] (small (VStr "negative_binomial") 10 false true)
    [event 1000 50] (fun _ _ => 2) None [] = Ok r /\ 0 < a_charges r 0 (3, 5)%nat.
  Proof.
    destruct (small_ok (VStr "negative_binomial") 10 false true [1; 0; 0; 1; 0; 0; 0; 0; 0; 0] 1000 50 (fun _ _ => 2) [] eq_refl)
      as (r & G); [constructor |]. exists r. split; [exact G |].
    destruct (C110_charge _ _ _ _ _ _ _ _ _ _ _ _ _ _ _ _ 0 (3, 5)%nat G) as (eff & _ & C). rewrite C.
    cbn [nth small g_scale g_relative g_global event]. pose proof (exp_pos 1). lra.
  Qed.
End Witness.
Print Assumptions C104_accepted.
Print Assumptions C104_names.
Print Assumptions C104_rejected.
Print Assumptions C104_translation.
Print Assumptions C104_direction.
Print Assumptions C105_layout.
Print Assumptions C105_rejected.
Print Assumptions C105_modes.
Print Assumptions C106_mixture.
Print Assumptions C106_density.
Print Assumptions C106_pulses.
Print Assumptions C107_charge.
Print Assumptions C107_share.
Print Assumptions C107_double_refuted.
Print Assumptions C108_mass.
Print Assumptions C108_other_doms.
Print Assumptions C109_sorted.
Print Assumptions C109_ordered.
Print Assumptions C110_charge.
Print Assumptions C110_positive.
Print Assumptions C110_poisson.
Print Assumptions C110_negative_binomial.
Print Assumptions C110_asymmetric.
Print Assumptions C111_units.
Print Assumptions C111_proportional_refuted.
Print Assumptions C108_conditional_refuted.
Print Assumptions C109_density_refuted.
Print Assumptions C110_negative_refuted.
Print Assumptions C110_exceeds_refuted.
Print Assumptions C110_uncertainty_refuted.
Print Assumptions C110_overdispersed.
