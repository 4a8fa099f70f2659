(** Properties of the cascade source for charge quantiles: accepted configurations
    (C149), charges (C150), density of the pulse times (C151), components and
    inputs of the second network (C152), invariances (C153). *)
From Coq Require Import Reals Lra Lia.
From Verif Require Import Py PyFacts PyStr RList M_Source S_Source L_Source M_Basis S_Basis T_Basis M_Noise S_Noise L_Noise
  M_Cascade S_Cascade L_Cascade T_Cascade M_Quantile S_Quantile L_Quantile.
From Verif Require L_Systematic.
Open Scope R_scope.

Section Quantile.
  Variable format : string -> nat -> string.
  Variable trafo : nat -> R -> R.
  Variables mean std : nat -> R.
  Variable norm_const : R.
  Variable coords : cell -> R * R * R.
  Variable local_vars : cell -> list R.
  Variable lgamma : R -> R.
  Variable rel_eff : cell -> R.
  Variable net : list (list (list R)) -> nat -> cell -> list R.
  Variable fcnet : list (list R) -> nat -> list R.

  Notation qget := (quantile_get_tensors format trafo mean std norm_const coords local_vars lgamma rel_eff net fcnet).
  Notation input := (event_input trafo mean std norm_const coords local_vars).
  Notation names z := (quantile_names format z).
  Notation qfits := (QFits local_vars net fcnet).
  Notation inv := (qget_inv format trafo mean std norm_const coords local_vars lgamma rel_eff net fcnet).

  (** ** C149 *)

  (** A single component is enough, unlike for the default cascade. *)
  Theorem C149_accepted z rows charges pulses : qfits z rows ->
    (n_charge (mode (z_base z)) <= g_filters (z_base z))%nat ->
    (4 * g_models (z_base z) = z_fc_filters z)%nat -> (1 <= g_models (z_base z))%nat ->
    (g_global (z_base z) = true -> In "DOMEfficiency"%string (names z)) ->
    QValid (length rows) pulses ->
    exists r, qget z rows charges pulses = Ok r /\ length (w_pdf r) = length pulses.
  Proof.
    intros F NC LAY M EF V.
    assert (X : exists i, (if g_global (z_base z) then name_index (names z) "DOMEfficiency" else Ok 0%nat) = Ok i).
    { destruct (g_global (z_base z)); [apply L_Systematic.index_in; auto | eexists; reflexivity]. }
    destruct X as (i & X).
    destruct (qget_some format trafo mean std norm_const coords local_vars lgamma rel_eff net fcnet z rows charges pulses i
      F NC LAY M X V) as (r & G).
    exists r. split; [exact G |]. destruct (inv _ _ _ _ _ G) as (i' & Q). exact (o_length _ _ _ _ _ _ _ _ _ _ _ _ _ _ _ _ _ Q).
  Qed.

  (** Other numbers of filters are rejected, ... *)
  Theorem C149_layout z rows charges pulses : qfits z rows ->
    (g_global (z_base z) = true -> In "DOMEfficiency"%string (names z)) ->
    (g_filters (z_base z) < n_charge (mode (z_base z)) \/ 4 * g_models (z_base z) <> z_fc_filters z
     \/ g_models (z_base z) = 0)%nat ->
    qget z rows charges pulses = Err ValueError.
  Proof.
    intros (SH & LV & LN & LF) EF H.
    assert (SH' : Forall (fun row => length row = num_parameters (plain z)) rows) by (rewrite plain_parameters; exact SH).
    destruct (shape_ok trafo mean std norm_const coords local_vars (plain z) rows SH' LV) as (E7 & EW).
    unfold quantile_get_tensors. rewrite E7, EW. rewrite plain_mode.
    change (g_filters (plain z)) with (g_filters (z_base z)). change (g_global (plain z)) with (g_global (z_base z)).
    change (g_models (plain z)) with (g_models (z_base z)).
    destruct (Nat.ltb_spec (g_filters (z_base z)) (n_charge (mode (z_base z)))) as [F | F]; [reflexivity |].
    assert (X : exists i, (if g_global (z_base z) then name_index (names z) "DOMEfficiency" else Ok 0%nat) = Ok i).
    { destruct (g_global (z_base z)); [apply L_Systematic.index_in; auto | eexists; reflexivity]. }
    destruct X as (i & X). rewrite X. cbn [bind].
    destruct (Nat.eqb_spec (g_models (z_base z) * 4) (z_fc_filters z)) as [L | L]; [| reflexivity]. cbn [negb].
    destruct (Nat.ltb_spec (g_models (z_base z)) 1) as [M | M]; [reflexivity |]. lia.
  Qed.

  (** ... as are rows of another length ... *)
  Theorem C149_rows z rows charges pulses row : (forall c, length (local_vars c) = g_local (z_base z)) ->
    In row rows -> length row <> quantile_parameters z ->
    qget z rows charges pulses = Err IndexError \/ qget z rows charges pulses = Err ValueError.
  Proof.
    intros LV I N. unfold quantile_get_tensors.
    destruct (existsb (fun row => Nat.ltb (length row) 7) rows) eqn:S; [left; reflexivity | right].
    rewrite <- plain_parameters in N.
    rewrite (shape_err trafo mean std norm_const coords local_vars (plain z) rows row I N LV S). reflexivity.
  Qed.

  (** ... and, if the charge is to be scaled by it, a missing efficiency. *)
  Theorem C149_efficiency z rows charges pulses : qfits z rows ->
    (n_charge (mode (z_base z)) <= g_filters (z_base z))%nat ->
    g_global (z_base z) = true -> ~ In "DOMEfficiency"%string (names z) ->
    qget z rows charges pulses = Err KeyError.
  Proof.
    intros (SH & LV & LN & LF) NC GG NI.
    assert (SH' : Forall (fun row => length row = num_parameters (plain z)) rows) by (rewrite plain_parameters; exact SH).
    destruct (shape_ok trafo mean std norm_const coords local_vars (plain z) rows SH' LV) as (E7 & EW).
    unfold quantile_get_tensors. rewrite E7, EW. rewrite plain_mode.
    change (g_filters (plain z)) with (g_filters (z_base z)). change (g_global (plain z)) with (g_global (z_base z)).
    destruct (Nat.ltb_spec (g_filters (z_base z)) (n_charge (mode (z_base z)))) as [F | F]; [lia |]. rewrite GG.
    assert (X : name_index (names z) "DOMEfficiency" = Err KeyError).
    { destruct (name_index (names z) "DOMEfficiency") as [i |] eqn:E.
      - apply name_index_nth in E. apply nth_error_In in E. contradiction.
      - unfold name_index, lookup in E. destruct (dget _ _); [discriminate | injection E as <-]. reflexivity. }
    rewrite X. reflexivity.
  Qed.

  (** ** C150 *)

  (** The charges and their distributions are those of a default cascade whose
      network computes the same charge variables. *)
  Theorem C150_default z rows charges pulses r erf net' g' pulses' r' :
    SameOptions (z_base z) g' ->
    (forall e c, firstn (n_charge (mode (z_base z))) (net' (map (input g') rows) e c)
                 = firstn (n_charge (mode (z_base z))) (net (map (input g') rows) e c)) ->
    qget z rows charges pulses = Ok r ->
    cascade_get_tensors format trafo mean std norm_const coords local_vars erf lgamma rel_eff net' g' rows charges None pulses' = Ok r' ->
    forall e c, w_charges r e c = a_charges r' e c /\ w_unc r e c = a_unc r' e c /\ w_var r e c = a_var r' e c /\
      match w_llh r, a_llh r' with Some f, Some f' => f e c = f' e c | None, None => True | _, _ => False end.
  Proof.
    intros (O1 & O2 & O3 & O4 & O5 & O6 & O7 & O8 & O9) NE G G'. destruct (inv _ _ _ _ _ G) as (i & Q).
    destruct (get_inv G') as (i' & Q'). intros e c. destruct Q, Q'.
    assert (IN : map (input g') rows = map (input (plain z)) rows).
    { apply map_ext. intros row. unfold event_input. apply map_ext. intros c0. unfold dom_input, plain. cbn [g_opening g_coordinates].
      rewrite O3, O4. reflexivity. }
    assert (NN : quantile_names format z = cascade_names format g').
    { unfold quantile_names, cascade_names, plain. cbn [g_labels g_snowstorm]. rewrite O1, O2. reflexivity. }
    assert (MO : mode g' = mode (plain z)) by (unfold mode, plain; cbn [g_charge]; rewrite O6; reflexivity).
    assert (II : i' = i) by (rewrite O9, <- NN in q_eff; congruence).
    set (nc := n_charge (mode (z_base z))) in *.
    assert (NT : forall k, (k < nc)%nat -> nth k (net' (map (input g') rows) e c) 0 = nth k (q_out trafo mean std norm_const coords local_vars net z rows e c) 0).
    { intros k K. rewrite <- (nth_firstn_lt _ nc k 0 K), NE, (nth_firstn_lt _ nc k 0 K), IN. reflexivity. }
    assert (N1 : (0 < nc)%nat) by (unfold nc; destruct (mode (z_base z)); cbn; lia).
    assert (C : w_charges r e c = a_charges r' e c).
    { rewrite o_charges, q_charges, (proj2 q_excl). unfold q_charge, the_raw. subst i'. f_equal. unfold raw_charge.
      rewrite O7, O8, O9, (NT 0%nat N1). reflexivity. }
    assert (T : charge_terms lgamma g' (net' (map (input g') rows) e c) (a_charges r' e c) (charges e c)
      = charge_terms lgamma (plain z) (q_out trafo mean std norm_const coords local_vars net z rows e c) (w_charges r e c) (charges e c)).
    { rewrite <- C. unfold charge_terms. rewrite MO. change (mode (plain z)) with (mode (z_base z)).
      destruct (mode (z_base z)) eqn:M; unfold nc in NT; try rewrite M in NT; cbn [n_charge] in NT; try reflexivity.
      - rewrite (NT 1%nat), (NT 2%nat) by lia. reflexivity.
      - rewrite (NT 1%nat) by lia. reflexivity. }
    split; [exact C |]. split; [rewrite o_unc, q_unc, T; reflexivity |]. split; [rewrite o_var, q_var, T; reflexivity |].
    destruct (w_llh r) as [f |], (a_llh r') as [f' |].
    - destruct o_llh as (_ & L). specialize (L e c). specialize (q_llh e c). rewrite T in q_llh. congruence.
    - destruct o_llh as (L & _). congruence.
    - specialize (q_llh e c). unfold charge_terms in q_llh. rewrite MO, o_llh in q_llh. discriminate q_llh.
    - exact I.
  Qed.

  Theorem C150_charge z rows charges pulses r e c : qget z rows charges pulses = Ok r ->
    exists eff, (g_global (z_base z) = true -> exists i, nth_error (names z) i = Some "DOMEfficiency"%string /\
                                     eff = nth i (nth e rows []) 0) /\
    w_charges r e c = exp (nth 0 (net (map (input (plain z)) rows) e c) 0)
      * (if g_scale (z_base z) then nth 5 (nth e rows []) 0 / 10000 else 1)
      * (if g_relative (z_base z) then rel_eff c else 1) * (if g_global (z_base z) then eff else 1) + 1 / 10000000.
  Proof.
    intros G. destruct (inv _ _ _ _ _ G) as (i & Q). destruct Q. exists (nth i (nth e rows []) 0). split.
    - intros GG. exists i. split; [| reflexivity]. rewrite GG in o_eff. apply name_index_nth. exact o_eff.
    - rewrite o_charges. unfold q_charge, q_out, raw_charge. change (g_scale (plain z)) with (g_scale (z_base z)).
      change (g_relative (plain z)) with (g_relative (z_base z)). change (g_global (plain z)) with (g_global (z_base z)).
      destruct (g_scale (z_base z)), (g_relative (z_base z)), (g_global (z_base z)); ring.
  Qed.

  Theorem C150_positive z rows charges pulses r e c : qget z rows charges pulses = Ok r ->
    Forall (fun row => 0 <= nth 5 row 0 /\
      forall i, nth_error (names z) i = Some "DOMEfficiency"%string -> 0 <= nth i row 0) rows ->
    (forall c, 0 <= rel_eff c) -> 1 / 10000000 <= w_charges r e c.
  Proof.
    intros G P RE. destruct (C150_charge z rows charges pulses r e c G) as (eff & EF & ->).
    assert (PE : 0 <= nth 5 (nth e rows []) 0 /\ 0 <= (if g_global (z_base z) then eff else 1)).
    { destruct (Nat.lt_ge_cases e (length rows)) as [E | E].
      - rewrite Forall_forall in P. destruct (P (nth e rows []) (nth_In _ _ E)) as (P5 & PF). split; [exact P5 |].
        destruct (g_global (z_base z)) eqn:GG; [| lra]. destruct (EF eq_refl) as (i & N & ->). apply PF. exact N.
      - rewrite (nth_overflow rows) in * by exact E. split; [cbn; lra |]. destruct (g_global (z_base z)); [| lra].
        destruct (EF eq_refl) as (i & _ & ->). destruct i; cbn; lra. }
    destruct PE as (P5 & PE). specialize (RE c). pose proof (exp_pos (nth 0 (net (map (input (plain z)) rows) e c) 0)) as X.
    assert (0 <= exp (nth 0 (net (map (input (plain z)) rows) e c) 0)
      * (if g_scale (z_base z) then nth 5 (nth e rows []) 0 / 10000 else 1)
      * (if g_relative (z_base z) then rel_eff c else 1) * (if g_global (z_base z) then eff else 1)); [| lra].
    apply Rmult_le_pos; [| exact PE]. apply Rmult_le_pos; [apply Rmult_le_pos; [lra |] |].
    - destruct (g_scale (z_base z)); lra.
    - destruct (g_relative (z_base z)); lra.
  Qed.

  (** ** C151 *)

  Lemma comps_ok z rows charges pulses r j p : qfits z rows -> qget z rows charges pulses = Ok r -> nth_error pulses j = Some p ->
    Mixture (w_comps r j) /\ length (w_comps r j) = g_models (z_base z) /\ w_comps r j <> [].
  Proof.
    intros (_ & _ & _ & LF) G J. destruct (inv _ _ _ _ _ G) as (i & Q). destruct Q. rewrite (o_comps _ _ J).
    split; [apply quantile_mixture; [exact o_models | rewrite LF; lia] |].
    split; [apply quantile_components_length |].
    intros E. apply (f_equal (@length comp)) in E. rewrite quantile_components_length in E. cbn in E. lia.
  Qed.

  Lemma retimed_fc z rows charges i j t pulses pulses' : Retimed j t pulses pulses' ->
    q_fc trafo mean std norm_const coords local_vars rel_eff net z rows charges i pulses'
    = q_fc trafo mean std norm_const coords local_vars rel_eff net z rows charges i pulses.
  Proof.
    intros (L & H). unfold q_fc. set (f := fun p => fc_input z _ _ _ p).
    assert (FT : forall p, f (at_time t p) = f p) by reflexivity. clearbody f.
    apply (nth_ext _ _ (f {| h_event := 0; h_cell := (0, 0)%nat; h_charge := 0; h_time := 0; h_quantile := 0 |})
                       (f {| h_event := 0; h_cell := (0, 0)%nat; h_charge := 0; h_time := 0; h_quantile := 0 |})).
    { rewrite !map_length. exact L. }
    intros k K. rewrite map_length in K. rewrite !map_nth.
    destruct (nth_error pulses k) as [p |] eqn:E.
    - rewrite (nth_error_nth _ _ _ E), (nth_error_nth _ _ _ (H k p E)). destruct (Nat.eqb k j); [apply FT | reflexivity].
    - apply nth_error_None in E. lia.
  Qed.

  (** As a function of its time, the density of a pulse is positive, is the mixture
      of the components of the pulse and has the integral one thousand, per
      nanosecond; the time of a pulse changes the density of no other pulse. *)
  Theorem C151_density z rows charges pulses r j p erf : IsErf erf -> qfits z rows ->
    qget z rows charges pulses = Ok r -> nth_error pulses j = Some p ->
    exists f, (forall t, 0 < f t) /\ TotalMass f 1000 /\
      (forall t, f t = Rsum (map (fun k => k_scale k *
        asymmetric_gauss ((t - nth 6 (nth (h_event p) rows []) 0) / 1000) (k_mu k) (k_sigma k) (k_r k)) (w_comps r j))) /\
      forall t pulses', Retimed j t pulses pulses' ->
        exists r', qget z rows charges pulses' = Ok r' /\ nth_error (w_pdf r') j = Some (f t) /\
          forall k, k <> j -> nth_error (w_pdf r') k = nth_error (w_pdf r) k.
  Proof.
    intros HE F G J. destruct (comps_ok z rows charges pulses r j p F G J) as (M & _ & NE).
    set (tc := nth 6 (nth (h_event p) rows []) 0).
    assert (D := mix_dist erf HE tc k_scale _ NE).
    specialize (D ltac:(eapply Forall_impl; [| exact (proj1 M)]; cbn; intros; tauto) (mixture_wide _ M)).
    rewrite (proj2 M), Rmult_1_r in D.
    exists (fun t => Rsum (map (fun k => k_scale k * fk tc k t) (w_comps r j))).
    split; [exact (d_pos _ _ _ D) |]. split; [exact (total_mass _ _ _ D) |]. split.
    { intros t. apply Rsum_map_ext. intros k _. unfold fk. f_equal. f_equal. field. }
    intros t pulses' RT. destruct (inv _ _ _ _ _ G) as (i & Q).
    assert (V' : QValid (length rows) pulses').
    { destruct RT as (L & H). pose proof (o_valid _ _ _ _ _ _ _ _ _ _ _ _ _ _ _ _ _ Q) as V. unfold QValid in *.
      apply Forall_forall. intros p' I. apply In_nth_error in I. destruct I as (k & K).
      destruct (nth_error pulses k) as [p0 |] eqn:E.
      - specialize (H k p0 E). rewrite K in H. assert (H' : p' = if Nat.eqb k j then at_time t p0 else p0) by congruence. subst p'.
        rewrite Forall_forall in V. specialize (V p0 (nth_error_In _ _ E)). destruct (Nat.eqb k j); exact V.
      - apply nth_error_None in E. assert (X : (k < length pulses')%nat) by (apply nth_error_Some; congruence). lia. }
    destruct (qget_some format trafo mean std norm_const coords local_vars lgamma rel_eff net fcnet z rows charges pulses' i F
      (o_filters _ _ _ _ _ _ _ _ _ _ _ _ _ _ _ _ _ Q) (o_layout _ _ _ _ _ _ _ _ _ _ _ _ _ _ _ _ _ Q)
      (o_models _ _ _ _ _ _ _ _ _ _ _ _ _ _ _ _ _ Q) (o_eff _ _ _ _ _ _ _ _ _ _ _ _ _ _ _ _ _ Q) V') as (r' & G').
    exists r'. split; [exact G' |]. destruct (inv _ _ _ _ _ G') as (i' & Q').
    assert (II : i' = i).
    { pose proof (o_eff _ _ _ _ _ _ _ _ _ _ _ _ _ _ _ _ _ Q) as A. pose proof (o_eff _ _ _ _ _ _ _ _ _ _ _ _ _ _ _ _ _ Q') as B. congruence. }
    subst i'. destruct Q, Q'.
    assert (CE : forall k p0, nth_error pulses k = Some p0 -> w_comps r' k = w_comps r k).
    { intros k p0 K. rewrite (o_comps _ _ K). destruct RT as (L & H). rewrite (o_comps0 _ _ (H k p0 K)).
      rewrite (retimed_fc z rows charges i j t pulses pulses' (conj L H)). destruct (Nat.eqb k j); reflexivity. }
    split.
    - destruct RT as (L & H). rewrite (o_pdf0 _ _ (H j p J)), Nat.eqb_refl, (CE j p J). rewrite density_none. reflexivity.
    - intros k K. destruct (nth_error pulses k) as [p0 |] eqn:E.
      + destruct RT as (L & H). rewrite (o_pdf0 _ _ (H k p0 E)), (o_pdf _ _ E), (CE k p0 E).
        apply Nat.eqb_neq in K. rewrite K. reflexivity.
      + apply nth_error_None in E. destruct RT as (L & _).
        rewrite (proj2 (nth_error_None (w_pdf r') k)), (proj2 (nth_error_None (w_pdf r) k)) by lia. reflexivity.
  Qed.

  (** Its components are a mixture. *)
  Theorem C151_mixture z rows charges pulses r j p : qfits z rows ->
    qget z rows charges pulses = Ok r -> nth_error pulses j = Some p ->
    Mixture (w_comps r j) /\ length (w_comps r j) = g_models (z_base z).
  Proof. intros F G J. destruct (comps_ok z rows charges pulses r j p F G J) as (A & B & _). auto. Qed.

  (** If the second network treats every pulse by itself, the density of a pulse
      does not depend on the other pulses. *)
  Theorem C151_pulses z rows charges pulses pulses' r r' j k p h :
    (forall inputs j v, nth_error inputs j = Some v -> fcnet inputs j = h v) ->
    qget z rows charges pulses = Ok r -> qget z rows charges pulses' = Ok r' ->
    nth_error pulses j = Some p -> nth_error pulses' k = Some p ->
    exists d, nth_error (w_pdf r) j = Some d /\ nth_error (w_pdf r') k = Some d.
  Proof.
    intros H G G' J K. destruct (inv _ _ _ _ _ G) as (i & Q). destruct (inv _ _ _ _ _ G') as (i' & Q').
    assert (II : i' = i).
    { pose proof (o_eff _ _ _ _ _ _ _ _ _ _ _ _ _ _ _ _ _ Q) as A. pose proof (o_eff _ _ _ _ _ _ _ _ _ _ _ _ _ _ _ _ _ Q') as B. congruence. }
    subst i'. destruct Q, Q'. eexists. split; [apply o_pdf; exact J |]. rewrite (o_pdf0 _ _ K). f_equal. f_equal.
    rewrite (o_comps _ _ J), (o_comps0 _ _ K). f_equal.
    set (v := fc_input z (q_out trafo mean std norm_const coords local_vars net z rows (h_event p) (h_cell p))
      (q_charge trafo mean std norm_const coords local_vars rel_eff net z rows i (h_event p) (h_cell p)) (charges (h_event p) (h_cell p)) p).
    rewrite (H _ j v), (H _ k v); [reflexivity | |]; unfold q_fc; rewrite nth_error_map.
    - rewrite K. reflexivity.
    - rewrite J. reflexivity.
  Qed.

  (** ** C152 *)

  Lemma propagation_arrives row c : Arrives (coords c) row (propagation coords row c).
  Proof.
    unfold Arrives, propagation. destruct (coords c) as [[x y] z0]. cbn [fst snd].
    set (s := (x - nth 0 row 0) ^ 2 + (y - nth 1 row 0) ^ 2 + (z0 - nth 2 row 0) ^ 2).
    assert (S0 : 0 <= s).
    { unfold s. pose proof (pow2_ge_0 (x - nth 0 row 0)). pose proof (pow2_ge_0 (y - nth 1 row 0)).
      pose proof (pow2_ge_0 (z0 - nth 2 row 0)). lra. }
    assert (CP : 0 < c_ice) by (unfold c_ice; lra).
    split; [apply Rmult_le_pos; [apply sqrt_pos | left; apply Rinv_0_lt_compat; exact CP] |].
    replace (22103046286329384 / 10 ^ 17 * (sqrt s / c_ice)) with (sqrt s).
    - change (sqrt s ^ 2) with (sqrt s * (sqrt s * 1)). rewrite Rmult_1_r. apply sqrt_sqrt. exact S0.
    - replace (22103046286329384 / 10 ^ 17) with c_ice by (unfold c_ice; lra). field. lra.
  Qed.

  (** The second network is told the quantile and the charges of every pulse and
      the latent variables of its DOM, of which none is a charge variable; its
      output is cut into four blocks.  The components peak a tenth of a microsecond
      after the direct light, plus a learned offset. *)
  Theorem C152_components z rows charges pulses r j p : qfits z rows ->
    qget z rows charges pulses = Ok r -> nth_error pulses j = Some p ->
    exists told offset sigma skew weight light,
      length told = length pulses /\
      (forall k pk, nth_error pulses k = Some pk -> exists v latent, nth_error told k = Some v /\
         net (map (input (plain z)) rows) (h_event pk) (h_cell pk)
         = firstn (n_charge (mode (z_base z))) (net (map (input (plain z)) rows) (h_event pk) (h_cell pk)) ++ latent /\
         QTold z latent (w_charges r (h_event pk) (h_cell pk)) (charges (h_event pk) (h_cell pk)) pk v) /\
      fcnet told j = offset ++ sigma ++ skew ++ weight /\
      length offset = g_models (z_base z) /\ length sigma = g_models (z_base z) /\
      length skew = g_models (z_base z) /\ length weight = g_models (z_base z) /\
      Arrives (coords (h_cell p)) (nth (h_event p) rows []) light /\
      forall k co, nth_error (w_comps r j) k = Some co ->
        1000 * k_mu co = light + 100 + 100 * nth k offset 0 /\
        k_sigma co = bend (3 / 10 + nth k sigma 0 / 10) + 1001 / 1000 /\
        k_r co = bend (nth k skew 0 / 1000) + 1001 / 1000 /\
        exists total, total <> 0 /\ k_scale co = (bend (1 + nth k weight 0) + 100001 / 100000) / total.
  Proof.
    intros F G J. destruct (comps_ok z rows charges pulses r j p F G J) as (MIX & LC & _).
    destruct F as (_ & _ & _ & LF). destruct (inv _ _ _ _ _ G) as (i & Q). destruct Q.
    set (n := g_models (z_base z)) in *.
    set (told := q_fc trafo mean std norm_const coords local_vars rel_eff net z rows charges i pulses) in *.
    specialize (LF told j). set (out := fcnet told j) in *.
    exists told, (slice 0 n out), (slice n n out), (slice (2 * n) n out), (slice (3 * n) n out),
      (propagation coords (nth (h_event p) rows []) (h_cell p)).
    split; [unfold told, q_fc; apply map_length |]. split.
    { intros k pk K. eexists. exists (skipn (n_charge (mode (z_base z))) (net (map (input (plain z)) rows) (h_event pk) (h_cell pk))).
      split; [unfold told, q_fc; rewrite nth_error_map, K; reflexivity |]. split; [symmetry; apply firstn_skipn |].
      unfold QTold, fc_input. eexists. split.
      - cbn [app]. rewrite (Rplus_comm 1 (charges (h_event pk) (h_cell pk))).
        replace (ln (charges (h_event pk) (h_cell pk) + 1) / 10) with (1 / 10 * ln (charges (h_event pk) (h_cell pk) + 1)) by field.
        reflexivity.
      - rewrite <- o_charges. destruct (z_predicted z); [| apply app_nil_r].
        rewrite (Rplus_comm 1 (w_charges r (h_event pk) (h_cell pk))).
        replace (ln (w_charges r (h_event pk) (h_cell pk) + 1) / 10) with (1 / 10 * ln (w_charges r (h_event pk) (h_cell pk) + 1)) by field.
        reflexivity. }
    split.
    { unfold slice. rewrite (firstn_all2 (skipn (3 * n) out)) by (rewrite skipn_length; lia).
      replace (3 * n)%nat with (2 * n + n)%nat by lia. rewrite cut.
      replace (2 * n)%nat with (n + n)%nat by lia. rewrite cut.
      change (skipn n out) with (skipn (0 + n) out). rewrite cut. reflexivity. }
    rewrite !slice_length by lia. repeat (split; [reflexivity |]).
    split; [apply propagation_arrives |]. intros k co K.
    assert (KN : (k < n)%nat) by (rewrite <- LC; apply nth_error_Some; congruence).
    assert (EB : forall x, elu x = bend x).
    { intros x. unfold elu, bend, Rltb. destruct (Rlt_dec x 0); reflexivity. }
    assert (NM0 : forall (f : R -> R) l, length l = n -> nth k (map f l) 0 = f (nth k l 0)).
    { intros f l L. rewrite (nth_indep _ 0 (f 0)) by (rewrite map_length; lia). apply map_nth. }
    pose proof (proj1 (Forall_forall _ _) (proj1 MIX) co (nth_error_In _ _ K)) as (SP & _).
    rewrite (o_comps _ _ J) in K. fold out in K. unfold quantile_components in K. rewrite nth_error_map in K.
    rewrite (nth_error_nth' (seq 0 n) 0%nat) in K by (rewrite seq_length; exact KN).
    rewrite seq_nth in K by exact KN. cbn [option_map plus] in K. injection K as <-.
    cbn [k_sigma k_r k_scale k_mu] in *.
    replace (n + (n + 0))%nat with (2 * n)%nat in * by lia.
    replace (n + 2 * n)%nat with (3 * n)%nat in * by lia.
    replace (n + 0)%nat with n in * by lia.
    split; [rewrite NM0 by (apply slice_length; lia); field |].
    split; [rewrite NM0 by (apply slice_length; lia); rewrite EB; f_equal; f_equal; field |].
    split; [rewrite NM0 by (apply slice_length; lia); rewrite EB; f_equal; f_equal; field |].
    rewrite map_map in SP |- *. rewrite NM0 in SP |- * by (apply slice_length; lia).
    match goal with |- exists total, _ /\ _ / ?t = _ => exists t end. split.
    - intros Z. rewrite Z in SP. unfold Rdiv in SP. rewrite Rinv_0 in SP. lra.
    - rewrite EB. f_equal. f_equal. f_equal. ring.
  Qed.

  (** Light from the vertex cannot arrive before the direct light, but the source
      expects it at all times: every interval before has a positive probability. *)
  Theorem C152_causality_refuted z rows charges pulses r j p erf light : IsErf erf -> qfits z rows ->
    qget z rows charges pulses = Ok r -> nth_error pulses j = Some p ->
    Arrives (coords (h_cell p)) (nth (h_event p) rows []) light ->
    exists f, (forall t pulses', Retimed j t pulses pulses' ->
                 exists r', qget z rows charges pulses' = Ok r' /\ nth_error (w_pdf r') j = Some (f t)) /\
      forall a b, a < b -> b <= nth 6 (nth (h_event p) rows []) 0 + light -> exists u, Integrates f a b u /\ 0 < u.
  Proof.
    intros HE F G J _. destruct (C151_density z rows charges pulses r j p erf HE F G J) as (f & P & T & E & H).
    exists f. split.
    - intros t pulses' RT. destruct (H t pulses' RT) as (r' & A & B & _). exists r'. auto.
    - intros a b AB _. destruct (comps_ok z rows charges pulses r j p F G J) as (M & _ & NE).
      set (tc := nth 6 (nth (h_event p) rows []) 0) in *.
      assert (D := mix_dist erf HE tc k_scale _ NE).
      specialize (D ltac:(eapply Forall_impl; [| exact (proj1 M)]; cbn; intros; tauto) (mixture_wide _ M)).
      rewrite (proj2 M), Rmult_1_r in D.
      match type of D with Dist ?q ?Q ?m => assert (D' : Dist f Q m) end.
      { eapply dist_ext; [| reflexivity | reflexivity | exact D]. intros t. cbn beta. rewrite E. apply Rsum_map_ext.
        intros k _. unfold fk. f_equal. f_equal. field. }
      eexists. split; [apply integrates_is_RInt; apply (dist_int _ _ _ D') |].
      pose proof (dist_mono _ _ _ D' a b AB). lra.
  Qed.

  (** ** C153 *)

  Lemma qget_same z rows rows' d charges pulses : length rows' = length rows ->
    (forall e, (e < length rows)%nat ->
      length (nth e rows' []) = length (nth e rows []) /\
      input (plain z) (nth e rows' []) = input (plain z) (nth e rows []) /\
      (forall i, i <> 3%nat -> i <> 4%nat -> i <> 6%nat -> nth i (nth e rows' []) 0 = nth i (nth e rows []) 0) /\
      nth 6 (nth e rows' []) 0 = nth 6 (nth e rows []) 0 + d e) ->
    SameQuantiles (length rows) (qget z rows' charges (map (shift_qpulse d) pulses)) (qget z rows charges pulses).
  Proof.
    intros LR H. unfold quantile_get_tensors. cbv zeta. rewrite LR.
    rewrite (existsb_ext_nth (fun row => Nat.ltb (length row) 7) rows rows' [] LR).
    2:{ intros e E. destruct (H e E) as (L & _). rewrite L. reflexivity. }
    destruct (existsb (fun row => Nat.ltb (length row) 7) rows); [exact eq_refl |].
    rewrite (map_ext_nth (input (plain z)) rows rows' [] LR).
    2:{ intros e E. destruct (H e E) as (_ & I & _). exact I. }
    set (inputs := map (input (plain z)) rows). clearbody inputs.
    destruct (existsb _ inputs); [exact eq_refl |].
    destruct (Nat.ltb _ _); [exact eq_refl |].
    set (ef := if g_global (plain z) then name_index (names z) "DOMEfficiency" else Ok 0%nat).
    assert (EF : forall i, ef = Ok i -> forall e, (e < length rows)%nat -> nth i (nth e rows' []) 0 = nth i (nth e rows []) 0).
    { intros i E e I. assert (i <> 3%nat /\ i <> 4%nat /\ i <> 6%nat) as (N3 & N4 & N6).
      { unfold ef in E. destruct (g_global (plain z)); [exact (eff_index format (plain z) i E) |]. injection E as <-. lia. }
      apply (H e I); assumption. }
    clearbody ef. destruct ef as [i |]; [| exact eq_refl]. specialize (EF i eq_refl). cbn [bind].
    destruct (negb (Nat.eqb _ _)); [exact eq_refl |]. destruct (Nat.ltb _ 1); [exact eq_refl |].
    assert (QE : forall e c, (e < length rows)%nat ->
      raw_charge rel_eff (plain z) (nth e rows' []) (net inputs e c) c (nth i (nth e rows' []) 0)
      = raw_charge rel_eff (plain z) (nth e rows []) (net inputs e c) c (nth i (nth e rows []) 0)).
    { intros e c E. unfold raw_charge. rewrite (EF e E). destruct (H e E) as (_ & _ & N & _). rewrite (N 5%nat) by lia. reflexivity. }
    rewrite forallb_map.
    change (forallb (fun x => in_range (length rows) (h_event (shift_qpulse d x)) (h_cell (shift_qpulse d x))) pulses)
      with (forallb (fun p => in_range (length rows) (h_event p) (h_cell p)) pulses).
    destruct (forallb (fun p => in_range (length rows) (h_event p) (h_cell p)) pulses) eqn:V; [| exact eq_refl]. cbn [negb].
    assert (VI : forall p, In p pulses -> (h_event p < length rows)%nat).
    { intros p I. rewrite forallb_forall in V. specialize (V p I). apply in_range_true in V. exact (proj1 V). }
    match goal with |- SameQuantiles _ (if existsb _ ?fc' then _ else _) (if existsb _ ?fc0 then _ else _) =>
      set (fc := fc0); replace fc' with fc end.
    2:{ unfold fc. rewrite map_map. apply map_ext_in. intros p I. cbn [shift_qpulse at_time h_event h_cell].
        rewrite (QE _ _ (VI p I)). reflexivity. }
    clearbody fc. destruct (existsb _ fc); [exact eq_refl |].
    match goal with |- SameQuantiles _ (Ok {| w_comps := ?cp' |}) (Ok {| w_comps := ?cp |}) => assert (CE : forall j, cp' j = cp j) end.
    { intros j. cbn beta. rewrite nth_error_map. destruct (nth_error pulses j) as [p |] eqn:J; [| reflexivity].
      cbn [option_map shift_qpulse at_time h_event h_cell].
      f_equal. f_equal. destruct (H (h_event p) (VI p (nth_error_In _ _ J))) as (_ & _ & N & _).
      unfold propagation. rewrite (N 0%nat), (N 1%nat), (N 2%nat) by lia. reflexivity. }
    cbn [SameQuantiles w_charges w_unc w_var w_llh w_comps w_pdf].
    split; [intros e c E; cbn beta; rewrite (QE e c E); reflexivity |].
    split; [intros e c E; cbn beta; rewrite (QE e c E); reflexivity |].
    split; [intros e c E; cbn beta; rewrite (QE e c E); reflexivity |].
    split; [destruct (mode (plain z)); cbn [AgreesO]; try exact I; intros e c E; cbn beta; rewrite (QE e c E); reflexivity |].
    split; [exact CE |]. rewrite map_length. cbn beta in CE.
    apply (nth_ext _ _ 0 0).
    { rewrite !map_length, !combine_length, map_length. reflexivity. }
    intros j JL. rewrite map_length, combine_length, seq_length, map_length, Nat.min_id in JL.
    apply nth_error_nth.
    destruct (nth_error pulses j) as [p |] eqn:J; [| apply nth_error_None in J; lia].
    rewrite nth_error_map.
    replace (combine (seq 0 (length pulses)) (map (shift_qpulse d) pulses))
      with (combine (seq 0 (length (map (shift_qpulse d) pulses))) (map (shift_qpulse d) pulses)) by (rewrite map_length; reflexivity).
    rewrite nth_error_indexed, nth_error_map, J. cbn [option_map fst snd].
    rewrite CE.
    match goal with |- _ = Some (nth _ ?l _) => assert (X : nth_error l j = Some (nth j l 0)) end.
    { apply nth_error_nth'. rewrite map_length, combine_length, seq_length, Nat.min_id. exact JL. }
    rewrite <- X, nth_error_map, nth_error_indexed, J. cbn [option_map fst snd shift_qpulse at_time h_event h_time].
    destruct (H (h_event p) (VI p (nth_error_In _ _ J))) as (_ & _ & _ & T). rewrite T, density_shift, ?J. reflexivity.
  Qed.

  (** A shift of an event in time with its pulses changes nothing. *)
  Theorem C153_translation z rows rows' d charges pulses : length rows' = length rows ->
    (forall e, (e < length rows)%nat -> Shifted (d e) (nth e rows []) (nth e rows' [])) ->
    (forall e, (e < length rows)%nat -> (7 <= length (nth e rows []))%nat) ->
    SameQuantiles (length rows) (qget z rows' charges (map (shift_qpulse d) pulses)) (qget z rows charges pulses).
  Proof.
    intros L S L7. apply qget_same; [exact L |]. intros e E. specialize (S e E).
    assert (N : forall i, i <> 6%nat -> nth i (nth e rows' []) 0 = nth i (nth e rows []) 0).
    { intros i I. exact (shifted_nth _ _ _ _ S I). }
    split; [exact (proj1 S) |]. split; [apply input_ext; [exact (proj1 S) | auto | rewrite !N by lia; reflexivity] |].
    split; [auto |]. destruct S as (_ & S). rewrite (S 6%nat) by (specialize (L7 e E); lia). reflexivity.
  Qed.

  (** Angles of the same direction give the same result. *)
  Theorem C153_direction z rows rows' charges pulses : length rows' = length rows ->
    (forall e, (e < length rows)%nat -> Turned (nth e rows []) (nth e rows' [])) ->
    SameQuantiles (length rows) (qget z rows' charges pulses) (qget z rows charges pulses).
  Proof.
    intros L T. pose proof (qget_same z rows rows' (fun _ => 0) charges pulses L) as G.
    replace (map (shift_qpulse (fun _ => 0)) pulses) with pulses in G.
    2:{ symmetry. rewrite <- (map_id pulses) at 2. apply map_ext. intros [e c q t k]. unfold shift_qpulse, at_time. cbn.
        rewrite Rplus_0_r. reflexivity. }
    apply G. intros e E. destruct (T e E) as (LE & N & D1 & D2 & D3).
    split; [exact LE |]. split.
    - apply input_ext; [exact LE | auto |]. unfold direction.
      replace (- sin (nth 3 (nth e rows' []) 0) * cos (nth 4 (nth e rows' []) 0))
        with (- (sin (nth 3 (nth e rows' []) 0) * cos (nth 4 (nth e rows' []) 0))) by ring.
      replace (- sin (nth 3 (nth e rows' []) 0) * sin (nth 4 (nth e rows' []) 0))
        with (- (sin (nth 3 (nth e rows' []) 0) * sin (nth 4 (nth e rows' []) 0))) by ring.
      rewrite D1, D2, D3. f_equal. f_equal; ring.
    - split; [auto |]. rewrite N by lia. ring.
  Qed.

  (** The expected charges depend on neither the pulses nor the observed
      charges. *)
  Theorem C153_charges z rows charges charges' pulses pulses' r r' e c :
    qget z rows charges pulses = Ok r -> qget z rows charges' pulses' = Ok r' ->
    w_charges r e c = w_charges r' e c.
  Proof.
    intros G G'. destruct (inv _ _ _ _ _ G) as (i & Q). destruct (inv _ _ _ _ _ G') as (i' & Q'). destruct Q, Q'.
    assert (i' = i) by congruence. subst i'. rewrite o_charges, o_charges0. reflexivity.
  Qed.
End Quantile.

Section Example.
  Variable format : string -> nat -> string.
  Variable trafo : nat -> R -> R.
  Variables mean std : nat -> R.
  Variable norm_const : R.
  Variable coords : cell -> R * R * R.
  Variable lgamma : R -> R.
  Variable rel_eff : cell -> R.

  (** One component, negative binomial charges, five latent variables *)
  Definition quantile_example : quantile_config :=
    {| z_base := {| g_labels := None; g_snowstorm := Some [("DOMEfficiency"%string, 1%nat)]; g_opening := true; g_coordinates := true;
                    g_local := 0; g_filters := 7; g_models := 1; g_charge := VStr "negative_binomial"; g_sort := false;
                    g_scale := true; g_relative := true; g_global := false |};
       z_fc_filters := 4; z_predicted := true |}.
  Definition quantile_row (t : R) : list R := [1; 2; 3; 1; 2; 1000; t; 1].
  Definition quantile_pulse (t : R) : qpulse :=
    {| h_event := 1; h_cell := (85, 59)%nat; h_charge := 1; h_time := t; h_quantile := 1 / 2 |}.

  Notation net := (fun (_ : list (list (list R))) (_ : nat) (_ : cell) => repeat 1 7).
  Notation fcnet := (fun (l : list (list R)) (j : nat) => firstn 4 (nth j l [] ++ repeat 0 4)).

  Lemma quantile_fits t t' : QFits (fun _ => []) net fcnet quantile_example [quantile_row t; quantile_row t'].
  Proof.
    split; [repeat constructor |]. split; [reflexivity |]. split; [reflexivity |].
    intros inputs j. rewrite firstn_length, app_length, repeat_length. change (z_fc_filters quantile_example) with 4%nat. lia.
  Qed.

  Example quantile_ex : exists r,
    quantile_get_tensors format trafo mean std norm_const coords (fun _ => []) lgamma rel_eff net fcnet quantile_example
      [quantile_row 10; quantile_row 20] (fun _ _ => 2) [quantile_pulse 500; quantile_pulse 700] = Ok r /\ length (w_pdf r) = 2%nat.
  Proof.
    destruct (C149_accepted format trafo mean std norm_const coords (fun _ => []) lgamma rel_eff net fcnet quantile_example
      [quantile_row 10; quantile_row 20] (fun _ _ => 2) [quantile_pulse 500; quantile_pulse 700]) as (r & G & L).
    - apply quantile_fits.
    - cbn. lia.
    - reflexivity.
    - cbn. lia.
    - discriminate.
    - repeat constructor; cbn; lia.
    - exists r. auto.
  Qed.

  (** Hypotheses of C149_layout, C149_efficiency, C150_default, C151, C153 *)
  Example quantile_rejected_ex :
    QFits (fun _ => []) (fun _ _ _ => repeat 1 1) fcnet
      {| z_base := with_sort false (small (VBool true) 1 false false); z_fc_filters := 4; z_predicted := false |} [event 1 2] /\
    (g_filters (small (VBool true) 1 false false) < n_charge (mode (small (VBool true) 1 false false)))%nat /\
    ~ In "DOMEfficiency"%string (quantile_names format {| z_base := small VNone 1 false false; z_fc_filters := 4; z_predicted := false |}) /\
    SameOptions (z_base quantile_example) (z_base quantile_example) /\
    Retimed 1 3 [quantile_pulse 500; quantile_pulse 700] [quantile_pulse 500; quantile_pulse 3] /\
    Shifted 3 (quantile_row 1) (quantile_row 4).
  Proof.
    split.
    { split; [repeat constructor |]. split; [reflexivity |]. split; [reflexivity |].
      intros inputs j. rewrite firstn_length, app_length, repeat_length. cbn [z_fc_filters]. lia. }
    split; [cbn; lia |]. split; [cbn; intuition discriminate |]. split; [repeat split |]. split.
    - split; [reflexivity |]. intros [| [| i]] p H; cbn in *; [| | destruct i; discriminate H]; injection H as <-; reflexivity.
    - split; [reflexivity |]. intros i I. do 8 (destruct i as [| i]; [cbn; lra |]). cbn in I. lia.
  Qed.
End Example.
Print Assumptions C149_accepted.
Print Assumptions C149_layout.
Print Assumptions C149_rows.
Print Assumptions C149_efficiency.
Print Assumptions C150_default.
Print Assumptions C150_charge.
Print Assumptions C150_positive.
Print Assumptions C151_density.
Print Assumptions C151_mixture.
Print Assumptions C151_pulses.
Print Assumptions C152_components.
Print Assumptions C152_causality_refuted.
Print Assumptions C153_translation.
Print Assumptions C153_direction.
Print Assumptions C153_charges.
