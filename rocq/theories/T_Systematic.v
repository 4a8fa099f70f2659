(** Properties of the cascade source with systematic parameters: accepted
    configurations (C144), efficiency of the DOMs (C145), density of the pulse times
    and excluded windows (C146), inputs of the networks (C147), charges (C148). *)
From Coq Require Import Reals Lra Lia.
From Verif Require Import Py PyFacts PyStr RList M_Source S_Source L_Source M_Basis S_Basis T_Basis M_Noise S_Noise L_Noise
  M_Cascade S_Cascade L_Cascade T_Cascade M_Systematic S_Systematic L_Systematic.
Open Scope R_scope.

Section Systematic.
  Variable format : string -> nat -> string.
  Variable trafo : nat -> R -> R.
  Variables mean std : nat -> R.
  Variable norm_const : R.
  Variable coords : cell -> R * R * R.
  Variable local_vars : cell -> list R.
  Variables erf lgamma : R -> R.
  Variable rel_eff : cell -> R.
  Variables lnet net : list (list (list R)) -> nat -> cell -> list R.

  Notation sys := (systematic_get_tensors format trafo mean std norm_const coords local_vars lgamma rel_eff lnet net).
  Notation shared := (shared_inputs trafo mean std norm_const coords local_vars lnet).
  Notation fits := (Fits local_vars lnet).
  Notation names y := (systematic_names format y).
  Notation casc := (as_cascade format).
  Notation cget rows0 add0 y0 := (cascade_get_tensors format trafo mean std norm_const coords (fun _ => []) erf lgamma rel_eff
    (fun _ => net (shared y0 add0 rows0))).

  Lemma sys_ok y rows charges pulses r : fits y rows -> sys y rows charges pulses = Ok r ->
    exists add, add_indices format y = Ok add /\ length add <> 0%nat /\
      (negb (Nat.eqb (length rows) 0) && Nat.ltb 1 (efficiencies (names y)) = false) /\
      forall charges' pulses', sys y rows charges' pulses' = cget rows add y (casc y) rows charges' None pulses'.
  Proof.
    intros F G. destruct (add_spec format y) as (add & A & _). exists add. split; [exact A |].
    rewrite (sys_eq format trafo mean std norm_const coords local_vars erf lgamma rel_eff lnet net y rows charges pulses add F A) in G.
    destruct (Nat.eqb_spec (length add) 0) as [E | E]; [discriminate |]. split; [exact E |].
    destruct (negb (Nat.eqb (length rows) 0) && Nat.ltb 1 (efficiencies (names y))) eqn:W; [discriminate |].
    split; [reflexivity |]. intros charges' pulses'.
    rewrite (sys_eq format trafo mean std norm_const coords local_vars erf lgamma rel_eff lnet net y rows charges' pulses' add F A).
    apply Nat.eqb_neq in E. rewrite E, W. reflexivity.
  Qed.

  Lemma systematic_add y add : add_indices format y = Ok add -> (HasSystematic (names y) <-> length add <> 0%nat).
  Proof.
    intros A. destruct (add_spec format y) as (add' & A' & L & FA & FB). rewrite A in A'. injection A' as <-. split.
    - intros (i & name & I & N & X) E. destruct (FB name) as (j & J & _); [| exact X |].
      + apply (nth_error_In _ (i - 7)). rewrite <- N. clear -I.
        assert (Q : forall k (l : list string), nth_error (skipn k l) (i - k) = nth_error l i \/ (i < k)%nat).
        { induction k as [| k IH] in i |- *; intros l; [left; rewrite Nat.sub_0_r; reflexivity |].
          destruct l as [| x l]; [left; cbn; destruct (i - S k)%nat, i; reflexivity |].
          destruct i as [| i]; [right; lia |]. cbn [skipn Nat.sub nth_error]. destruct (IH i l) as [E | E]; [left; exact E | right; lia]. }
        destruct (Q 7%nat (names y)) as [E | E]; [exact E | lia].
      + destruct add; [destruct J | discriminate E].
    - intros E. destruct add as [| i add]; [contradiction E; reflexivity |]. pose proof (Forall_inv FA) as (I & name & N & X).
      exists i, name. split; [lia |]. split; assumption.
  Qed.

  (** ** C144 *)

  (** Rows of the documented length are accepted if there is a parameter beside
      those of a cascade and the efficiency, and the efficiency is there at most
      once. *)
  Theorem C144_accepted y rows charges pulses : fits y rows -> HasSystematic (names y) ->
    (efficiencies (names y) <= 1)%nat ->
    (4 * g_models (y_base y) + n_charge (mode (y_base y)) = g_filters (y_base y))%nat -> (1 < g_models (y_base y))%nat ->
    ValidPulses (length rows) pulses ->
    exists r, sys y rows charges pulses = Ok r /\ length (a_pdf r) = length pulses.
  Proof.
    intros F HS ONE LAY NM V. destruct (add_spec format y) as (add & A & _).
    rewrite (sys_eq format trafo mean std norm_const coords local_vars erf lgamma rel_eff lnet net y rows charges pulses add F A).
    pose proof (proj1 (systematic_add y add A) HS) as E. apply Nat.eqb_neq in E. rewrite E.
    destruct (Nat.ltb_spec 1 (efficiencies (names y))); [lia |]. rewrite andb_false_r.
    apply C104_accepted; try assumption.
    - reflexivity.
    - exact (proj1 F).
    - intros G. apply has_efficiency_in. exact G.
  Qed.

  (** Without such a parameter the source cannot be evaluated, ... *)
  Theorem C144_no_systematics y rows charges pulses : fits y rows -> ~ HasSystematic (names y) ->
    sys y rows charges pulses = Err ValueError.
  Proof.
    intros F HS. destruct (add_spec format y) as (add & A & _).
    rewrite (sys_eq format trafo mean std norm_const coords local_vars erf lgamma rel_eff lnet net y rows charges pulses add F A).
    destruct (Nat.eqb_spec (length add) 0) as [E | E]; [reflexivity |]. contradiction HS. apply (systematic_add y add A). exact E.
  Qed.

  (** ... nor with two efficiencies, ... *)
  Theorem C144_twice y rows charges pulses : fits y rows -> rows <> [] -> (1 < efficiencies (names y))%nat ->
    sys y rows charges pulses = Err ValueError.
  Proof.
    intros F NE TW. destruct (add_spec format y) as (add & A & _).
    rewrite (sys_eq format trafo mean std norm_const coords local_vars erf lgamma rel_eff lnet net y rows charges pulses add F A).
    destruct (Nat.eqb (length add) 0); [reflexivity |]. apply Nat.ltb_lt in TW. rewrite TW.
    destruct rows; [contradiction NE; reflexivity |]. reflexivity.
  Qed.

  (** ... nor with another number of filters. *)
  Theorem C144_layout y rows charges pulses : fits y rows ->
    (4 * g_models (y_base y) + n_charge (mode (y_base y)) <> g_filters (y_base y) \/ g_models (y_base y) <= 1)%nat ->
    sys y rows charges pulses = Err ValueError.
  Proof.
    intros F H. destruct (add_spec format y) as (add & A & _).
    rewrite (sys_eq format trafo mean std norm_const coords local_vars erf lgamma rel_eff lnet net y rows charges pulses add F A).
    destruct (Nat.eqb (length add) 0); [reflexivity |].
    destruct (negb (Nat.eqb (length rows) 0) && Nat.ltb 1 (efficiencies (names y))); [reflexivity |].
    apply C105_rejected; [reflexivity | exact (proj1 F) | exact H].
  Qed.

  (** Columns beyond the parameters of the source are ignored, where the default
      cascade rejects them. *)
  Theorem C144_extra_columns y rows charges pulses :
    Forall (fun row => (num_parameters (y_base y) <= length row)%nat) rows ->
    SameTensors (length rows) (sys y rows charges pulses)
      (sys y (map (firstn (num_parameters (y_base y))) rows) charges pulses).
  Proof.
    intros LONG. set (n := num_parameters (y_base y)). set (rows' := map (firstn n) rows).
    assert (N7 : (7 <= n)%nat) by (unfold n, num_parameters; lia).
    assert (LE : length rows' = length rows) by apply map_length.
    assert (NE : forall e i, (i < n)%nat -> nth i (nth e rows' []) 0 = nth i (nth e rows []) 0).
    { intros e i I. unfold rows'. replace (nth e (map (firstn n) rows) []) with (firstn n (nth e rows [])).
      2:{ rewrite <- (map_nth (firstn n)). rewrite ?firstn_nil. reflexivity. }
      generalize (nth e rows []) as l. revert I. clear. generalize n. clear.
      induction i as [| i IH]; intros [| m] I l; try lia; destruct l as [| x l]; cbn; try reflexivity. apply IH. lia. }
    assert (SHORT : forall k, (k <= n)%nat -> existsb (fun row : list R => Nat.ltb (length row) k) rows = false /\
      existsb (fun row : list R => Nat.ltb (length row) k) rows' = false).
    { intros k K. rewrite Forall_forall in LONG. split; apply not_true_is_false; intros H; apply existsb_exists in H;
        destruct H as (row & I & H); apply Nat.ltb_lt in H.
      - specialize (LONG row I). fold n in LONG. lia.
      - unfold rows' in I. apply in_map_iff in I. destruct I as (row0 & <- & I). specialize (LONG row0 I). fold n in LONG.
        rewrite firstn_length_le in H by exact LONG. lia. }
    assert (LL : forall k, (k < n)%nat -> existsb (fun row : list R => Nat.leb (length row) k) rows = false /\
      existsb (fun row : list R => Nat.leb (length row) k) rows' = false).
    { intros k K. destruct (SHORT (S k) ltac:(lia)) as (A & B).
      split; [rewrite <- A | rewrite <- B]; [generalize rows as l | generalize rows' as l];
        (induction l as [| x l IH]; [reflexivity |]; cbn [existsb]; rewrite IH; f_equal;
         destruct (Nat.leb_spec (length x) k), (Nat.ltb_spec (length x) (S k)); try reflexivity; lia). }
    destruct (add_spec format y) as (add & A & _ & FA & _).
    assert (EI : forall rs : list (list R), (forall k, (k < n)%nat -> existsb (fun row : list R => Nat.leb (length row) k) rs = false) ->
      existsb (fun row => existsb (fun i => Nat.leb (length row) i) add) rs = false).
    { intros rs H. apply not_true_is_false. intros X. apply existsb_exists in X. destruct X as (row & I & X).
      apply existsb_exists in X. destruct X as (i & J & X). rewrite Forall_forall in FA. destruct (FA i J) as ((_ & K) & _).
      specialize (H i K). apply not_true_iff_false in H. apply H. apply existsb_exists. exists row. auto. }
    assert (SE : shared y add rows' = shared y add rows).
    { apply shared_ext; [exact LE |]. intros e E. split.
      - intros i [I | I]; apply NE.
        + cbn in I. lia.
        + rewrite Forall_forall in FA. destruct (FA i I) as ((_ & K) & _). exact K.
      - rewrite !NE by lia. reflexivity. }
    assert (LOC : local_inputs std norm_const coords local_vars rows' = local_inputs std norm_const coords local_vars rows).
    { apply locals_ext; [exact LE |]. intros e i E I. apply NE. lia. }
    unfold systematic_get_tensors. fold rows'.
    rewrite (proj1 (SHORT 7%nat N7)), (proj2 (SHORT 7%nat N7)), LOC.
    destruct (wrong_width (num_local_inputs y) (local_inputs std norm_const coords local_vars rows)); [reflexivity |].
    rewrite A. cbn [bind]. rewrite (EI rows (fun k K => proj1 (LL k K))), (EI rows' (fun k K => proj2 (LL k K))).
    destruct (Nat.eqb (length add) 0); [reflexivity |]. rewrite SE, LE.
    destruct (wrong_width (num_shared_inputs format y) (shared y add rows)); [reflexivity |].
    set (out := net (shared y add rows)).
    match goal with |- SameTensors _ (bind ?x _) _ => destruct x as [eff |] eqn:EFF end; [| reflexivity]. cbn [bind].
    assert (EL : match eff with Some i => (i < n)%nat | None => True end).
    { destruct (has_efficiency format y).
      - apply bind_ok in EFF. destruct EFF as (i & EF & EQ). injection EQ as <-. apply index_lt in EF.
        unfold systematic_names in EF. rewrite names_length in EF. exact EF.
      - injection EFF as <-. exact I. }
    assert (EX : existsb (fun row : list R => match eff with Some i => Nat.leb (length row) i | None => false end) rows = false /\
      existsb (fun row : list R => match eff with Some i => Nat.leb (length row) i | None => false end) rows' = false).
    { destruct eff as [i |]; [apply LL; exact EL |]. split; [generalize rows as l | generalize rows' as l]; (induction l; [reflexivity | assumption]). }
    rewrite (proj1 EX), (proj2 EX).
    destruct (negb _); [reflexivity |]. destruct (Nat.leb _ 1); [reflexivity |].
    match goal with |- SameTensors _ (bind (pulse_densities _ ?f _) _) (bind (pulse_densities _ ?f' _) _) =>
      assert (P : pulse_densities (length rows) f' pulses = pulse_densities (length rows) f pulses) end.
    { induction pulses as [| p ps IH]; [reflexivity |]. cbn [pulse_densities]. rewrite IH, (NE _ 6%nat) by lia. reflexivity. }
    match type of P with ?a = ?b => rewrite P; destruct b as [pdf |] end; [| exact eq_refl]. cbn [bind SameTensors a_comps a_excl a_excl_sum a_charges a_unc a_var a_llh a_pdf].
    match goal with |- _ /\ _ /\ _ /\ Agrees _ ?q ?q' /\ _ => assert (Q : forall e c, q e c = q' e c) end.
    { intros e c. cbn beta. rewrite (NE e 5%nat) by lia. destruct eff as [i |]; [rewrite (NE e i) by exact EL; reflexivity | reflexivity]. }
    cbn beta in Q.
    split; [intros e c _; reflexivity |]. split; [exact I |]. split; [exact I |]. split; [intros e c _; apply Q |].
    split; [intros e c _; cbn beta; rewrite Q; reflexivity |].
    split; [intros e c _; cbn beta; rewrite Q; reflexivity |].
    split; [| reflexivity].
    destruct (mode (y_base y)); cbn [AgreesO]; try exact I; intros e c _; cbn beta; rewrite Q; reflexivity.
  Qed.

  (** ** C145 *)

  (** Another efficiency of the DOMs scales the charges and changes neither the
      components nor the densities of the pulses. *)
  Theorem C145_efficiency y rows rows' i charges pulses r : fits y rows ->
    nth_error (names y) i = Some "DOMEfficiency"%string -> length rows' = length rows ->
    (forall e, (e < length rows)%nat -> DifferAt i (nth e rows []) (nth e rows' [])) ->
    sys y rows charges pulses = Ok r ->
    exists r', sys y rows' charges pulses = Ok r' /\ a_pdf r' = a_pdf r /\
      forall e c, (e < length rows)%nat -> a_comps r' e c = a_comps r e c /\
        (a_charges r' e c - 1 / 10000000) * nth i (nth e rows []) 0
        = (a_charges r e c - 1 / 10000000) * nth i (nth e rows' []) 0.
  Proof.
    intros F N L D G. destruct (sys_ok y rows charges pulses r F G) as (add & A & NZ & W & EQ).
    assert (ROWS : rows <> [] -> (efficiencies (names y) <= 1)%nat).
    { intros NE. destruct (Nat.ltb_spec 1 (efficiencies (names y))) as [X | X]; [| exact X].
      destruct rows; [contradiction NE; reflexivity | discriminate W]. }
    assert (I7 : (7 <= i)%nat).
    { unfold systematic_names, cascade_names in N. do 7 (destruct i as [| i]; [discriminate N |]). lia. }
    assert (F' : fits y rows').
    { destruct F as (F1 & F2). split; [| exact F2]. apply Forall_forall. intros row I. apply (In_nth _ _ []) in I.
      destruct I as (e & E & <-). rewrite L in E. rewrite (proj1 (D e E)). rewrite Forall_forall in F1. apply F1. apply nth_In. exact E. }
    assert (NI : forall j, In j add -> j <> i).
    { intros j J ->. destruct (add_spec format y) as (add' & A' & _ & FA & _). rewrite A in A'. injection A' as <-.
      rewrite Forall_forall in FA. destruct (FA i J) as (_ & name & N' & X). congruence. }
    assert (SE : shared y add rows' = shared y add rows).
    { apply shared_ext; [exact L |]. intros e E. destruct (D e E) as (_ & DE). split.
      - intros j [J | J]; apply DE; [cbn in J; lia | apply NI; exact J].
      - rewrite !DE by lia. reflexivity. }
    assert (EQ' : forall charges' pulses', sys y rows' charges' pulses' = cget rows add y (casc y) rows' charges' None pulses').
    { intros charges' pulses'.
      rewrite (sys_eq format trafo mean std norm_const coords local_vars erf lgamma rel_eff lnet net y rows' charges' pulses' add F' A).
      apply Nat.eqb_neq in NZ. rewrite NZ, L, W, SE. reflexivity. }
    rewrite EQ in G. destruct (get_inv G) as (k & Q).
    assert (GG : g_global (casc y) = true). { cbn. apply has_efficiency_in. eapply nth_error_In. exact N. }
    assert (G' : exists r', cget rows add y (casc y) rows' charges None pulses = Ok r').
    { destruct (densities_inv _ _ _ _ (q_pdf Q)) as (V & _).
      destruct (C104_accepted format trafo mean std norm_const coords (fun _ => []) erf lgamma rel_eff (fun _ => net (shared y add rows))
        (casc y) rows' charges pulses) as (r' & G' & _).
      - reflexivity.
      - exact (proj1 F').
      - pose proof (q_layout Q). lia.
      - exact (q_models Q).
      - intros _. eapply nth_error_In. exact N.
      - rewrite L. exact V.
      - exists r'. exact G'. }
    destruct G' as (r' & G'). destruct (get_inv G') as (k' & Q'). exists r'. split; [rewrite EQ'; exact G' |].
    assert (CE : forall e c, a_comps r' e c = a_comps r e c).
    { intros e c. rewrite (q_comps Q), (q_comps Q'). reflexivity. }
    split.
    - destruct (densities_inv _ _ _ _ (q_pdf Q)) as (V & P). destruct (densities_inv _ _ _ _ (q_pdf Q')) as (_ & P').
      rewrite P, P'. apply map_ext_in. intros p IN. rewrite (proj1 (q_excl Q)), (proj1 (q_excl Q')).
      unfold ValidPulses in V. rewrite Forall_forall in V. destruct (V p IN) as (E & _).
      unfold the_comps, the_time. rewrite (proj2 (D _ E)) by lia. reflexivity.
    - intros e c E. split; [apply CE |].
      assert (KI : k = i /\ k' = i).
      { assert (ONE : (efficiencies (names y) <= 1)%nat). { apply ROWS. intros ->. cbn in E. lia. }
        assert (UN : forall a b, nth_error (names y) a = Some "DOMEfficiency"%string -> nth_error (names y) b = Some "DOMEfficiency"%string -> a = b).
        { clear -ONE. unfold efficiencies in ONE. revert ONE. generalize (names y). clear.
          induction l as [| x l IH]; intros ONE a b Ha Hb; [destruct a; discriminate Ha |]. cbn [count_occ] in ONE.
          assert (Z : x = "DOMEfficiency"%string -> forall m, nth_error l m <> Some "DOMEfficiency"%string).
          { intros -> m M. destruct (string_dec _ _); [| congruence]. apply nth_error_In in M.
            apply (count_occ_In string_dec) in M. lia. }
          destruct a as [| a], b as [| b]; try reflexivity.
          - injection Ha as ->. exfalso. exact (Z eq_refl b Hb).
          - injection Hb as ->. exfalso. exact (Z eq_refl a Ha).
          - f_equal. apply IH; try assumption. destruct (string_dec _ _); lia. }
        pose proof (q_eff Q) as E1. pose proof (q_eff Q') as E2. rewrite GG in E1, E2.
        change (cascade_names format (casc y)) with (names y) in E1, E2.
        split; (apply UN; [apply name_index_nth; assumption | exact N]). }
      destruct KI as (-> & ->). rewrite (q_charges Q), (q_charges Q'), (proj2 (q_excl Q)), (proj2 (q_excl Q')).
      unfold the_raw, raw_charge. rewrite GG. destruct (D e E) as (_ & DE). rewrite (DE 5%nat) by lia.
      destruct (g_scale (casc y)), (g_relative (casc y)); ring.
  Qed.

  (** ** C146 *)

  Notation sized y := (forall inputs e c, length (net inputs e c) = g_filters (y_base y)).

  (** The density of the pulses is positive and its integral over all times, in
      nanoseconds, is one thousand; it is the mixture of the components. *)
  Theorem C146_density y rows charges pulses r e c : IsErf erf -> fits y rows -> sized y ->
    sys y rows charges pulses = Ok r -> (e < length rows)%nat -> InDetector c ->
    Mixture (a_comps r e c) /\
    exists f, IsDensity (sys y rows charges) e c f /\ (forall t, 0 < f t) /\ TotalMass f 1000 /\
      forall t, f t = Rsum (map (fun k => k_scale k *
        asymmetric_gauss ((t - nth 6 (nth e rows []) 0) / 1000) (k_mu k) (k_sigma k) (k_r k)) (a_comps r e c)).
  Proof.
    intros HE F SZ G E C. destruct (sys_ok y rows charges pulses r F G) as (add & A & _ & _ & EQ). rewrite EQ in G.
    split; [eapply C106_mixture; [| exact G]; intros; apply SZ |].
    destruct (C106_density format trafo mean std norm_const coords (fun _ => []) erf lgamma rel_eff
      (fun _ => net (shared y add rows)) (casc y) rows charges pulses r e c HE (fun _ e c => SZ (shared y add rows) e c) G E C) as (f & D & P & M & FE).
    exists f. split; [| auto]. intros t. rewrite EQ. exact (D t).
  Qed.

  (** The components are the outputs of the second network. *)
  Theorem C146_components y rows charges pulses r e c : fits y rows -> sized y ->
    sys y rows charges pulses = Ok r ->
    length (a_comps r e c) = g_models (y_base y) /\
    exists out q mu sigma skew weight, out = q ++ mu ++ sigma ++ skew ++ weight /\
      (exists inputs, out = net inputs e c) /\
      length mu = g_models (y_base y) /\ length sigma = g_models (y_base y) /\ length skew = g_models (y_base y) /\
      length weight = g_models (y_base y) /\
      forall k co, nth_error (a_comps r e c) k = Some co ->
        k_mu co = 1 + nth k mu 0 /\ k_sigma co = bend (2 + nth k sigma 0) + 1001 / 1000 /\
        k_r co = bend (1 + nth k skew 0) + 1001 / 1000 /\
        (exists total, total <> 0 /\ k_scale co = (bend (1 + nth k weight 0) + 100001 / 100000) / total).
  Proof.
    intros F SZ G. destruct (sys_ok y rows charges pulses r F G) as (add & A & _ & _ & EQ). rewrite EQ in G.
    destruct (C105_layout format trafo mean std norm_const coords (fun _ => []) erf lgamma rel_eff
      (fun _ => net (shared y add rows)) (casc y) rows charges None pulses r e c (fun _ e c => SZ (shared y add rows) e c) G) as (_ & L & q & mu & sigma & skew & weight & O & L1 & L2 & L3 & L4 & _ & H).
    split; [exact L |]. exists (net (shared y add rows) e c), q, mu, sigma, skew, weight.
    split; [exact O |]. split; [eexists; reflexivity |]. repeat (split; [assumption |]).
    intros k co K. destruct (H k co K) as (H1 & H2 & H3 & H4). specialize (H4 eq_refl). auto.
  Qed.

  (** The density of a pulse does not depend on the other pulses or the observed
      charges. *)
  Theorem C146_pulses y rows charges charges' pulses r j p f : fits y rows ->
    sys y rows charges pulses = Ok r -> nth_error pulses j = Some p ->
    IsDensity (sys y rows charges') (u_event p) (u_cell p) f -> nth_error (a_pdf r) j = Some (f (u_time p)).
  Proof.
    intros F G J D. destruct (sys_ok y rows charges pulses r F G) as (add & A & _ & _ & EQ). rewrite EQ in G.
    eapply C106_pulses; [exact G | exact J |]. intros t. specialize (D t). rewrite EQ in D. exact D.
  Qed.

  (** Excluded windows do not enter: over the times at which a DOM with a window is
      read out, the density has an integral of less than one thousand. *)
  Theorem C146_exclusions_refuted y rows charges pulses r e c x ro : IsErf erf -> fits y rows -> sized y ->
    sys y rows charges pulses = Ok r -> (e < length rows)%nat -> InDetector c ->
    x_event x = e -> x_cell x = c -> x_start x < x_stop x -> ReadOut [x] e c ro ->
    exists f m, IsDensity (sys y rows charges) e c f /\ TotalMass (fun t => f t * ro t) m /\ 0 < m < 1000.
  Proof.
    intros HE F SZ G E C XE XC XL RO. destruct (sys_ok y rows charges pulses r F G) as (add & A & _ & _ & EQ).
    rewrite EQ in G.
    assert (SZ' : forall (i : list (list (list R))) e c, length (net (shared y add rows) e c) = g_filters (casc y)) by (intros; apply SZ).
    pose proof (none_density format trafo mean std norm_const coords (fun _ => []) erf lgamma rel_eff
      (fun _ => net (shared y add rows)) (casc y) rows charges pulses r e c HE SZ' G E C) as DN.
    destruct (comps_mixture format trafo mean std norm_const coords (fun _ => []) erf lgamma rel_eff
      (fun _ => net (shared y add rows)) (casc y) rows charges None pulses r SZ' G e c) as (M & NE).
    assert (DD := mix_dist erf HE (the_time rows e) k_scale _ NE).
    specialize (DD ltac:(eapply Forall_impl; [| exact (proj1 M)]; cbn; intros; tauto) (mixture_wide _ M)).
    rewrite (proj2 M), Rmult_1_r in DD.
    assert (O : Ordered [x]) by (constructor; [lra | constructor]).
    assert (S : Separate [x]) by (constructor; [constructor | constructor]).
    eexists. eexists. split; [intros t; rewrite EQ; exact (DN t) |].
    split; [exact (allowed_mass _ _ _ DD [x] e c ro O S RO) |].
    pose proof (parts_range _ _ _ DD [x] e c O S) as R.
    match goal with |- 0 < 1000 - parts ?P _ _ _ < _ => assert (PP : 0 < parts P [x] e c) end; [| lra].
    unfold parts. cbn [filter]. unfold At. rewrite XE, XC, !Nat.eqb_refl. cbn [andb map]. rewrite Rsum_cons. unfold part.
    pose proof (dist_mono _ _ _ DD _ _ XL) as MO. change (Rsum []) with 0. cbn beta in MO |- *. lra.
  Qed.

  (** ** C147 *)

  (** Another time of the vertex, with the pulses shifted as much, changes
      nothing. *)
  Theorem C147_translation y rows rows' d charges pulses : fits y rows -> length rows' = length rows ->
    (forall e, (e < length rows)%nat -> Shifted (d e) (nth e rows []) (nth e rows' [])) ->
    SameTensors (length rows) (sys y rows' charges (map (shift_pulse d) pulses)) (sys y rows charges pulses).
  Proof.
    intros F L S. destruct (add_spec format y) as (add & A & _ & FA & _).
    assert (F' : fits y rows').
    { destruct F as (F1 & F2). split; [| exact F2]. apply Forall_forall. intros row I. apply (In_nth _ _ []) in I.
      destruct I as (e & E & <-). rewrite L in E. rewrite (proj1 (S e E)). rewrite Forall_forall in F1. apply F1. apply nth_In. exact E. }
    rewrite (sys_eq format trafo mean std norm_const coords local_vars erf lgamma rel_eff lnet net y rows charges pulses add F A).
    rewrite (sys_eq format trafo mean std norm_const coords local_vars erf lgamma rel_eff lnet net y rows' charges _ add F' A).
    destruct (Nat.eqb (length add) 0); [reflexivity |]. rewrite L.
    destruct (negb (Nat.eqb (length rows) 0) && Nat.ltb 1 (efficiencies (names y))); [reflexivity |].
    assert (SE : shared y add rows' = shared y add rows).
    { apply shared_ext; [exact L |]. intros e E. split.
      - intros j [J | J]; apply (shifted_nth (d e)); try exact (S e E); [cbn in J; lia |].
        rewrite Forall_forall in FA. destruct (FA j J) as (K & _). lia.
      - rewrite !(shifted_nth (d e) (nth e rows []) (nth e rows' [])) by (first [exact (S e E) | lia]). reflexivity. }
    rewrite SE. apply (C104_translation format trafo mean std norm_const coords (fun _ => []) erf lgamma rel_eff _ (casc y) rows rows' d
      charges None pulses L S).
    intros e E. destruct F as (F1 & _). rewrite Forall_forall in F1. rewrite (F1 _ (nth_In _ _ E)). unfold num_parameters. lia.
  Qed.

  (** Other angles for the same direction change nothing. *)
  Theorem C147_direction y rows rows' charges pulses : fits y rows -> length rows' = length rows ->
    (forall e, (e < length rows)%nat -> Turned (nth e rows []) (nth e rows' [])) ->
    SameTensors (length rows) (sys y rows' charges pulses) (sys y rows charges pulses).
  Proof.
    intros F L T. destruct (add_spec format y) as (add & A & _ & FA & _).
    assert (F' : fits y rows').
    { destruct F as (F1 & F2). split; [| exact F2]. apply Forall_forall. intros row I. apply (In_nth _ _ []) in I.
      destruct I as (e & E & <-). rewrite L in E. rewrite (proj1 (T e E)). rewrite Forall_forall in F1. apply F1. apply nth_In. exact E. }
    rewrite (sys_eq format trafo mean std norm_const coords local_vars erf lgamma rel_eff lnet net y rows charges pulses add F A).
    rewrite (sys_eq format trafo mean std norm_const coords local_vars erf lgamma rel_eff lnet net y rows' charges _ add F' A).
    destruct (Nat.eqb (length add) 0); [reflexivity |]. rewrite L.
    destruct (negb (Nat.eqb (length rows) 0) && Nat.ltb 1 (efficiencies (names y))); [reflexivity |].
    assert (SE : shared y add rows' = shared y add rows).
    { apply shared_ext; [exact L |]. intros e E. destruct (T e E) as (_ & T1 & T2 & T3 & T4). split.
      - intros j [J | J]; apply T1; try (cbn in J; lia); rewrite Forall_forall in FA; destruct (FA j J) as (K & _); lia.
      - unfold direction. rewrite <- !Ropp_mult_distr_l, T2, T3, T4. reflexivity. }
    rewrite SE. apply (C104_direction format trafo mean std norm_const coords (fun _ => []) erf lgamma rel_eff _ (casc y) rows rows'
      charges None pulses L T).
  Qed.

  (** The vertex enters through the displacements to the DOMs alone: with the
      detector and the vertex moved together, and no coordinates of the DOMs among
      the inputs, nothing changes. *)
  Theorem C147_position y rows rows' (v : R * R * R) coords' charges pulses : fits y rows -> length rows' = length rows ->
    g_coordinates (y_base y) = false ->
    (forall c, coords' c = (fst (fst (coords c)) + fst (fst v), snd (fst (coords c)) + snd (fst v), snd (coords c) + snd v)) ->
    (forall e, (e < length rows)%nat -> length (nth e rows' []) = length (nth e rows []) /\
      nth 0 (nth e rows' []) 0 = nth 0 (nth e rows []) 0 + fst (fst v) /\
      nth 1 (nth e rows' []) 0 = nth 1 (nth e rows []) 0 + snd (fst v) /\
      nth 2 (nth e rows' []) 0 = nth 2 (nth e rows []) 0 + snd v /\
      forall i, (3 <= i)%nat -> nth i (nth e rows' []) 0 = nth i (nth e rows []) 0) ->
    SameTensors (length rows)
      (systematic_get_tensors format trafo mean std norm_const coords' local_vars lgamma rel_eff lnet net y rows' charges pulses)
      (sys y rows charges pulses).
  Proof.
    intros F L NC CO H. destruct (add_spec format y) as (add & A & _ & FA & _).
    assert (F' : fits y rows').
    { destruct F as (F1 & F2). split; [| exact F2]. apply Forall_forall. intros row I. apply (In_nth _ _ []) in I.
      destruct I as (e & E & <-). rewrite L in E. rewrite (proj1 (H e E)). rewrite Forall_forall in F1. apply F1. apply nth_In. exact E. }
    rewrite (sys_eq format trafo mean std norm_const coords local_vars erf lgamma rel_eff lnet net y rows charges pulses add F A).
    rewrite (sys_eq format trafo mean std norm_const coords' local_vars erf lgamma rel_eff lnet net y rows' charges _ add F' A).
    destruct (Nat.eqb (length add) 0); [reflexivity |]. rewrite L.
    destruct (negb (Nat.eqb (length rows) 0) && Nat.ltb 1 (efficiencies (names y))); [reflexivity |].
    assert (DE : forall e c, (e < length rows)%nat ->
      displacement std norm_const coords' (nth e rows' []) c = displacement std norm_const coords (nth e rows []) c).
    { intros e c E. destruct (H e E) as (_ & H0 & H1 & H2 & _). unfold displacement. rewrite CO, H0, H1, H2.
      destruct (coords c) as [[x0 y0] z0]. cbn [fst snd].
      replace (x0 + fst (fst v) - (nth 0 (nth e rows []) 0 + fst (fst v))) with (x0 - nth 0 (nth e rows []) 0) by ring.
      replace (y0 + snd (fst v) - (nth 1 (nth e rows []) 0 + snd (fst v))) with (y0 - nth 1 (nth e rows []) 0) by ring.
      replace (z0 + snd v - (nth 2 (nth e rows []) 0 + snd v)) with (z0 - nth 2 (nth e rows []) 0) by ring. reflexivity. }
    assert (LE : local_inputs std norm_const coords' local_vars rows' = local_inputs std norm_const coords local_vars rows).
    { unfold local_inputs. rewrite (map_seq _ rows' []), (map_seq _ rows []), L. apply map_ext_in.
      intros e I. apply in_seq in I. apply map_ext. intros c. unfold local_input. rewrite (DE e c) by lia. reflexivity. }
    assert (SE : shared_inputs trafo mean std norm_const coords' local_vars lnet y add rows' = shared y add rows).
    { unfold shared_inputs. rewrite LE, (combine_seq rows' [] 0), (combine_seq rows [] 0), L, !map_map. apply map_ext_in.
      intros e I. apply in_seq in I. cbn [fst snd]. apply map_ext. intros c. unfold shared_input. rewrite (DE e c) by lia.
      destruct (H e ltac:(lia)) as (_ & _ & _ & _ & HI). rewrite !HI by lia. rewrite NC.
      destruct (coords' c) as [[x1 y1] z1], (coords c) as [[x0 y0] z0].
      rewrite (map_ext_in (fun i => trafo i (nth i (nth e rows' []) 0)) (fun i => trafo i (nth i (nth e rows []) 0)) add).
      - reflexivity.
      - intros i J. rewrite HI; [reflexivity |]. rewrite Forall_forall in FA. destruct (FA i J) as (K & _). lia. }
    rewrite SE. clear SE LE DE.
    set (net' := fun _ : list (list (list R)) => net (shared y add rows)).
    assert (FIN : forall co co' rs, length rs = length rows ->
      (forall e, (e < length rows)%nat -> length (nth e rs []) = length (nth e rows []) /\ forall i, (3 <= i)%nat -> nth i (nth e rs []) 0 = nth i (nth e rows []) 0) ->
      Forall (fun row => length row = num_parameters (casc y)) rs ->
      SameTensors (length rows)
        (cascade_get_tensors format trafo mean std norm_const co' (fun _ => []) erf lgamma rel_eff net' (casc y) rs charges None pulses)
        (cascade_get_tensors format trafo mean std norm_const co (fun _ => []) erf lgamma rel_eff net' (casc y) rows charges None pulses)).
    { intros co co' rs LR HR FR.
      destruct (shape_ok trafo mean std norm_const co' (fun _ => []) (casc y) rs FR (fun _ => eq_refl)) as (E7 & EW).
      destruct (shape_ok trafo mean std norm_const co (fun _ => []) (casc y) rows (proj1 F) (fun _ => eq_refl)) as (E7' & EW').
      cbv beta delta [cascade_get_tensors]. rewrite E7, E7'. cbv zeta. rewrite EW, EW'.
      destruct (negb _); [reflexivity |]. destruct (Nat.leb _ 1); [reflexivity |]. cbn [bind].
      match goal with |- SameTensors _ (bind ?x _) _ => destruct x as [k |] eqn:EFF end; [| exact eq_refl]. cbn [bind].
      assert (K : forall e, (e < length rows)%nat -> g_global (casc y) = true -> nth k (nth e rs []) 0 = nth k (nth e rows []) 0).
      { intros e E GG. rewrite GG in EFF. apply HR; [exact E |]. apply name_index_nth in EFF. unfold cascade_names in EFF.
        do 3 (destruct k as [| k]; [discriminate EFF |]). lia. }
      rewrite LR.
      match goal with |- SameTensors _ (bind (pulse_densities _ ?f _) _) (bind (pulse_densities _ ?f' _) _) =>
        assert (P : pulse_densities (length rows) f pulses = pulse_densities (length rows) f' pulses) end.
      { induction pulses as [| p ps IH]; [reflexivity |]. cbn [pulse_densities]. rewrite IH.
        destruct (in_range (length rows) (u_event p) (u_cell p)) eqn:IR; [| reflexivity].
        apply in_range_true in IR. rewrite (proj2 (HR _ (proj1 IR)) 6%nat) by lia. reflexivity. }
      match type of P with ?a = ?b => rewrite P; destruct b as [pdf |] end; [| exact eq_refl].
      cbn [bind SameTensors a_comps a_excl a_excl_sum a_charges a_unc a_var a_llh a_pdf option_map].
      match goal with |- _ /\ _ /\ _ /\ Agrees _ ?q ?q' /\ _ => assert (Q : forall e c, (e < length rows)%nat -> q e c = q' e c) end.
      { intros e c E. cbn beta. unfold raw_charge. rewrite (proj2 (HR e E) 5%nat) by lia. specialize (K e E).
        destruct (g_global (casc y)); [rewrite K by reflexivity |]; reflexivity. }
      cbn beta in Q.
      split; [intros e c _; reflexivity |]. split; [exact I |]. split; [exact I |]. split; [exact Q |].
      split; [intros e c E; cbn beta; rewrite Q by exact E; reflexivity |].
      split; [intros e c E; cbn beta; rewrite Q by exact E; reflexivity |].
      split; [| reflexivity].
      destruct (mode (casc y)); cbn [AgreesO]; try exact I; intros e c E; cbn beta; rewrite Q by exact E; reflexivity. }
    apply FIN; [exact L | | exact (proj1 F')].
    intros e E. destruct (H e E) as (H1 & _ & _ & _ & H5). split; assumption.
  Qed.

  (** What the networks are told about an event and a DOM; the charges follow from
      what the second network makes of it. *)
  Theorem C147_inputs y rows charges pulses r : fits y rows -> NoDup (names y) -> sys y rows charges pulses = Ok r ->
    exists first second,
      (forall e p c, (e < length rows)%nat -> nth_error detector_cells p = Some c ->
        coords c <> (nth 0 (nth e rows []) 0, nth 1 (nth e rows []) 0, nth 2 (nth e rows []) 0) ->
        Told trafo mean std norm_const y (names y) (coords c) (nth e rows []) (local_vars c) (lnet first e c)
          (nth p (nth e first []) []) (nth p (nth e second []) [])) /\
      length first = length rows /\ length second = length rows /\
      forall e c, exists k, a_charges r e c = exp (nth 0 (net second e c) 0) * k + 1 / 10000000 /\
        ((0 < nth 5 (nth e rows []) 0 /\ 0 < rel_eff c /\ forall i, (7 <= i)%nat -> 0 < nth i (nth e rows []) 0) -> 0 < k).
  Proof.
    intros F ND G. destruct (sys_ok y rows charges pulses r F G) as (add & A & _ & _ & EQ).
    exists (local_inputs std norm_const coords local_vars rows), (shared y add rows). split; [| split; [| split]].
    - intros e p c E P NE.
      assert (PL : (p < length detector_cells)%nat) by (apply nth_error_Some; congruence).
      assert (NP : nth p detector_cells (0, 0)%nat = c) by (apply nth_error_nth; exact P).
      assert (X1 : nth p (nth e (local_inputs std norm_const coords local_vars rows) []) []
        = local_input std norm_const coords local_vars (nth e rows []) c).
      { unfold local_inputs. rewrite (map_seq _ rows []).
        rewrite (nth_indep _ _ (map (local_input std norm_const coords local_vars (nth 0 rows [])) detector_cells))
          by (rewrite map_length, seq_length; exact E).
        rewrite (map_nth (fun e => map (local_input std norm_const coords local_vars (nth e rows [])) detector_cells) _ 0%nat e).
        rewrite seq_nth by exact E. cbn [Nat.add].
        rewrite (nth_indep _ _ (local_input std norm_const coords local_vars (nth e rows []) (0, 0)%nat)) by (rewrite map_length; exact PL).
        rewrite map_nth, NP. reflexivity. }
      assert (X2 : nth p (nth e (shared y add rows) []) []
        = shared_input trafo mean std norm_const coords y add (nth e rows []) c
            (lnet (local_inputs std norm_const coords local_vars rows) e c)).
      { unfold shared_inputs. rewrite (combine_seq rows [] 0), map_map. cbn [fst snd Nat.add].
        set (fe := fun e => map (fun c => shared_input trafo mean std norm_const coords y add (nth e rows []) c
          (lnet (local_inputs std norm_const coords local_vars rows) e c)) detector_cells).
        rewrite (nth_indep _ _ (fe 0%nat)) by (rewrite map_length, seq_length; exact E).
        rewrite (map_nth fe _ 0%nat e). rewrite seq_nth by exact E. cbn [Nat.add]. unfold fe.
        rewrite (nth_indep _ _ (shared_input trafo mean std norm_const coords y add (nth e rows []) (0, 0)%nat
          (lnet (local_inputs std norm_const coords local_vars rows) e (0, 0)%nat))) by (rewrite map_length; exact PL).
        rewrite (map_nth (fun c => shared_input trafo mean std norm_const coords y add (nth e rows []) c
          (lnet (local_inputs std norm_const coords local_vars rows) e c))), NP. reflexivity. }
      rewrite X1, X2. eapply told; eassumption.
    - unfold local_inputs. apply map_length.
    - unfold shared_inputs. rewrite map_length, combine_length, seq_length. lia.
    - intros e c. rewrite EQ in G. destruct (get_inv G) as (i & Q).
      exists ((if g_scale (y_base y) then nth 5 (nth e rows []) 0 / 10000 else 1) * (if g_relative (y_base y) then rel_eff c else 1)
        * (if has_efficiency format y then nth i (nth e rows []) 0 else 1)). split.
      + rewrite (q_charges Q), (proj2 (q_excl Q)). unfold the_raw, raw_charge.
        change (g_scale (casc y)) with (g_scale (y_base y)). change (g_relative (casc y)) with (g_relative (y_base y)).
        change (g_global (casc y)) with (has_efficiency format y).
        destruct (g_scale (y_base y)), (g_relative (y_base y)), (has_efficiency format y); ring.
      + intros (P5 & PR & PI). apply Rmult_lt_0_compat; [apply Rmult_lt_0_compat |].
        * destruct (g_scale (y_base y)); lra.
        * destruct (g_relative (y_base y)); lra.
        * destruct (has_efficiency format y) eqn:HF; [| lra]. apply PI. pose proof (q_eff Q) as EF.
          change (g_global (casc y)) with (has_efficiency format y) in EF. rewrite HF in EF. apply name_index_nth in EF.
          unfold cascade_names in EF. do 7 (destruct i as [| i]; [discriminate EF |]). lia.
  Qed.

  (** ** C148 *)

  (** The expected charge; the efficiency scales it if and only if it is a
      parameter. *)
  Theorem C148_charge y rows charges pulses r e c : fits y rows -> sys y rows charges pulses = Ok r ->
    exists inputs eff,
      (In "DOMEfficiency"%string (names y) ->
        exists i, nth_error (names y) i = Some "DOMEfficiency"%string /\ eff = nth i (nth e rows []) 0) /\
      (~ In "DOMEfficiency"%string (names y) -> eff = 1) /\
      a_charges r e c = exp (nth 0 (net inputs e c) 0)
        * (if g_scale (y_base y) then nth 5 (nth e rows []) 0 / 10000 else 1)
        * (if g_relative (y_base y) then rel_eff c else 1) * eff + 1 / 10000000.
  Proof.
    intros F G. destruct (sys_ok y rows charges pulses r F G) as (add & A & _ & _ & EQ). rewrite EQ in G.
    destruct (C110_charge format trafo mean std norm_const coords (fun _ => []) erf lgamma rel_eff
      (fun _ => net (shared y add rows)) (casc y) rows charges pulses r e c G) as (eff & E & Q).
    exists (shared y add rows), (if g_global (casc y) then eff else 1). pose proof (has_efficiency_in format y) as HI.
    change (g_global (casc y)) with (has_efficiency format y) in *. split; [| split].
    - intros I. rewrite (proj2 HI I) in *. exact (E eq_refl).
    - intros N. destruct (has_efficiency format y); [contradiction N; apply HI; reflexivity | reflexivity].
    - exact Q.
  Qed.

  (** It is positive for positive energies and efficiencies. *)
  Theorem C148_positive y rows charges pulses r e c : fits y rows -> sys y rows charges pulses = Ok r ->
    Forall (fun row => 0 <= nth 5 row 0 /\
      forall i, nth_error (names y) i = Some "DOMEfficiency"%string -> 0 <= nth i row 0) rows ->
    (forall c, 0 <= rel_eff c) -> 1 / 10000000 <= a_charges r e c.
  Proof.
    intros F G. destruct (sys_ok y rows charges pulses r F G) as (add & A & _ & _ & EQ). rewrite EQ in G.
    exact (C110_positive format trafo mean std norm_const coords (fun _ => []) erf lgamma rel_eff
      (fun _ => net (shared y add rows)) (casc y) rows charges None pulses r e c G).
  Qed.

  (** The variance is that of the configured distribution. *)
  Theorem C148_poisson y rows charges pulses r e c : fits y rows -> sys y rows charges pulses = Ok r ->
    (a_llh r = None <-> g_charge (y_base y) <> VBool true /\ g_charge (y_base y) <> VStr "negative_binomial") /\
    (a_llh r = None -> a_var r e c = a_charges r e c /\ a_unc r e c = sqrt (a_charges r e c)).
  Proof.
    intros F G. destruct (sys_ok y rows charges pulses r F G) as (add & A & _ & _ & EQ). rewrite EQ in G. split.
    - exact (C105_modes format trafo mean std norm_const coords (fun _ => []) erf lgamma rel_eff
      (fun _ => net (shared y add rows)) (casc y) rows charges None pulses r G).
    - exact (C110_poisson format trafo mean std norm_const coords (fun _ => []) erf lgamma rel_eff
      (fun _ => net (shared y add rows)) (casc y) rows charges None pulses r e c G).
  Qed.

  Theorem C148_negative_binomial y rows pulses e c charges r : IsLogGamma lgamma -> fits y rows ->
    g_charge (y_base y) = VStr "negative_binomial" -> sys y rows charges pulses = Ok r -> 0 < a_charges r e c ->
    exists p, Distribution p (a_charges r e c) (a_var r e c) /\ a_unc r e c = sqrt (a_var r e c) /\
      forall k charges', charges' e c = INR k ->
        exists r' llh v, sys y rows charges' pulses = Ok r' /\ a_llh r' = Some llh /\
          llh e c = Fin v /\ exp v = p k * INR (fact k).
  Proof.
    intros LG F GC G P. destruct (sys_ok y rows charges pulses r F G) as (add & A & _ & _ & EQ). rewrite EQ in G.
    destruct (C110_negative_binomial format trafo mean std norm_const coords (fun _ => []) erf lgamma rel_eff
      (fun _ => net (shared y add rows)) (casc y) rows None pulses e c charges r LG GC G P) as (p & D & U & H).
    exists p. split; [exact D |]. split; [exact U |]. intros k charges' CK. destruct (H k charges' CK) as (r' & llh & v & G' & X).
    exists r', llh, v. rewrite EQ. auto.
  Qed.

  Theorem C148_asymmetric y rows charges pulses r e c : fits y rows -> g_charge (y_base y) = VBool true ->
    sys y rows charges pulses = Ok r -> 1 / 10000000 <= a_charges r e c ->
    exists llh sigma skew, a_llh r = Some llh /\ a_var r e c = a_unc r e c ^ 2 /\
      9 / 10 * sqrt (a_charges r e c) < sigma /\ 9 / 10 < skew /\
      (5 < charges e c ->
        llh e c = Fin (ln (asymmetric_gauss (charges e c) (a_charges r e c) sigma skew + 1 / 10000000)) /\
        a_unc r e c = (sigma + sigma * skew) / 2) /\
      (charges e c <= 5 ->
        llh e c = Fin (charges e c * ln (a_charges r e c + 1 / 10000000) - a_charges r e c) /\
        a_unc r e c ^ 2 = a_charges r e c + 1 / 10000000).
  Proof.
    intros F GC G P. destruct (sys_ok y rows charges pulses r F G) as (add & A & _ & _ & EQ). rewrite EQ in G.
    exact (C110_asymmetric format trafo mean std norm_const coords (fun _ => []) erf lgamma rel_eff _ (casc y) rows charges None pulses
      r e c GC G P).
  Qed.
End Systematic.

(** ** Examples *)

Definition sys_config (labels : list string) : systematic_config :=
  {| y_base := {| g_labels := Some labels; g_snowstorm := None; g_opening := true; g_coordinates := true; g_local := 1;
                  g_filters := 9; g_models := 2; g_charge := VNone; g_sort := false; g_scale := true; g_relative := true;
                  g_global := false |};
     y_anisotropy := true; y_filters := 3 |}.
Definition sys_row (efficiency time : R) : list R := [1; 2; 3; 1; 2; 1000; time; 1 / 10; efficiency].

Section Example.
  Variable format : string -> nat -> string.
  Notation lvars := (fun _ : cell => [0]).
  Notation lnet := (fun (_ : list (list (list R))) (_ : nat) (_ : cell) => [0; 0; 0]).
  Notation net := (fun (_ : list (list (list R))) (_ : nat) (_ : cell) => [0; 0; 1; 0; 0; 0; 0; 0; 0]).
  Notation sys := (systematic_get_tensors format (fun _ v => v) (fun _ => 0) (fun _ => 1) 1 (fun _ => (0, 0, 0)) lvars
    (fun _ => 0) (fun _ => 1) lnet net).

  Example systematic_fits labels rows : Forall (fun row => length row = (7 + length labels)%nat) rows ->
    Fits lvars lnet (sys_config labels) rows.
  Proof.
    intros H. split; [| split]; try reflexivity. eapply Forall_impl; [| exact H]. intros row E. rewrite E.
    unfold num_parameters. cbn. lia.
  Qed.

  (** A batch of two events, with the efficiency as a parameter *)
  Example systematic_ex : exists r,
    sys (sys_config ["Absorption"; "DOMEfficiency"]) [sys_row 1 0; sys_row (9 / 10) 500] (fun _ _ => 0)
      [{| u_event := 1; u_cell := (85, 59)%nat; u_time := 700 |}] = Ok r /\ length (a_pdf r) = 1%nat.
  Proof.
    destruct (C144_accepted format (fun _ v => v) (fun _ => 0) (fun _ => 1) 1 (fun _ => (0, 0, 0)) lvars (fun _ => 0) (fun _ => 0)
      (fun _ => 1) lnet net (sys_config ["Absorption"; "DOMEfficiency"]) [sys_row 1 0; sys_row (9 / 10) 500] (fun _ _ => 0)
      [{| u_event := 1; u_cell := (85, 59)%nat; u_time := 700 |}]) as (r & G & L).
    - apply systematic_fits. repeat constructor.
    - exists 7%nat, "Absorption"%string. split; [lia |]. split; [reflexivity | discriminate].
    - cbn. lia.
    - reflexivity.
    - cbn. lia.
    - constructor; [split; [cbn; lia | split; cbn; lia] | constructor].
    - exists r. auto.
  Qed.

  (** Configurations that are rejected *)
  Example systematic_none_ex : ~ HasSystematic (systematic_names format (sys_config ["DOMEfficiency"])) /\
    ~ HasSystematic (systematic_names format (sys_config [])).
  Proof.
    split; intros (i & name & I & N & X).
    - cbn in N. do 7 (destruct i as [| i]; [lia |]). destruct i as [| i]; [injection N as <-; congruence |].
      destruct i; discriminate N.
    - cbn in N. do 7 (destruct i as [| i]; [lia |]). destruct i; discriminate N.
  Qed.

  Example systematic_twice_ex :
    (1 < efficiencies (systematic_names format (sys_config ["Absorption"; "DOMEfficiency"; "DOMEfficiency"])))%nat.
  Proof. cbn. lia. Qed.

  Example systematic_nodup_ex : NoDup (systematic_names format (sys_config ["Absorption"; "DOMEfficiency"])).
  Proof. cbn. repeat constructor; cbn; intuition discriminate. Qed.

  (** Rows that differ in the efficiency, the time, the angles *)
  Example systematic_rows_ex : DifferAt 8 (sys_row 1 0) (sys_row 2 0) /\ Shifted 3 (sys_row 1 0) (sys_row 1 3) /\
    Turned (sys_row 1 0) (sys_row 1 0) /\
    nth_error (systematic_names format (sys_config ["Absorption"; "DOMEfficiency"])) 8 = Some "DOMEfficiency"%string.
  Proof.
    split; [| split; [| split]].
    - split; [reflexivity |]. intros j J. do 8 (destruct j as [| j]; [reflexivity |]). destruct j as [| j]; [lia |].
      destruct j; reflexivity.
    - split; [reflexivity |]. intros i I. do 9 (destruct i as [| i]; [cbn; lra |]). cbn in I. lia.
    - repeat split; reflexivity.
    - reflexivity.
  Qed.
End Example.

Print Assumptions C144_accepted.
Print Assumptions C144_no_systematics.
Print Assumptions C144_twice.
Print Assumptions C144_layout.
Print Assumptions C144_extra_columns.
Print Assumptions C145_efficiency.
Print Assumptions C146_density.
Print Assumptions C146_components.
Print Assumptions C146_pulses.
Print Assumptions C146_exclusions_refuted.
Print Assumptions C147_translation.
Print Assumptions C147_direction.
Print Assumptions C147_position.
Print Assumptions C147_inputs.
Print Assumptions C148_charge.
Print Assumptions C148_positive.
Print Assumptions C148_poisson.
Print Assumptions C148_negative_binomial.
Print Assumptions C148_asymmetric.
