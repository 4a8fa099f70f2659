(** Properties C139-C143: what the Markov chain Monte Carlo samples, where the
    chains start, what is returned, step sizes and accepted settings. *)
From Verif Require Import RList PyFacts M_Trafo S_Trafo L_Trafo T_Trafo M_Opt M_Reco S_Reco L_Reco
  T_Reco M_Mcmc S_Mcmc L_Mcmc.

Section Properties.
  Variables (tr : trafo) (losses : list (array -> result R)) (seed : array).
  Variable sample : kernel -> schedule -> list event -> result (list (list draw) * list (list R)).
  Variables (se : settings) (results : dict array).
  Let n := length (se_fit se).

  (** The transformation of a successful run. *)
  Lemma run_trafo draws samples t :
    dget (se_tensor se) (tr_tensors tr) = Some t ->
    invert_samples tr (se_tensor se) (se_trafo se) n draws = Ok samples ->
    exists t s, (se_trafo se = true -> dget (se_tensor se) (tr_tensors tr) = Some t /\
       dget (se_tensor se) (tr_data tr) = Some s /\ ti_shape t = [n] /\ Fine t true []) /\
     samples = if se_trafo se then map (map (set_state (out_row tr t s))) draws else draws.
  Proof.
    intros ET H. destruct (se_trafo se).
    - destruct (invert_ok _ _ _ _ _ H) as (t' & s & E1 & E2 & E3 & F & ->). exists t', s.
      split; [intros _; auto | reflexivity].
    - injection H as <-. exists t, {| st_mean := []; st_std := []; st_shape := [] |}.
      split; [discriminate | reflexivity].
  Qed.

  (** The sampler gets as target, for every chain separately, minus the summed
      loss of all models at the physical parameters of that chain. *)
  Theorem C139_target out : Built tr -> execute_mcmc tr losses seed sample se results = Ok out ->
    exists k start draws steps,
      sample k (se_schedule se) start = Ok (draws, steps) /\
      kn_method k = se_method se /\ length start = se_chains se /\
      forall xs vs, (0 < se_chains se)%nat -> length xs = se_chains se ->
        Forall (fun x => length x = n) xs ->
        (kn_target k xs = Ok vs <->
         Forall2 (fun x v => exists p, Physical tr (se_tensor se) (se_trafo se) x p /\
                                       LossAt losses p (- v)) xs vs).
  Proof.
    intros HB H. destruct (execute_ok _ _ _ _ _ _ _ H)
      as (t & a & r & step & k & draws & steps & samples & ET & ER & EA & LR & AF & E1 & E2 & E3 & E4 & _ & _).
    exists k, (repeat r (se_chains se)), draws, steps. split; [exact E3 |].
    destruct (make_kernel_ok _ _ _ _ _ _ E2) as (K1 & K2 & _).
    split; [exact K1 |]. split; [apply repeat_length |]. intros xs vs C L F. rewrite K2.
    destruct (run_trafo _ _ _ ET E4) as (t' & s & SP & _).
    apply (target_ok tr losses seed se xs vs t' s); assumption.
  Qed.

  (** Every chain starts at the parameters of the earlier result as they are,
      whatever the space of the sampling. *)
  Theorem C140_start out : execute_mcmc tr losses seed sample se results = Ok out ->
    exists a r k draws steps,
      dget (se_reco_key se) results = Some a /\ ar_rows a = [r] /\
      sample k (se_schedule se) (repeat r (se_chains se)) = Ok (draws, steps).
  Proof.
    intros H. destruct (execute_ok _ _ _ _ _ _ _ H)
      as (t & a & r & step & k & draws & steps & samples & ET & ER & EA & LR & AF & E1 & E2 & E3 & E4 & _ & _).
    exists a, r, k, draws, steps. auto.
  Qed.

  (** The first value of the target: the loss at the earlier result when
      sampling in the original space, and otherwise the loss at what the
      transformation makes of it when applied backwards once too often. *)
  Theorem C140_first_value out : Built tr ->
    execute_mcmc tr losses seed sample se results = Ok out -> (0 < se_chains se)%nat ->
    exists a r k draws steps,
      dget (se_reco_key se) results = Some a /\ ar_rows a = [r] /\ length r = n /\
      sample k (se_schedule se) (repeat r (se_chains se)) = Ok (draws, steps) /\
      forall vs, kn_target k (repeat r (se_chains se)) = Ok vs ->
        length vs = se_chains se /\
        (se_trafo se = false -> Forall (fun v => LossAt losses r (- v)) vs) /\
        (se_trafo se = true -> exists p, Physical tr (se_tensor se) true r p /\
           Forall (fun v => LossAt losses p (- v)) vs).
  Proof.
    intros HB H C. destruct (execute_ok _ _ _ _ _ _ _ H)
      as (t & a & r & step & k & draws & steps & samples & ET & ER & EA & LR & AF & E1 & E2 & E3 & E4 & _ & _).
    exists a, r, k, draws, steps. split; [exact ER |]. split; [exact EA |].
    specialize (LR C). split; [exact LR |]. split; [exact E3 |].
    destruct (make_kernel_ok _ _ _ _ _ _ E2) as (K1 & K2 & _). rewrite K2. intros vs V.
    destruct (run_trafo _ _ _ ET E4) as (t' & s & SP & _).
    assert (FR : Forall (fun x : event => length x = length (se_fit se)) (repeat r (se_chains se))).
    { apply Forall_forall. intros x I. apply repeat_spec in I. subst x. exact LR. }
    apply (target_ok tr losses seed se _ vs t' s HB AF C (repeat_length _ _) FR SP) in V.
    split.
    { rewrite <- (repeat_length r (se_chains se)). clear - V. induction V; cbn [length]; lia. }
    assert (X : forall (m : nat) (us : list R) (Q : event -> R -> Prop), Forall2 Q (repeat r m) us -> Forall (Q r) us).
    { induction m as [| m IH]; intros us Q F; inversion F; subst; constructor; auto. }
    apply X in V. split; intros TR; rewrite TR in V.
    - eapply Forall_impl; [| exact V]. cbv beta. intros v (p & P & Q). cbn in P. subst p. exact Q.
    - destruct (SP TR) as (F1 & F2 & F3 & F4). exists (out_row tr t' s r).
      split; [apply (physical_out tr (se_tensor se) t' s n); assumption |].
      eapply Forall_impl; [| exact V]. cbv beta. intros v (p & P & Q).
      rewrite <- (physical_unique tr (se_tensor se) t' s n HB F1 F2 F3 r p LR P). exact Q.
  Qed.

  (** The values: exactly the accepted draws, result by result and chain by
      chain, at their physical parameters, each with its log probability. *)
  Theorem C141_accepted samples lps : Built tr ->
    execute_mcmc tr losses seed sample se results = Ok (samples, lps) ->
    exists k start draws steps,
      sample k (se_schedule se) start = Ok (draws, steps) /\
      (Shaped (sc_results (se_schedule se)) (se_chains se) n draws steps ->
       Kept (Physical tr (se_tensor se) (se_trafo se)) (concat draws) samples lps).
  Proof.
    intros HB H. destruct (execute_ok _ _ _ _ _ _ _ H)
      as (t & a & r & step & k & draws & steps & smp & ET & ER & EA & LR & AF & E1 & E2 & E3 & E4 & _ & OUT).
    exists k, (repeat r (se_chains se)), draws, steps. split; [exact E3 |]. intros (S1 & S2 & S3 & S4).
    injection OUT as -> ->.
    assert (FD : Forall (fun d => length (dr_state d) = n) (concat draws)).
    { clear - S2. induction S2 as [| ds draws (_ & F) S IH]; cbn [concat]; [constructor |].
      apply Forall_app. auto. }
    destruct (run_trafo _ _ _ ET E4) as (t' & s & SP & ->).
    destruct (se_trafo se).
    - destruct (SP eq_refl) as (F1 & F2 & F3 & F4). rewrite <- concat_map.
      clear - HB F1 F2 F3 FD. induction FD as [| d ds L F IH]; cbn [map filter]; [constructor |].
      change (dr_accepted (set_state (out_row tr t' s) d)) with (dr_accepted d).
      destruct (dr_accepted d) eqn:A; cbn [map].
      + change (dr_log_prob (set_state (out_row tr t' s) d)) with (dr_log_prob d).
        apply kept_take; [exact A | | exact IH].
        apply (physical_out tr (se_tensor se) t' s n); assumption.
      + apply kept_drop; assumption.
    - clear. induction (concat draws) as [| d ds IH]; cbn [filter]; [constructor |].
      destruct (dr_accepted d) eqn:A; cbn [map].
      + apply kept_take; [exact A | reflexivity | exact IH].
      + apply kept_drop; assumption.
  Qed.

  (** With a sampler that reports the target at its points, every returned log
      probability is minus the loss at the returned parameters. *)
  Theorem C141_log_prob samples lps : Built tr ->
    execute_mcmc tr losses seed sample se results = Ok (samples, lps) -> (0 < se_chains se)%nat ->
    exists k start draws steps,
      sample k (se_schedule se) start = Ok (draws, steps) /\
      (Shaped (sc_results (se_schedule se)) (se_chains se) n draws steps -> Honest k draws ->
       Forall2 (fun p v => LossAt losses p (- v)) samples lps).
  Proof.
    intros HB H C. pose proof (C141_accepted samples lps HB H) as _.
    destruct (execute_ok _ _ _ _ _ _ _ H)
      as (t & a & r & step & k & draws & steps & smp & ET & ER & EA & LR & AF & E1 & E2 & E3 & E4 & _ & OUT).
    exists k, (repeat r (se_chains se)), draws, steps. split; [exact E3 |].
    intros (S1 & S2 & S3 & S4) HO. injection OUT as -> ->.
    destruct (make_kernel_ok _ _ _ _ _ _ E2) as (K1 & K2 & _).
    destruct (run_trafo _ _ _ ET E4) as (t' & s & SP & ->).
    assert (FD : Forall (fun d => length (dr_state d) = n /\
        exists p, Physical tr (se_tensor se) (se_trafo se) (dr_state d) p /\
                  LossAt losses p (- dr_log_prob d)) (concat draws)).
    { clear S1 E3 E4 H. unfold Honest in HO. induction S2 as [| ds draws (L & F) S IH]; cbn [concat]; [constructor |].
      inversion HO as [| ? ? HO1 HO2]; subst. apply Forall_app. split; [| apply IH; exact HO2].
      rewrite K2 in HO1.
      assert (FL : Forall (fun x : event => length x = length (se_fit se)) (map dr_state ds)).
      { apply Forall_map. exact F. }
      apply (target_ok tr losses seed se (map dr_state ds) _ t' s HB AF C) in HO1;
        [| rewrite map_length; exact L | exact FL | exact SP].
      clear - HO1 F. induction F as [| d ds L F IH]; cbn [map] in *; [constructor |].
      inversion HO1; subst. constructor; [split; assumption | apply IH; assumption]. }
    destruct (se_trafo se).
    - destruct (SP eq_refl) as (F1 & F2 & F3 & F4). rewrite <- concat_map.
      clear - HB F1 F2 F3 FD. induction FD as [| d ds (L & p & P & Q) F IH]; cbn [map filter]; [constructor |].
      cbn [dr_accepted set_state]. destruct (dr_accepted d); cbn [map]; [| exact IH].
      constructor; [| exact IH]. cbn [dr_state set_state dr_log_prob].
      rewrite <- (physical_unique tr (se_tensor se) t' s n HB F1 F2 F3 (dr_state d) p L P). exact Q.
    - clear - FD. induction FD as [| d ds (L & p & P & Q) F IH]; cbn [map filter]; [constructor |].
      destruct (dr_accepted d); cbn [map]; [| exact IH].
      constructor; [| exact IH]. cbn in P. subst p. exact Q.
  Qed.

  (** The step sizes: one tenth for every parameter, one hundredth for the
      sixth if it is logarithmic; divided by the deviations in the transformed
      space. *)
  Theorem C142_steps out : execute_mcmc tr losses seed sample se results = Ok out ->
    exists k start draws steps,
      sample k (se_schedule se) start = Ok (draws, steps) /\ length (kn_step k) = n /\
      (se_trafo se = false -> forall i, (i < n)%nat -> nth i (kn_step k) 0 = 1 / 10) /\
      (se_trafo se = true -> exists t s flags,
         dget (se_tensor se) (tr_tensors tr) = Some t /\ dget (se_tensor se) (tr_data tr) = Some s /\
         ti_log t = Some flags /\
         forall i, (i < n)%nat ->
           (nth_error flags i = Some true -> nth i (kn_step k) 0 = 1 / 100 / nth i (st_std s) 0) /\
           (nth_error flags i <> Some true -> nth i (kn_step k) 0 = 1 / 10 / nth i (st_std s) 0)).
  Proof.
    intros H. destruct (execute_ok _ _ _ _ _ _ _ H)
      as (t & a & r & step & k & draws & steps & smp & ET & ER & EA & LR & AF & E1 & E2 & E3 & E4 & _ & OUT).
    exists k, (repeat r (se_chains se)), draws, steps. split; [exact E3 |].
    destruct (make_kernel_ok _ _ _ _ _ _ E2) as (K1 & _ & K3 & _). rewrite K3.
    destruct (step_sizes_ok _ _ _ _ _ _ E1) as (N & L & O & T). split; [exact L |]. split.
    - intros E i Hi. rewrite (O E). apply nth_repeat_in. exact Hi.
    - intros E. destruct (T E) as (t' & s & flags & T1 & T2 & T3 & _ & T5 & T6).
      exists t', s, flags. split; [exact T1 |]. split; [exact T2 |]. split; [exact T3 |].
      intros i Hi. rewrite (T6 i Hi). split.
      + intros F. destruct (T5 i F) as (-> & _). cbn [Nat.eqb andb].
        rewrite (nth_error_nth flags 5 false F). reflexivity.
      + intros F. destruct (Nat.eqb_spec i 5) as [-> | N5]; cbn [andb]; [| reflexivity].
        destruct (nth 5 flags false) eqn:NF; [| reflexivity]. exfalso. apply F.
        rewrite <- NF. apply nth_error_nth'.
        destruct (Nat.lt_ge_cases 5 (length flags)) as [A | A]; [exact A |].
        rewrite nth_overflow in NF by exact A. discriminate.
  Qed.

  (** Hamiltonian Monte Carlo takes three leapfrog steps and adapts its step
      sizes in the first four fifths of the burn-in, rounded down. *)
  Theorem C142_adaptation out : execute_mcmc tr losses seed sample se results = Ok out ->
    exists k start draws steps,
      sample k (se_schedule se) start = Ok (draws, steps) /\
      (se_method se = "HamiltonianMonteCarlo" -> exists m,
         kn_adaptation k = Some m /\ kn_leapfrog k = Some 3%nat /\
         (10 * m <= 8 * sc_burnin (se_schedule se) < 10 * (m + 1))%nat) /\
      (se_method se <> "HamiltonianMonteCarlo" -> kn_adaptation k = None /\ kn_leapfrog k = None).
  Proof.
    intros H. destruct (execute_ok _ _ _ _ _ _ _ H)
      as (t & a & r & step & k & draws & steps & smp & ET & ER & EA & LR & AF & E1 & E2 & E3 & E4 & _ & OUT).
    exists k, (repeat r (se_chains se)), draws, steps. split; [exact E3 |].
    destruct (make_kernel_ok _ _ _ _ _ _ E2)
      as (K1 & _ & _ & [(M & A & B & C) | [(M & A & B & C) | (M & A & B & C)]]); split;
      intros M'; try (rewrite M in M'; discriminate M'); try (rewrite M in M'; contradiction); auto.
    exists (sc_burnin (se_schedule se) * 8 / 10)%nat. split; [exact B |]. split; [exact A |].
    pose proof (Nat.div_mod (sc_burnin (se_schedule se) * 8) 10 ltac:(lia)).
    pose proof (Nat.mod_upper_bound (sc_burnin (se_schedule se) * 8) 10 ltac:(lia)). lia.
  Qed.

  (** What a run needs. *)
  Theorem C143_needed out : execute_mcmc tr losses seed sample se results = Ok out ->
    (forall i, (i < n)%nat -> Fitted (se_fit se) i) /\ n <> 1%nat /\
    In (se_method se) ["HamiltonianMonteCarlo"; "NoUTurnSampler"; "RandomWalkMetropolis"] /\
    (exists a r, dget (se_reco_key se) results = Some a /\ ar_rows a = [r]) /\
    (se_trafo se = true -> exists t flags, dget (se_tensor se) (tr_tensors tr) = Some t /\
       ti_log t = Some flags /\ ti_shape t = [n] /\ forall j, nth_error flags j = Some true -> j = 5%nat /\ (5 < n)%nat) /\
    (se_method se = "HamiltonianMonteCarlo" ->
       (forall k sch start draws steps, sample k sch start = Ok (draws, steps) ->
          Shaped (sc_results sch) (se_chains se) (length (kn_step k)) draws steps) ->
       (7 <= n)%nat /\ (0 < sc_results (se_schedule se))%nat).
  Proof.
    intros H. destruct (execute_ok _ _ _ _ _ _ _ H)
      as (t & a & r & step & k & draws & steps & smp & ET & ER & EA & LR & AF & E1 & E2 & E3 & E4 & E5 & OUT).
    destruct (step_sizes_ok _ _ _ _ _ _ E1) as (N & L & O & T).
    split.
    { intros i Hi. unfold Fitted. rewrite Forall_forall in AF.
      destruct (nth_error (se_fit se) i) as [b |] eqn:E.
      - f_equal. apply AF. eapply nth_error_In. exact E.
      - apply nth_error_None in E. unfold n in Hi. lia. }
    split; [exact N |].
    destruct (make_kernel_ok _ _ _ _ _ _ E2) as (K1 & _ & K3 & M). split.
    { destruct M as [(M & _) | [(M & _) | (M & _)]]; rewrite M; cbn; tauto. }
    split; [exists a, r; auto |]. split.
    { intros E. destruct (T E) as (t' & s & flags & T1 & T2 & T3 & _ & T5 & _).
      exists t', flags. split; [exact T1 |]. split; [exact T3 |]. split; [| exact T5].
      destruct (run_trafo _ _ _ ET E4) as (t'' & s' & SP & _).
      destruct (SP E) as (X1 & _ & X3 & _). congruence. }
    intros M' SH. destruct (E5 M') as (st & rest & -> & L7).
    destruct (SH _ _ _ _ _ E3) as (_ & _ & S3 & S4). inversion S4 as [| ? ? S5 _]; subst.
    cbn [length] in S3. unfold n. split; [| lia]. rewrite <- L. lia.
  Qed.

  (** And what is enough, with a sampler that succeeds and returns arrays of
      the requested shapes. *)
  Theorem C143_enough a r t :
    (forall k sch start, exists draws steps, sample k sch start = Ok (draws, steps) /\
       Shaped (sc_results sch) (se_chains se) (length (kn_step k)) draws steps) ->
    Forall (fun b => b = true) (se_fit se) -> (5 < n)%nat ->
    In (se_method se) ["HamiltonianMonteCarlo"; "NoUTurnSampler"; "RandomWalkMetropolis"] ->
    (se_method se = "HamiltonianMonteCarlo" -> (7 <= n)%nat /\ (0 < sc_results (se_schedule se))%nat) ->
    dget (se_reco_key se) results = Some a -> ar_rows a = [r] -> length r = n ->
    dget (se_tensor se) (tr_tensors tr) = Some t ->
    (se_trafo se = true -> Built tr /\ ti_shape t = [n] /\
       (exists d, transform (Some tr) {| ar_shape := [n]; ar_rows := [r] |} (se_tensor se) true = Ok d) /\
       exists flags, ti_log t = Some flags /\ forall j, nth_error flags j = Some true -> j = 5%nat) ->
    exists out, execute_mcmc tr losses seed sample se results = Ok out.
  Proof.
    intros SA AF N5 M MH ER EA LR ET SP. unfold execute_mcmc. rewrite ET, ER, EA. cbv zeta.
    fold n. rewrite LR, (Nat.mul_comm n), Nat.eqb_refl. cbn [negb].
    apply all_fitted_iff in AF. rewrite (all_fitted_num _ AF). fold n. rewrite Nat.eqb_refl. cbn [negb].
    unfold run_mcmc_on_events. cbn [ar_shape ar_rows table last]. cbv zeta.
    rewrite repeat_length, Nat.eqb_refl. cbn [negb].
    assert (ST : exists step, step_sizes tr (se_tensor se) (se_method se) n (se_trafo se) (se_fit se) = Ok step /\ length step = n).
    { unfold step_sizes. rewrite ET, plain_steps_many by lia. destruct (se_trafo se).
      - destruct (SP eq_refl) as (HB & SHP & (d & TD) & flags & EL & FL). rewrite EL.
        destruct (log_steps_total flags 0 (repeat (1 / 10) n)) as (st & E);
          [rewrite repeat_length; exact N5 | intros j J; specialize (FL j J); lia |].
        rewrite E. cbn [bind]. destruct (log_steps_ok _ _ _ _ E) as (_ & L & _).
        rewrite repeat_length in L. destruct (transform_known _ _ _ _ TD) as (s & ES). rewrite ES.
        destruct (stats_facts tr (se_tensor se) t s n HB ET ES SHP) as (_ & L2 & _).
        rewrite L2, L, Nat.eqb_refl. cbn [bind]. rewrite zipw_length, L, L2, Nat.min_id. fold n.
        rewrite Nat.eqb_refl. eexists. split; [reflexivity |]. rewrite zipw_length, L, L2. apply Nat.min_id.
      - cbn [bind]. rewrite repeat_length. fold n. rewrite Nat.eqb_refl. eexists.
        split; [reflexivity | apply repeat_length]. }
    destruct ST as (step & E1 & L1). rewrite E1. cbn [bind].
    match goal with |- context [make_kernel ?m ?f ?s ?b ?z] =>
      assert (MK : exists k, make_kernel m f s b z = Ok k /\ kn_step k = step) end.
    { unfold make_kernel. destruct M as [<- | [<- | [<- | []]]]; cbn; eexists; split; reflexivity. }
    destruct MK as (k & EK & EKS). rewrite EK. cbn [bind].
    destruct (SA k (se_schedule se) (repeat r (se_chains se))) as (draws & steps & E3 & SHD).
    rewrite E3. cbn [bind fst snd].
    assert (IV : exists smp, invert_samples tr (se_tensor se) (se_trafo se) n draws = Ok smp).
    { destruct (se_trafo se); [| eexists; reflexivity].
      destruct (SP eq_refl) as (HB & SHP & (d & TD) & _). apply transform_ok in TD.
      destruct TD as (t' & s & X1 & X2 & X3 & X4 & _). assert (t' = t) by congruence. subst t'.
      apply (invert_total tr (se_tensor se) n t s); auto. eapply fine_rows. exact X4. }
    destruct IV as (smp & E4). rewrite E4. cbn [bind fst snd].
    destruct (String.eqb_spec (se_method se) hmc) as [EH | _]; [| eexists; reflexivity].
    destruct (MH EH) as (N7 & R0). destruct SHD as (_ & _ & S3 & S4).
    destruct steps as [| st rest]; [cbn in S3; lia |]. inversion S4 as [| ? ? S5 _]; subst.
    destruct (Nat.ltb_spec (length st) 7); [lia |]. eexists. reflexivity.
  Qed.

  (** The random walk always has the seed 42 and the setting [random_seed] has
      no effect. *)
  Theorem C143_seed out z : execute_mcmc tr losses seed sample se results = Ok out ->
    (exists k start draws steps, sample k (se_schedule se) start = Ok (draws, steps) /\
       (se_method se = "RandomWalkMetropolis" -> kn_seed k = Some 42%Z) /\
       (se_method se <> "RandomWalkMetropolis" -> kn_seed k = None)) /\
    execute_mcmc tr losses seed sample
      {| se_fit := se_fit se; se_reco_key := se_reco_key se; se_trafo := se_trafo se;
         se_tensor := se_tensor se; se_chains := se_chains se; se_schedule := se_schedule se;
         se_method := se_method se; se_random_seed := z |} results = Ok out.
  Proof.
    intros H. split; [| exact H]. destruct (execute_ok _ _ _ _ _ _ _ H)
      as (t & a & r & step & k & draws & steps & smp & ET & ER & EA & LR & AF & E1 & E2 & E3 & E4 & _ & OUT).
    exists k, (repeat r (se_chains se)), draws, steps. split; [exact E3 |].
    destruct (make_kernel_ok _ _ _ _ _ _ E2)
      as (K1 & _ & _ & [(M & A & B & C) | [(M & A & B & C) | (M & A & B & C)]]); split;
      intros M'; try (rewrite M in M'; discriminate M'); try (rewrite M in M'; contradiction); auto.
  Qed.
End Properties.

(** ** Examples: seven parameters with a logarithmic energy *)

Definition mx_flags : list bool := [false; false; false; false; false; true; false].
Definition mx_t : tinfo := {| ti_exists := true; ti_trafo := true; ti_shape := [7%nat]; ti_axes := Some [];
  ti_log := Some mx_flags; ti_log_axis := (-1)%Z |}.
Definition mx_ts : dict tinfo := [("x", mx_t)].
Definition mx_bs : list batch := [[Some [[1; 1; 1; 1; 1; 1; 1]]]].

Example mcmc_trafo_ex : exists tr s, Built tr /\ dget "x" (tr_tensors tr) = Some mx_t /\
  dget "x" (tr_data tr) = Some s /\ nth 0 (st_mean s) 0 = 1 /\
  forall r, exists d, transform (Some tr) {| ar_shape := [7%nat]; ar_rows := [r] |} "x" true = Ok d.
Proof.
  assert (Hwf : dwf mx_ts) by (repeat constructor; cbn; intuition discriminate).
  assert (HC : exists tr, configure None mx_ts (1 / 1000000) mx_bs 1 = Ok tr).
  { cbv -[Reqb zipw cell_mean log1p IZR Rplus Rdiv sqrt kept_shape].
    replace (Reqb (0 + 1) 0) with false by (symmetry; apply Reqb_false; lra).
    eexists. reflexivity. }
  destruct HC as [tr HC]. exists tr.
  assert (HB : Built tr) by (exists mx_ts, (1 / 1000000), mx_bs, 1%nat; split; [exact Hwf|split; [lra|exact HC]]).
  destruct (configure_at None mx_ts _ _ _ tr "x" mx_t 0 HC Hwf eq_refl eq_refl) as (_ & _ & E1 & _ & _).
  destruct (C22_no_reduction None mx_ts _ mx_bs 1 tr 0 "x" mx_t HC Hwf eq_refl eq_refl eq_refl
              ltac:(discriminate) eq_refl) as (s & E2 & ST).
  exists s. split; [exact HB |]. rewrite E1. split; [reflexivity |]. split; [exact E2 |]. split.
  - destruct (ST 0%nat [1] ltac:(cbn; lia)) as (M & _).
    + constructor; [| constructor]. exists 1. split; [reflexivity |].
      split; [| reflexivity]. intros L.
      apply (logged_spec mx_t 7 0 eq_refl ltac:(lia)) in L. discriminate L.
    + rewrite (nth_error_nth _ _ 0 M). unfold pop_mean, Rsum. cbn. field.
  - intros r. eexists. apply transform_ok. exists mx_t, s. rewrite E1. split; [reflexivity |].
    split; [exact E2 |]. split; [reflexivity |]. split; [| reflexivity].
    intros flags Hfl _. injection Hfl as <-. split; reflexivity.
Qed.

Definition mx_se (in_trafo : bool) : settings :=
  {| se_fit := repeat true 7; se_reco_key := "reco"; se_trafo := in_trafo; se_tensor := "x";
     se_chains := 2%nat;
     se_schedule := {| sc_results := 3%nat; sc_burnin := 9%nat; sc_between := 0%nat; sc_parallel := 1%nat |};
     se_method := "HamiltonianMonteCarlo"; se_random_seed := 7%Z |}.

Definition mx_results : dict array := [("reco", {| ar_shape := [7%nat]; ar_rows := [repeat 0 7] |})].

Definition mx_losses : list (array -> result R) := [fun a => Ok (cell a 0 0); fun a => Ok (cell a 0 5 + 1)].

(** A sampler whose chains stay where they start; only every second chain is
    accepted. *)
Definition mx_draws (start : list event) (vs : list R) : list draw :=
  map (fun i => {| dr_state := nth i start []; dr_accepted := Nat.even i; dr_log_prob := nth i vs 0 |})
      (seq 0 (length start)).

Definition mx_sample (k : kernel) (sch : schedule) (start : list event)
  : result (list (list draw) * list (list R)) :=
  bind (kn_target k start) (fun vs =>
  Ok (repeat (mx_draws start vs) (sc_results sch), repeat (kn_step k) (sc_results sch))).

Lemma map_nth_seq {A} (l : list A) d : map (fun i => nth i l d) (seq 0 (length l)) = l.
Proof.
  apply (nth_ext _ _ d d); rewrite map_length, seq_length; [reflexivity |]. intros i Hi.
  rewrite (nth_indep _ d (nth 0 l d)) by (rewrite map_length, seq_length; exact Hi).
  rewrite (map_nth (fun i => nth i l d)), seq_nth by exact Hi. reflexivity.
Qed.

Lemma mx_sample_honest k sch start draws steps : mx_sample k sch start = Ok (draws, steps) ->
  (forall vs, kn_target k start = Ok vs -> length vs = length start) ->
  Forall (fun x => length x = length (kn_step k)) start ->
  Honest k draws /\ Shaped (sc_results sch) (length start) (length (kn_step k)) draws steps.
Proof.
  intros H LV FS. unfold mx_sample in H. obind H vs E. injection H as <- <-. split.
  - apply Forall_forall. intros ds I. apply repeat_spec in I. subst ds. unfold mx_draws. rewrite !map_map.
    cbn [dr_state dr_log_prob]. rewrite map_nth_seq. rewrite <- (LV vs E), map_nth_seq. exact E.
  - split; [apply repeat_length |]. split.
    + apply Forall_forall. intros ds I. apply repeat_spec in I. subst ds. unfold mx_draws.
      split; [rewrite map_length, seq_length; reflexivity |]. apply Forall_map. cbn [dr_state].
      apply Forall_forall. intros i Hi. apply in_seq in Hi. rewrite Forall_forall in FS.
      apply FS, nth_In. lia.
    + split; [apply repeat_length |]. apply Forall_forall. intros x I. apply repeat_spec in I. subst x. reflexivity.
Qed.

(** A sampler that is always successful. *)
Definition mx_total (k : kernel) (sch : schedule) (start : list event)
  : result (list (list draw) * list (list R)) :=
  Ok (repeat (repeat {| dr_state := repeat 0 (length (kn_step k)); dr_accepted := true; dr_log_prob := 0 |} 2)
        (sc_results sch), repeat (kn_step k) (sc_results sch)).

Lemma mx_total_shaped k sch start : exists draws steps, mx_total k sch start = Ok (draws, steps) /\
  Shaped (sc_results sch) 2 (length (kn_step k)) draws steps.
Proof.
  eexists. eexists. split; [reflexivity |]. split; [apply repeat_length |]. split.
  - apply Forall_forall. intros ds I. apply repeat_spec in I. subst ds. split; [reflexivity |].
    repeat constructor; apply repeat_length.
  - split; [apply repeat_length |]. apply Forall_forall. intros x I. apply repeat_spec in I. subst x. reflexivity.
Qed.

(** A run in either space. *)
Example mcmc_ex : exists tr, Built tr /\ forall in_trafo, exists out,
  execute_mcmc tr mx_losses (table 7 []) mx_total (mx_se in_trafo) mx_results = Ok out.
Proof.
  destruct mcmc_trafo_ex as (tr & s & HB & ET & ES & _ & TD). exists tr. split; [exact HB |].
  intros in_trafo. apply (C143_enough tr mx_losses (table 7 []) mx_total (mx_se in_trafo) mx_results
    {| ar_shape := [7%nat]; ar_rows := [repeat 0 7] |} (repeat 0 7) mx_t).
  - exact mx_total_shaped.
  - repeat constructor.
  - cbn. lia.
  - left. reflexivity.
  - intros _. cbn. lia.
  - reflexivity.
  - reflexivity.
  - reflexivity.
  - exact ET.
  - intros _. split; [exact HB |]. split; [reflexivity |]. split; [apply TD |].
    exists mx_flags. split; [reflexivity |]. intros j J.
    do 7 (destruct j as [| j]; [first [discriminate J | reflexivity] |]). destruct j; discriminate J.
Qed.

Lemma mx_steps tr : dget "x" (tr_tensors tr) = Some mx_t ->
  step_sizes tr "x" "HamiltonianMonteCarlo" 7 false [true; true; true; true; true; true; true] =
  Ok [1 / 10; 1 / 10; 1 / 10; 1 / 10; 1 / 10; 1 / 10; 1 / 10].
Proof. intros ET. unfold step_sizes. rewrite ET. reflexivity. Qed.

(** A run whose sampler reports the target; the second chain is not accepted. *)
Example mcmc_honest_ex : exists tr out, Built tr /\
  execute_mcmc tr mx_losses (table 7 []) mx_sample (mx_se false) mx_results = Ok out /\
  fst out = repeat (repeat 0 7) 3 /\ length (snd out) = 3%nat.
Proof.
  destruct mcmc_trafo_ex as (tr & s & HB & ET & _). exists tr. eexists. split; [exact HB |].
  unfold execute_mcmc. cbn [se_tensor mx_se]. rewrite ET.
  cbv -[Rplus IZR Ropp Rdiv step_sizes]. rewrite (mx_steps tr ET). cbv -[Rplus IZR Ropp Rdiv].
  split; [reflexivity |]. split; reflexivity.
Qed.

(** In the transformed space the chains do not start at the earlier result. *)
Theorem C140_refuted : exists tr losses seed sample se results out a r p,
  Built tr /\ execute_mcmc tr losses seed sample se results = Ok out /\ (0 < se_chains se)%nat /\
  se_trafo se = true /\ dget (se_reco_key se) results = Some a /\ ar_rows a = [r] /\
  Physical tr (se_tensor se) (se_trafo se) r p /\ p <> r.
Proof.
  destruct mcmc_trafo_ex as (tr & s & HB & ET & ES & M & TD).
  assert (X : exists out, execute_mcmc tr mx_losses (table 7 []) mx_total (mx_se true) mx_results = Ok out).
  { apply (C143_enough tr mx_losses (table 7 []) mx_total (mx_se true) mx_results
      {| ar_shape := [7%nat]; ar_rows := [repeat 0 7] |} (repeat 0 7) mx_t); try reflexivity.
    - exact mx_total_shaped.
    - repeat constructor.
    - cbn. lia.
    - left. reflexivity.
    - intros _. cbn. lia.
    - exact ET.
    - intros _. split; [exact HB |]. split; [reflexivity |]. split; [apply TD |].
      exists mx_flags. split; [reflexivity |]. intros j J.
      do 7 (destruct j as [| j]; [first [discriminate J | reflexivity] |]). destruct j; discriminate J. }
  destruct X as (out & X).
  exists tr, mx_losses, (table 7 []), mx_total, (mx_se true), mx_results, out,
    {| ar_shape := [7%nat]; ar_rows := [repeat 0 7] |}, (repeat 0 7), (out_row tr mx_t s (repeat 0 7)).
  split; [exact HB |]. split; [exact X |]. split; [cbn; lia |]. split; [reflexivity |].
  split; [reflexivity |]. split; [reflexivity |]. split.
  - apply (physical_out tr "x" mx_t s 7 HB ET ES eq_refl). reflexivity.
  - intros E. assert (E0 : nth 0 (out_row tr mx_t s (repeat 0 7)) 0 = 0) by (rewrite E; reflexivity).
    rewrite (out_row_nth tr "x" mx_t s 7 HB ET ES eq_refl (repeat 0 7) 0 eq_refl ltac:(lia)) in E0.
    unfold exp_out in E0. change (logged mx_t 0) with false in E0. cbv iota in E0.
    unfold mean_at in E0. rewrite M in E0. cbn [nth repeat] in E0. lra.
Qed.

(** The step sizes which the code lists for seven parameters are not used. *)
Theorem C142_refuted : exists tr losses seed sample se results out,
  execute_mcmc tr losses seed sample se results = Ok out /\
  se_method se = "HamiltonianMonteCarlo" /\ length (se_fit se) = 7%nat /\ se_trafo se = false /\
  forall k sch start draws steps, sample k sch start = Ok (draws, steps) ->
    nth 5 (kn_step k) 0 = 1 / 10 /\ nth 5 (kn_step k) 0 <> 10.
Proof.
  destruct mcmc_trafo_ex as (tr & s & HB & ET & ES & M & TD).
  exists tr, mx_losses, (table 7 []),
    (fun k sch start => if Reqb (nth 5 (kn_step k) 0) (1 / 10) then mx_total k sch start else Err ValueError),
    (mx_se false), mx_results.
  eexists. split; [| split; [reflexivity |]; split; [reflexivity |]; split; [reflexivity |]].
  - unfold execute_mcmc. cbn [se_tensor mx_se]. rewrite ET.
    cbv -[Rplus IZR Ropp Rdiv Reqb step_sizes]. rewrite (mx_steps tr ET). cbv -[Rplus IZR Ropp Rdiv Reqb].
    rewrite (proj2 (Reqb_true (1 / 10) (1 / 10)) eq_refl). reflexivity.
  - intros k sch start draws steps H. destruct (Reqb (nth 5 (kn_step k) 0) (1 / 10)) eqn:E; [| discriminate].
    apply Reqb_true in E. split; [exact E |]. rewrite E. lra.
Qed.
Print Assumptions C139_target.
Print Assumptions C140_start.
Print Assumptions C140_first_value.
Print Assumptions C141_accepted.
Print Assumptions C141_log_prob.
Print Assumptions C142_steps.
Print Assumptions C142_adaptation.
Print Assumptions C143_needed.
Print Assumptions C143_enough.
Print Assumptions C143_seed.
Print Assumptions C140_refuted.
Print Assumptions C142_refuted.
