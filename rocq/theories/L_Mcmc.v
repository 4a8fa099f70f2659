(** Lemmas about the Markov chain Monte Carlo. *)
From Verif Require Import RList PyFacts M_Trafo S_Trafo L_Trafo T_Trafo M_Opt M_Reco S_Reco L_Reco
  M_Mcmc S_Mcmc.

Tactic Notation "obind" hyp(H) ident(x) ident(E) := apply bind_ok in H as (x & E & H).

Lemma num_fitted_all fit : length fit = num_fitted fit -> Forall (fun b => b = true) fit.
Proof.
  unfold num_fitted. induction fit as [| b fit IH]; intros H; [constructor |].
  assert (L : (length (filter (fun b => b) fit) <= length fit)%nat).
  { clear. induction fit as [| [|] fit IH]; cbn [filter length]; lia. }
  destruct b; cbn [filter length] in H; [constructor; [reflexivity | apply IH; lia] | lia].
Qed.

Lemma all_fitted_iff fit : all_fitted fit = true <-> Forall (fun b => b = true) fit.
Proof.
  unfold all_fitted. rewrite forallb_forall, Forall_forall. split; auto.
Qed.

Lemma clip_minmax y : clip y = Rmax (-60) (Rmin 60 y).
Proof.
  unfold clip. destruct (Rltb y (-60)) eqn:A.
  - apply Rltb_true in A. rewrite Rmin_right, Rmax_left by lra. reflexivity.
  - apply Rltb_false in A. destruct (Rltb 60 y) eqn:B.
    + apply Rltb_true in B. rewrite Rmin_left, Rmax_right by lra. reflexivity.
    + apply Rltb_false in B. rewrite Rmin_right, Rmax_right by lra. reflexivity.
Qed.

(** ** The transformation back, row by row *)

Definition out_row (tr : trafo) (t : tinfo) (s : stats) (x : event) : event :=
  back t true true (denorm tr s true x).

Section Rows.
  Variables (tr : trafo) (name : string) (t : tinfo) (s : stats) (n : nat).
  Hypothesis HB : Built tr.
  Hypothesis HT : dget name (tr_tensors tr) = Some t.
  Hypothesis HS : dget name (tr_data tr) = Some s.
  Hypothesis SH : ti_shape t = [n].

  Lemma out_row_length x : length x = n -> length (out_row tr t s x) = n.
  Proof.
    intros L. destruct (stats_facts tr name t s n HB HT HS SH) as (L1 & L2 & P & N).
    unfold out_row. rewrite back_length.
    rewrite (proj2 (norm_length tr s true x ltac:(lia) ltac:(lia))). exact L.
  Qed.

  Lemma out_row_nth x i : length x = n -> (i < n)%nat ->
    nth i (out_row tr t s x) 0 = exp_out t true i (nth i x 0 * dev_at tr s i + mean_at s i).
  Proof.
    intros L Hi. apply nth_error_nth. apply back_nth.
    apply (norm_nth tr name t s n HB HT HS SH x i (nth i x 0) L).
    apply nth_error_nth'. lia.
  Qed.

  Lemma physical_out x : length x = n -> Physical tr name true x (out_row tr t s x).
  Proof.
    intros L. exists t, s. split; [exact HT |]. split; [exact HS |].
    split; [rewrite out_row_length by exact L; lia |]. intros i y Hi ->.
    rewrite L in Hi. rewrite (out_row_nth x i L Hi).
    pose proof (logged_spec t n i SH Hi) as LS. pose proof (mixed_spec t) as MS.
    unfold exp_out, dev_at, mean_at. destruct (logged t i).
    - destruct (mixed t); cbn [andb]; rewrite ?clip_minmax; split; try (intros F; exfalso; apply F, LS; reflexivity);
        split; intros _ F; try reflexivity.
      + exfalso. apply F, MS. reflexivity.
      + apply MS in F. discriminate.
    - split; [reflexivity |]. split; intros F; apply LS in F; discriminate.
  Qed.

  Lemma physical_unique x p : length x = n -> Physical tr name true x p -> p = out_row tr t s x.
  Proof.
    intros L (t' & s' & E1 & E2 & Lp & F).
    assert (t' = t) by congruence. assert (s' = s) by congruence. subst t' s'.
    apply (nth_ext _ _ 0 0); [rewrite out_row_length by exact L; lia |].
    intros i Hi. assert (Hn : (i < n)%nat) by lia.
    rewrite (out_row_nth x i L Hn).
    destruct (F i _ ltac:(lia) eq_refl) as (F1 & F2 & F3).
    pose proof (logged_spec t n i SH Hn) as LS. pose proof (mixed_spec t) as MS.
    unfold exp_out, dev_at, mean_at. destruct (logged t i).
    - destruct (mixed t); cbn [andb]; rewrite ?clip_minmax.
      + apply F3; [apply LS | apply MS]; reflexivity.
      + apply F2; [apply LS; reflexivity |]. intros M. apply MS in M. discriminate.
    - apply F1. intros M. apply LS in M. discriminate.
  Qed.
End Rows.

Definition set_state (g : event -> event) (d : draw) : draw :=
  {| dr_state := g (dr_state d); dr_accepted := dr_accepted d; dr_log_prob := dr_log_prob d |}.

Lemma zipw_set g d :
  zipw (fun r x => {| dr_state := r; dr_accepted := dr_accepted x; dr_log_prob := dr_log_prob x |})
    (map g (map dr_state d)) d = map (set_state g) d.
Proof.
  unfold zipw. induction d as [| x d IH]; [reflexivity |]. cbn [map combine]. f_equal. exact IH.
Qed.

Lemma fine_rows t rows rows' : Fine t true rows -> Fine t true rows'.
Proof.
  intros F flags L B. destruct (F flags L B) as (A & O). split; [exact A |].
  rewrite (on_bins_same flags (ti_shape t) log1p log1p log1p log1p _ rows). exact O.
Qed.

Lemma invert_ok tr pname n draws samples :
  invert_samples tr pname true n draws = Ok samples ->
  exists t s, dget pname (tr_tensors tr) = Some t /\ dget pname (tr_data tr) = Some s /\
    ti_shape t = [n] /\ Fine t true [] /\
    samples = map (map (set_state (out_row tr t s))) draws.
Proof.
  unfold invert_samples. intros H. obind H a E. apply inverse_ok in E.
  destruct E as (t & s & E1 & E2 & E3 & F & ->). exists t, s.
  split; [exact E1 |]. split; [exact E2 |]. split; [symmetry; exact E3 |].
  split; [eapply fine_rows; exact F |].
  injection H as <-. cbn [ar_rows table]. clear.
  change (fun e : event => back t true true (denorm tr s true e)) with (out_row tr t s).
  induction draws as [| d draws IH]; [reflexivity |].
  cbn [concat map]. rewrite !map_app. f_equal.
  - rewrite firstn_app, map_length, map_length, Nat.sub_diag, firstn_O, app_nil_r.
    rewrite firstn_all2 by (rewrite !map_length; lia). apply zipw_set.
  - rewrite skipn_app, map_length, map_length, Nat.sub_diag.
    rewrite skipn_all2 by (rewrite !map_length; lia). exact IH.
Qed.

Lemma invert_total tr pname n t s draws :
  dget pname (tr_tensors tr) = Some t -> dget pname (tr_data tr) = Some s ->
  ti_shape t = [n] -> Fine t true [] ->
  exists samples, invert_samples tr pname true n draws = Ok samples.
Proof.
  intros E1 E2 E3 F. unfold invert_samples.
  destruct (inverse_transform (Some tr) true (table n (map dr_state (concat draws))) pname true)
    as [a | e] eqn:E; [eexists; reflexivity |]. exfalso.
  assert (X : exists a, inverse_transform (Some tr) true (table n (map dr_state (concat draws))) pname true = Ok a).
  { eexists. apply inverse_ok. exists t, s. split; [exact E1 |]. split; [exact E2 |].
    split; [symmetry; exact E3 |]. split; [eapply fine_rows; exact F | reflexivity]. }
  destruct X as (a & X). rewrite E in X. discriminate.
Qed.

(** ** The target *)

Lemma collect_ok {A B} (f : A -> result B) xs vs :
  collect (map f xs) = Ok vs <-> Forall2 (fun x v => f x = Ok v) xs vs.
Proof.
  revert vs. induction xs as [| x xs IH]; intros vs; cbn [map collect].
  - split; [intros H; injection H as <-; constructor | intros H; inversion H; reflexivity].
  - split.
    + intros H. obind H a E. obind H l E'. injection H as <-. constructor; [exact E | apply IH, E'].
    + intros H. inversion H as [| ? v ? vs' E F]; subst. apply IH in F. rewrite E, F. reflexivity.
Qed.

Lemma fold_losses ls : forall m a v,
  fold_left (fun acc (l : array -> result R) => bind acc (fun a => bind (l m) (fun b => Ok (a + b)))) ls (Ok a) = Ok v <->
  exists vs, Forall2 (fun l x => l m = Ok x) ls vs /\ v = a + Rsum vs.
Proof.
  induction ls as [| l ls IH]; intros m a v; cbn [fold_left].
  - split.
    + intros H. injection H as <-. exists []. split; [constructor | rewrite ?Rsum_cons; cbn; ring].
    + intros (vs & F & ->). inversion F. cbn. f_equal. ring.
  - cbn [bind]. destruct (l m) as [b | e] eqn:E; cbn [bind].
    + rewrite IH. split.
      * intros (vs & F & ->). exists (b :: vs). split; [constructor; assumption | rewrite ?Rsum_cons; cbn; ring].
      * intros (vs & F & ->). inversion F as [| ? x ? vs' E' F']; subst. exists vs'.
        split; [exact F' |]. assert (x = b) by congruence. subst x. rewrite Rsum_cons. ring.
    + split.
      * intros H. exfalso. clear IH. induction ls as [| l' ls IH]; cbn [fold_left bind] in H; [discriminate | auto].
      * intros (vs & F & _). inversion F as [| ? x ? vs' E' F']; subst. congruence.
Qed.

Lemma fold_err ls (m : array) e v :
  fold_left (fun acc (l : array -> result R) => bind acc (fun a => bind (l m) (fun b => Ok (a + b)))) ls (Err e) <> Ok v.
Proof. induction ls as [| l ls IH]; cbn [fold_left bind]; [discriminate | exact IH]. Qed.

Lemma total_loss_ok losses p v :
  total_loss losses (table (length p) [p]) = Ok v <-> LossAt losses p v.
Proof.
  unfold total_loss, LossAt. change {| ar_shape := [length p]; ar_rows := [p] |} with (table (length p) [p]).
  destruct losses as [| l ls].
  - split; [discriminate | intros (H & _); contradiction].
  - destruct (l (table (length p) [p])) as [a | e] eqn:E.
    + rewrite fold_losses. split.
      * intros (vs & F & ->). split; [discriminate |]. exists (a :: vs).
        split; [constructor; assumption | reflexivity].
      * intros (_ & vs & F & ->). inversion F as [| ? x ? vs' E' F']; subst. exists vs'.
        split; [exact F' |]. assert (x = a) by congruence. subst x. reflexivity.
    + split; [intros H; exfalso; eapply fold_err; exact H |].
      intros (_ & vs & F & _). inversion F; congruence.
Qed.

Lemma parameter_loss_ok tr pname losses fit in_trafo x seed n v t s : Built tr ->
  all_fitted fit = true -> length x = n ->
  (in_trafo = true -> dget pname (tr_tensors tr) = Some t /\ dget pname (tr_data tr) = Some s /\
     ti_shape t = [n] /\ Fine t true []) ->
  (parameter_loss (Some tr) pname losses fit in_trafo (table n [x]) seed = Ok v <->
   exists p, Physical tr pname in_trafo x p /\ LossAt losses p v).
Proof.
  intros HB AF L SP. unfold parameter_loss, loss_parameters. rewrite AF. cbn [bind].
  destruct in_trafo.
  - destruct (SP eq_refl) as (E1 & E2 & E3 & F).
    assert (X : inverse_transform (Some tr) true (table n [x]) pname true = Ok (table n [out_row tr t s x])).
    { apply inverse_ok. exists t, s. split; [exact E1 |]. split; [exact E2 |].
      split; [symmetry; exact E3 |]. split; [eapply fine_rows; exact F | reflexivity]. }
    rewrite X. cbn [bind].
    pose proof (out_row_length tr pname t s n HB E1 E2 E3 x L) as LO.
    rewrite <- LO, total_loss_ok. split.
    + intros H. exists (out_row tr t s x). split; [| exact H].
      apply (physical_out tr pname t s n); assumption.
    + intros (p & P & H). rewrite (physical_unique tr pname t s n HB E1 E2 E3 x p L P) in H. exact H.
  - cbn [bind]. rewrite <- L, total_loss_ok. split.
    + intros H. exists x. split; [reflexivity | exact H].
    + intros (p & P & H). cbn in P. subst p. exact H.
Qed.

(** ** Step sizes *)

Lemma set_step_ok i v l l' : set_step i v l = Ok l' ->
  (i < length l)%nat /\ length l' = length l /\
  forall j, nth j l' 0 = if Nat.eqb j i then v else nth j l 0.
Proof.
  unfold set_step. destruct (Nat.ltb i (length l)) eqn:E; [| discriminate]. apply Nat.ltb_lt in E.
  intros H. assert (X : l' = firstn i l ++ v :: skipn (S i) l) by congruence. clear H. subst l'.
  split; [exact E |]. split.
  - rewrite app_length, firstn_length.
    change (length (v :: skipn (S i) l)) with (S (length (skipn (S i) l))). rewrite skipn_length. lia.
  - intros j. destruct (Nat.eqb_spec j i) as [-> | N].
    + rewrite app_nth2 by (rewrite firstn_length; lia).
      rewrite firstn_length, Nat.min_l, Nat.sub_diag by lia. reflexivity.
    + destruct (Nat.lt_ge_cases j i) as [A | A].
      * rewrite app_nth1 by (rewrite firstn_length; lia).
        rewrite <- (firstn_skipn i l) at 2. rewrite app_nth1 by (rewrite firstn_length; lia). reflexivity.
      * rewrite app_nth2 by (rewrite firstn_length; lia).
        rewrite firstn_length, Nat.min_l by lia.
        replace (j - i)%nat with (S (j - S i)) by lia. cbn [nth].
        rewrite <- (firstn_skipn (S i) l) at 2.
        rewrite app_nth2 by (rewrite firstn_length; lia).
        rewrite firstn_length, Nat.min_l by lia. reflexivity.
Qed.

Lemma log_steps_ok flags : forall i step step', log_steps i flags step = Ok step' ->
  (forall j, nth_error flags j = Some true -> (i + j = 5)%nat /\ (5 < length step)%nat) /\
  length step' = length step /\
  forall k, nth k step' 0 =
    if Nat.eqb k 5 && Nat.leb i 5 && nth (5 - i) flags false then 1 / 100 else nth k step 0.
Proof.
  induction flags as [| b flags IH]; intros i step step' H; cbn [log_steps] in H.
  - injection H as <-. split; [intros [|]; discriminate |]. split; [reflexivity |].
    intros k. destruct (5 - i)%nat; cbn [nth]; rewrite andb_false_r; reflexivity.
  - destruct b.
    + destruct (Nat.eqb_spec i 5) as [-> | N]; [| discriminate]. cbn [negb] in H.
      obind H st E. apply set_step_ok in E. destruct E as (E1 & E2 & E3).
      destruct (IH _ _ _ H) as (F & L & G). split.
      * intros [| j] J; [lia |]. cbn [nth_error] in J. specialize (F j J). lia.
      * split; [lia |]. intros k. rewrite G, E3. cbn [Nat.leb Nat.sub nth]. rewrite andb_false_r.
        cbn [andb]. destruct (Nat.eqb k 5); reflexivity.
    + destruct (IH _ _ _ H) as (F & L & G). split.
      * intros [| j] J; [discriminate |]. cbn [nth_error] in J. specialize (F j J). lia.
      * split; [exact L |]. intros k. rewrite G.
        destruct (Nat.leb_spec (S i) 5) as [A | A].
        -- rewrite (proj2 (Nat.leb_le i 5)) by lia.
           replace (5 - i)%nat with (S (5 - S i)) by lia. reflexivity.
        -- destruct (Nat.leb_spec i 5); [| destruct (Nat.eqb k 5); reflexivity].
           replace (5 - i)%nat with 0%nat by lia. cbn [nth]. destruct (Nat.eqb k 5); reflexivity.
Qed.

Lemma log_steps_total flags : forall i step, (5 < length step)%nat ->
  (forall j, nth_error flags j = Some true -> (i + j = 5)%nat) ->
  exists step', log_steps i flags step = Ok step'.
Proof.
  induction flags as [| b flags IH]; intros i step L H; cbn [log_steps]; [eexists; reflexivity |].
  destruct b.
  - assert (i = 5)%nat by (specialize (H 0%nat eq_refl); lia). subst i. cbn [Nat.eqb negb].
    unfold set_step. rewrite (proj2 (Nat.ltb_lt 5 (length step))) by lia. cbn [bind].
    apply IH; [| intros j J; specialize (H (S j) J); lia].
    rewrite app_length, firstn_length.
    change (length (1 / 100 :: skipn 6 step)) with (S (length (skipn 6 step))). rewrite skipn_length. lia.
  - apply IH; [exact L |]. intros j J. specialize (H (S j) J). lia.
Qed.

Lemma plain_steps_many method n : n <> 1%nat -> plain_steps method n = repeat (1 / 10) n.
Proof.
  intros H. unfold plain_steps. cbv zeta.
  destruct (String.eqb method hmc); cbn [length]; destruct (Nat.eqb_spec n 1); try contradiction;
    cbn [negb concat]; apply app_nil_r.
Qed.

Lemma plain_steps_one method : length (plain_steps method 1) = 7%nat.
Proof. unfold plain_steps. destruct (String.eqb method hmc); reflexivity. Qed.

Lemma nth_repeat_in {A} (a d : A) n i : (i < n)%nat -> nth i (repeat a n) d = a.
Proof. revert i. induction n as [| n IH]; intros [| i] H; try lia; cbn; [reflexivity |]. apply IH. lia. Qed.

Lemma step_sizes_ok tr pname method in_trafo fit step :
  step_sizes tr pname method (length fit) in_trafo fit = Ok step ->
  length fit <> 1%nat /\ length step = length fit /\
  (in_trafo = false -> step = repeat (1 / 10) (length fit)) /\
  (in_trafo = true -> exists t s flags, dget pname (tr_tensors tr) = Some t /\
     dget pname (tr_data tr) = Some s /\ ti_log t = Some flags /\ length (st_std s) = length fit /\
     (forall j, nth_error flags j = Some true -> j = 5%nat /\ (5 < length fit)%nat) /\
     forall i, (i < length fit)%nat ->
       nth i step 0 = (if Nat.eqb i 5 && nth 5 flags false then 1 / 100 else 1 / 10) / nth i (st_std s) 0).
Proof.
  unfold step_sizes. destruct (dget pname (tr_tensors tr)) as [t |] eqn:ET; [| discriminate].
  intros H. obind H st E. destruct (Nat.eqb_spec (length st) (length fit)) as [L | L]; [| discriminate].
  injection H as <-. destruct in_trafo.
  - destruct (ti_log t) as [flags |] eqn:EL; [| discriminate]. obind E st1 E1.
    destruct (dget pname (tr_data tr)) as [s |] eqn:ES; [| discriminate].
    destruct (Nat.eqb_spec (length (st_std s)) (length st1)) as [L1 | L1]; [| discriminate].
    injection E as <-. rewrite zipw_length, L1, Nat.min_id in L.
    destruct (log_steps_ok _ _ _ _ E1) as (F & L2 & G).
    assert (N : length fit <> 1%nat).
    { intros N. rewrite N in L2, L. rewrite plain_steps_one in L2. lia. }
    rewrite (plain_steps_many method _ N) in *. rewrite repeat_length in *.
    split; [exact N |]. split; [rewrite zipw_length; lia |]. split; [discriminate |]. intros _.
    exists t, s, flags. split; [reflexivity |]. split; [reflexivity |].
    split; [exact EL |]. split; [lia |]. split; [intros j J; specialize (F j J); lia |].
    intros i Hi. rewrite (nth_zipw Rdiv st1 (st_std s) i 0 0 0) by lia. rewrite G.
    rewrite nth_repeat_in by exact Hi. cbn [Nat.leb Nat.sub]. rewrite andb_true_r. reflexivity.
  - injection E as <-. assert (N : length fit <> 1%nat).
    { intros N. rewrite N in L. rewrite plain_steps_one in L. lia. }
    split; [exact N |]. rewrite (plain_steps_many method _ N) in *.
    rewrite repeat_length. split; [reflexivity |]. split; [reflexivity | discriminate].
Qed.

(** ** The whole run *)

Section Run.
  Variables (tr : trafo) (losses : list (array -> result R)) (seed : array).
  Variable sample : kernel -> schedule -> list event -> result (list (list draw) * list (list R)).
  Variables (se : settings) (results : dict array).

  Definition loss_of (p : array) : result R :=
    parameter_loss (Some tr) (se_tensor se) losses (se_fit se) (se_trafo se) p seed.

  Lemma execute_ok out : execute_mcmc tr losses seed sample se results = Ok out ->
    exists t a r step k draws steps samples,
      dget (se_tensor se) (tr_tensors tr) = Some t /\
      dget (se_reco_key se) results = Some a /\ ar_rows a = [r] /\
      (0 < se_chains se -> length r = length (se_fit se))%nat /\
      Forall (fun b => b = true) (se_fit se) /\
      step_sizes tr (se_tensor se) (se_method se) (length (se_fit se)) (se_trafo se) (se_fit se) = Ok step /\
      make_kernel (se_method se)
        (log_prob loss_of (se_chains se) (length (se_fit se)) (num_fitted (se_fit se))) step
        (sc_burnin (se_schedule se)) 42 = Ok k /\
      sample k (se_schedule se) (repeat r (se_chains se)) = Ok (draws, steps) /\
      invert_samples tr (se_tensor se) (se_trafo se) (length (se_fit se)) draws = Ok samples /\
      (se_method se = hmc -> exists st rest, steps = st :: rest /\ (7 <= length st)%nat) /\
      out = (map dr_state (filter dr_accepted (concat samples)),
             map dr_log_prob (filter dr_accepted (concat samples))).
  Proof.
    unfold execute_mcmc. destruct (dget (se_tensor se) (tr_tensors tr)) as [t |] eqn:ET; [| discriminate].
    destruct (dget (se_reco_key se) results) as [a |] eqn:ER; [| discriminate].
    destruct (ar_rows a) as [| r [| r' rows]] eqn:EA; try discriminate. cbv zeta.
    destruct (Nat.eqb_spec (length r * se_chains se) (se_chains se * length (se_fit se))) as [L | L];
      [cbn [negb] | discriminate].
    destruct (Nat.eqb_spec (length (se_fit se)) (num_fitted (se_fit se))) as [L' | L'];
      [cbn [negb] | discriminate].
    intros H. obind H o E. obind H u U. injection H as <-.
    unfold run_mcmc_on_events in E. cbn [ar_shape ar_rows table last] in E. cbv zeta in E.
    rewrite repeat_length, Nat.eqb_refl in E. cbn [negb] in E.
    obind E step E1. obind E k E2. obind E o' E3. obind E samples E4. injection E as <-.
    destruct o' as (draws, steps). cbn [fst snd] in *.
    exists t, a, r, step, k, draws, steps, samples.
    split; [reflexivity |]. split; [reflexivity |]. split; [exact EA |].
    split.
    { intros P. rewrite Nat.mul_comm in L. apply Nat.mul_cancel_l in L; lia. }
    split; [apply num_fitted_all, L' |].
    split; [exact E1 |]. split; [exact E2 |]. split; [exact E3 |]. split; [exact E4 |].
    split; [| reflexivity]. intros M. rewrite M, String.eqb_refl in U.
    destruct steps as [| st rest]; [discriminate |]. exists st, rest. split; [reflexivity |].
    destruct (Nat.ltb_spec (length st) 7); [discriminate | assumption].
  Qed.

  Lemma make_kernel_ok method target step burnin z k :
    make_kernel method target step burnin z = Ok k ->
    kn_method k = method /\ kn_target k = target /\ kn_step k = step /\
    (method = hmc /\ kn_leapfrog k = Some 3%nat /\ kn_adaptation k = Some (burnin * 8 / 10)%nat /\ kn_seed k = None \/
     method = nuts /\ kn_leapfrog k = None /\ kn_adaptation k = None /\ kn_seed k = None \/
     method = rwm /\ kn_leapfrog k = None /\ kn_adaptation k = None /\ kn_seed k = Some z).
  Proof.
    unfold make_kernel. destruct (String.eqb_spec method hmc) as [-> | N1];
      [| destruct (String.eqb_spec method nuts) as [-> | N2];
         [| destruct (String.eqb_spec method rwm) as [-> | N3]; [| discriminate]]];
      intros H; injection H as <-; cbn [kn_method kn_target kn_step kn_leapfrog kn_adaptation kn_seed];
      (split; [reflexivity |]; split; [reflexivity |]; split; [reflexivity |]); tauto.
  Qed.

  Lemma target_ok (xs : list event) vs t s : Built tr -> Forall (fun b => b = true) (se_fit se) ->
    (0 < se_chains se)%nat -> length xs = se_chains se ->
    Forall (fun x => length x = length (se_fit se)) xs ->
    (se_trafo se = true -> dget (se_tensor se) (tr_tensors tr) = Some t /\
       dget (se_tensor se) (tr_data tr) = Some s /\ ti_shape t = [length (se_fit se)] /\ Fine t true []) ->
    (log_prob loss_of (se_chains se) (length (se_fit se)) (num_fitted (se_fit se)) xs = Ok vs <->
     Forall2 (fun x v => exists p, Physical tr (se_tensor se) (se_trafo se) x p /\ LossAt losses p (- v)) xs vs).
  Proof.
    intros HB AF C L F SP. unfold log_prob.
    apply all_fitted_iff in AF. rewrite (all_fitted_num _ AF).
    destruct (Nat.eqb_spec (se_chains se) 0); [lia |]. rewrite Nat.eqb_refl. cbn [negb].
    rewrite L, Nat.eqb_refl. cbn [negb]. rewrite collect_ok.
    assert (X : forall x v, length x = length (se_fit se) ->
      (bind (loss_of (table (length (se_fit se)) [x])) (fun l => Ok (- l)) = Ok v <->
       exists p, Physical tr (se_tensor se) (se_trafo se) x p /\ LossAt losses p (- v))).
    { intros x v Lx. rewrite <- (parameter_loss_ok tr (se_tensor se) losses (se_fit se) (se_trafo se) x seed
        (length (se_fit se)) (- v) t s HB AF Lx SP). fold (loss_of (table (length (se_fit se)) [x])).
      rewrite bind_ok. split.
      - intros (l & -> & E). injection E as <-. f_equal. ring.
      - intros ->. exists (- v). split; [reflexivity |]. f_equal. ring. }
    clear L. revert F vs. induction xs as [| x xs IH]; intros F vs.
    - split; intros H; inversion H; constructor.
    - inversion F as [| ? ? F1 F2]; subst. split; intros H; inversion H; subst; constructor;
        try (apply X; assumption); apply IH; assumption.
  Qed.
End Run.
