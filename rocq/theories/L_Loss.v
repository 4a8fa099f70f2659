(** Lemmas about the model of the losses. *)
From Coq Require Import Psatz DecimalString DecimalNat Permutation.
From Verif Require Import Py PyFacts PyStr PyStrFacts RList M_Loss S_Loss.

Lemma bind_ok {A B} (r : result A) (f : A -> result B) b :
  bind r f = Ok b -> exists a, r = Ok a /\ f a = Ok b.
Proof. destruct r; simpl; intros H; [eauto | discriminate]. Qed.

(** ** Sums *)

Lemma Rsum_seq f n : Rsum (map f (seq 0 n)) = isum n f.
Proof.
  induction n as [| n IH]; [reflexivity |].
  rewrite seq_S, map_app, Rsum_app, IH. simpl. unfold Rsum. simpl. ring.
Qed.

Lemma isum_ext n f g : (forall i, (i < n)%nat -> f i = g i) ->
  isum n f = isum n g.
Proof.
  intros H. induction n as [| n IH]; [reflexivity |]. simpl.
  rewrite IH by (intros; apply H; lia). rewrite H by lia. reflexivity.
Qed.

Lemma isum_plus n f g : isum n (fun i => f i + g i) = isum n f + isum n g.
Proof. induction n; simpl; lra. Qed.

Lemma isum_zero n : isum n (fun _ => 0) = 0.
Proof. induction n; simpl; lra. Qed.

Lemma isum_scal n k f : isum n (fun i => f i / k) = isum n f / k.
Proof. unfold Rdiv. induction n; simpl; [ring |]. rewrite IHn. ring. Qed.

Lemma isum_single n k x : (k < n)%nat ->
  isum n (fun i => if Nat.eqb k i then x else 0) = x.
Proof.
  induction n as [| n IH]; intros H; [lia |]. simpl.
  destruct (Nat.eqb_spec k n) as [-> | N].
  - rewrite (isum_ext n _ (fun _ => 0)).
    + rewrite isum_zero. ring.
    + intros i Hi. destruct (Nat.eqb_spec n i); [lia | reflexivity].
  - rewrite IH by lia. ring.
Qed.

Lemma sum2_isum ns nd f :
  sum2 ns nd f = isum ns (fun s => isum nd (fun d => f s d)).
Proof.
  unfold sum2. rewrite Rsum_seq. apply isum_ext. intros. apply Rsum_seq.
Qed.

Lemma sum3_isum n ns nd t : sum3 n ns nd t = isum3 n ns nd t.
Proof.
  unfold sum3, isum3. rewrite Rsum_seq. apply isum_ext.
  intros. apply sum2_isum.
Qed.

Lemma reduce_total t : reduce_sum t = total t.
Proof.
  destruct t; simpl; [reflexivity | apply Rsum_seq | apply sum3_isum |
    reflexivity].
Qed.

Lemma isum3_ext n ns nd t u :
  (forall e s d, (e < n)%nat -> (s < ns)%nat -> (d < nd)%nat ->
     t e s d = u e s d) -> isum3 n ns nd t = isum3 n ns nd u.
Proof.
  intros H. unfold isum3. apply isum_ext. intros e He.
  apply isum_ext. intros s Hs. apply isum_ext. intros d Hd. auto.
Qed.

Lemma isum3_plus n ns nd t u :
  isum3 n ns nd (fun e s d => t e s d + u e s d) =
  isum3 n ns nd t + isum3 n ns nd u.
Proof.
  unfold isum3. rewrite <- isum_plus. apply isum_ext. intros e _.
  rewrite <- isum_plus. apply isum_ext. intros s _. apply isum_plus.
Qed.

Lemma isum3_zero n ns nd : isum3 n ns nd (fun _ _ _ => 0) = 0.
Proof.
  unfold isum3. rewrite (isum_ext n _ (fun _ => 0)); [apply isum_zero |].
  intros. rewrite (isum_ext ns _ (fun _ => 0)); [apply isum_zero |].
  intros. apply isum_zero.
Qed.

Lemma isum3_scal n ns nd k t :
  isum3 n ns nd (fun e s d => t e s d / k) = isum3 n ns nd t / k.
Proof.
  unfold isum3. rewrite <- isum_scal. apply isum_ext. intros.
  rewrite <- isum_scal. apply isum_ext. intros. apply isum_scal.
Qed.

Lemma isum3_pulse n ns nd p x :
  (p_event p < n)%nat -> (p_string p < ns)%nat -> (p_dom p < nd)%nat ->
  isum3 n ns nd (fun e s d => if at_dom e s d p then x else 0) = x.
Proof.
  intros He Hs Hd. unfold isum3.
  transitivity (isum n (fun e => if Nat.eqb (p_event p) e then x else 0));
    [| apply isum_single; exact He].
  apply isum_ext. intros e _. unfold at_dom.
  destruct (Nat.eqb (p_event p) e); cbn [andb].
  - transitivity (isum ns (fun s => if Nat.eqb (p_string p) s then x else 0));
      [| apply isum_single; exact Hs].
    apply isum_ext. intros s _. destruct (Nat.eqb (p_string p) s); cbn [andb].
    + apply isum_single; exact Hd.
    + apply isum_zero.
  - rewrite (isum_ext ns _ (fun _ => 0)); [apply isum_zero |].
    intros. apply isum_zero.
Qed.

Lemma isum3_scatter n ns nd (upd : pulse -> R) ps :
  (forall p, In p ps -> (p_event p < n /\ p_string p < ns /\ p_dom p < nd)%nat)
  -> isum3 n ns nd (fun e s d => Rsum (map upd (filter (at_dom e s d) ps))) =
     Rsum (map upd ps).
Proof.
  induction ps as [| p ps IH]; intros H.
  - apply isum3_zero.
  - cbn [map]. rewrite Rsum_cons, <- IH by (intros q Hq; apply H; right; exact Hq).
    destruct (H p (or_introl eq_refl)) as (A & B & C).
    rewrite <- (isum3_pulse n ns nd p (upd p) A B C) at 1.
    rewrite <- isum3_plus. apply isum3_ext. intros e s d _ _ _.
    cbn [filter]. destruct (at_dom e s d p).
    + cbn [map]. rewrite Rsum_cons. reflexivity.
    + ring.
Qed.

Lemma Rsum_div l k : Rsum (map (fun x => x / k) l) = Rsum l / k.
Proof.
  induction l as [| x l IH]; [unfold Rsum, Rdiv; simpl; ring |].
  cbn [map]. rewrite !Rsum_cons, IH. unfold Rdiv. ring.
Qed.

Lemma total_scale k t : total (scale_term k t) = total t / k.
Proof.
  destruct t; simpl.
  - reflexivity.
  - apply isum_scal.
  - apply isum3_scal.
  - apply Rsum_div.
Qed.

Section Forms.
  Variable lgamma : R -> R.
  Notation lfac := (log_faculty lgamma).

  (** The parts of every loss function per DOM, pulse and event. *)
  Definition dpart (f : loss_name) (c : settings) (b : batch) (r : results)
    : tensor3 :=
    match f with
    | ExtendedPulse => fun e s d =>
        (masked b (r_pred r) e s d - masked b (b_true b) e s d *
           ln (masked b (r_pred r) e s d + eps7)) +
        (if c_norm c then lfac (masked b (b_true b) e s d) else 0)
    | PulseAndDomCharge => fun e s d =>
        - masked b (r_logpdf r) e s d +
        (if c_norm c then lfac (b_true b e s d) else 0)
    | DomAndEventCharge => fun e s d => - masked b (r_logpdf r) e s d
    | NegativeBinomial => fun e s d => - masked b (fun e s d =>
        log_negative_binomial lgamma (b_true b e s d) (r_pred r e s d)
          (Rmax ((r_var r e s d - r_pred r e s d) /
                 (r_pred r e s d ^ 2 + eps5)) eps5)) e s d
    | NormalizedDom => fun e s d => - masked b (fun e s d =>
        b_true b e s d * ln (r_pred r e s d /
          sum2 (b_strings b) (b_doms b) (r_pred r e) + eps5)) e s d
    | _ => fun _ _ _ => 0
    end.

  Definition ppart (f : loss_name) (c : settings) (p : pulse) : R :=
    match f with
    | ExtendedPulse | PulseTime | PulseAndDomCharge =>
        time_loss p + (if c_norm c then lfac (p_charge p) else 0)
    | ChargeQuantile =>
        if match c_max c with Some h => Rltb h (p_quantile p)
           | None => false end then 0
        else if match c_low c with Some l => Rltb (p_quantile p) l
                | None => false end then 0
        else - ln (p_qpdf p + eps7)
    | _ => 0
    end.

  Definition esum (b : batch) (t : tensor3) (e : nat) : R :=
    sum2 (b_strings b) (b_doms b) (t e).

  Definition epart (f : loss_name) (b : batch) (r : results) (e : nat) : R :=
    match f with
    | DomAndEventCharge =>
        - log_gauss (esum b (masked b (b_true b)) e)
            (esum b (masked b (r_pred r)) e)
            (sqrt (esum b (masked b (r_var r)) e))
    | NegativeBinomialEvent =>
        - log_negative_binomial lgamma (esum b (masked b (b_true b)) e)
            (esum b (masked b (r_pred r)) e)
            (Rmax ((esum b (masked b (r_var r)) e -
                    esum b (masked b (r_pred r)) e) /
                   esum b (masked b (r_pred r)) e ^ 2) eps5)
    | _ => 0
    end.

  Definition value (f : loss_name) (c : settings) (b : batch) (r : results)
    : R :=
    isum3 (b_n b) (b_strings b) (b_doms b) (dpart f c b r) +
    Rsum (map (ppart f c) (b_pulses b)) +
    isum (b_n b) (epart f b r).

  Lemma Rsum_ppart_plus (u v : pulse -> R) l :
    Rsum (map u l) + Rsum (map v l) = Rsum (map (fun p => u p + v p) l).
  Proof. symmetry. apply Rsum_map_plus. Qed.

  Lemma Rsum_zero {A} (l : list A) : Rsum (map (fun _ => 0) l) = 0.
  Proof. rewrite Rsum_map_const. ring. Qed.

  (** Unsorted terms of every loss function. *)
  Lemma unsorted_form f c b r : check_time b r = Ok tt ->
    exists l, loss_function lgamma f c b r false = Ok (Unsorted l) /\
      l <> [] /\ Rsum (map total l) = value f c b r.
  Proof.
    intros HC. unfold value.
    destruct f; unfold loss_function, unbinned_extended_pulse_llh,
      unbinned_pulse_time_llh, unbinned_pulse_and_dom_charge_pdf,
      unbinned_charge_quantile_pdf, dom_and_event_charge_pdf,
      negative_binomial_charge_pdf, negative_binomial_event_charge_pdf,
      normalized_dom_charge_pdf; rewrite HC; cbn [bind]; eexists;
      (split; [reflexivity |]).
    - destruct (c_norm c) eqn:CN; (split; [discriminate |]);
        unfold dpart, ppart, epart; cbn [app map]; cbv iota; rewrite !Rsum_cons;
        unfold dom_term, pulse_term; cbn [total]; rewrite CN.
      + change (Rsum []) with 0. fold (Rsum (map time_loss (b_pulses b))).
        fold (Rsum (map (fun p => lfac (p_charge p)) (b_pulses b))).
        rewrite isum_zero, isum3_plus, Rsum_map_plus. ring.
      + change (Rsum []) with 0. fold (Rsum (map time_loss (b_pulses b))).
        rewrite isum_zero, isum3_plus, Rsum_map_plus, isum3_zero, Rsum_zero.
        ring.
    - destruct (c_norm c) eqn:CN; (split; [discriminate |]);
        unfold dpart, ppart, epart; cbn [app map]; cbv iota; rewrite !Rsum_cons;
        unfold dom_term, pulse_term; cbn [total]; rewrite CN;
        change (Rsum []) with 0; fold (Rsum (map time_loss (b_pulses b)));
        rewrite isum_zero, isum3_zero, Rsum_map_plus.
      + fold (Rsum (map (fun p => lfac (p_charge p)) (b_pulses b))). ring.
      + rewrite Rsum_zero. ring.
    - destruct (c_norm c) eqn:CN; (split; [discriminate |]);
        unfold dpart, ppart, epart; cbn [app map]; cbv iota; rewrite !Rsum_cons;
        unfold dom_term, pulse_term; cbn [total]; rewrite CN;
        change (Rsum []) with 0; fold (Rsum (map time_loss (b_pulses b)));
        rewrite isum_zero, isum3_plus, Rsum_map_plus.
      + fold (Rsum (map (fun p => lfac (p_charge p)) (b_pulses b))). ring.
      + rewrite Rsum_zero, isum3_zero. ring.
    - split; [discriminate |]. unfold dpart, epart. cbn [map]. cbv iota.
      rewrite Rsum_cons. unfold pulse_term. cbn [total].
      change (Rsum []) with 0. rewrite isum_zero, isum3_zero.
      match goal with |- fold_right Rplus 0 ?l + 0 = _ => fold (Rsum l) end.
      rewrite (Rsum_map_ext _ (ppart ChargeQuantile c)); [ring |].
      intros p _. cbn [ppart].
      destruct (c_max c) as [h |]; [destruct (Rltb h (p_quantile p)) |];
        destruct (c_low c) as [l |]; try destruct (Rltb (p_quantile p) l);
        reflexivity.
    - split; [discriminate |]. cbn [map]. rewrite !Rsum_cons.
      unfold dom_term, event_term. cbn [total].
      change (Rsum []) with 0. unfold ppart. rewrite Rsum_zero.
      unfold dpart, epart, esum. ring.
    - split; [discriminate |]. cbn [map]. rewrite !Rsum_cons.
      unfold dom_term. cbn [total]. change (Rsum []) with 0. unfold ppart, epart.
      rewrite Rsum_zero, isum_zero. unfold dpart. cbv zeta. ring.
    - split; [discriminate |]. cbn [map]. rewrite !Rsum_cons.
      unfold event_term. cbn [total]. change (Rsum []) with 0.
      unfold dpart, ppart. rewrite Rsum_zero, isum3_zero.
      unfold epart, esum. cbv zeta. ring.
    - split; [discriminate |]. cbn [map]. rewrite !Rsum_cons.
      unfold dom_term. cbn [total]. change (Rsum []) with 0. unfold ppart, epart.
      rewrite Rsum_zero, isum_zero. unfold dpart. cbv zeta. ring.
  Qed.

  Definition exceptional (f : loss_name) (c : settings) : Prop :=
    (f = ExtendedPulse \/ f = PulseAndDomCharge) /\ c_norm c = true.

  Lemma ids_forallb b : ids_ok b <->
    forallb (id_in_range b) (b_pulses b) = true.
  Proof.
    unfold ids_ok. rewrite forallb_forall. unfold id_in_range.
    split; intros H p Hp; specialize (H p Hp).
    - rewrite !Bool.andb_true_iff, !Nat.ltb_lt. tauto.
    - rewrite !Bool.andb_true_iff, !Nat.ltb_lt in H. tauto.
  Qed.

  Lemma scatter_ok b base upd : ids_ok b -> scatter b base upd =
    Ok (fun e s d => base e s d +
          Rsum (map upd (filter (at_dom e s d) (b_pulses b)))).
  Proof.
    intros H. unfold scatter. rewrite (proj1 (ids_forallb b) H). reflexivity.
  Qed.

  (** The DOM term in sorted mode. *)
  Lemma sorted_form f c b r : check_time b r = Ok tt -> ids_ok b ->
    ~ exceptional f c ->
    exists eo dom, loss_function lgamma f c b r true = Ok (Sorted None eo dom) /\
      (forall e, match eo with Some g => g e | None => 0 end = epart f b r e) /\
      (forall e s d, match dom with Some g => g e s d | None => 0 end =
         dpart f c b r e s d +
         Rsum (map (ppart f c) (filter (at_dom e s d) (b_pulses b)))).
  Proof.
    intros HC HI HX. unfold exceptional in HX.
    destruct f; unfold loss_function, unbinned_extended_pulse_llh,
      unbinned_pulse_time_llh, unbinned_pulse_and_dom_charge_pdf,
      unbinned_charge_quantile_pdf, dom_and_event_charge_pdf,
      negative_binomial_charge_pdf, negative_binomial_event_charge_pdf,
      normalized_dom_charge_pdf; rewrite HC; cbn [bind];
      rewrite ?scatter_ok by exact HI; cbn [bind].
    - assert (CN : c_norm c = false) by (destruct (c_norm c); [exfalso; tauto | reflexivity]).
      rewrite CN. eexists. eexists. split; [reflexivity |].
      split; [reflexivity |]. intros e s d. unfold dpart, ppart. cbv iota. rewrite CN.
      rewrite Rsum_map_plus, Rsum_zero. ring.
    - destruct (c_norm c) eqn:CN.
      + rewrite scatter_ok by exact HI. cbn [bind].
        eexists. eexists. split; [reflexivity |].
        split; [reflexivity |]. intros e s d. unfold dpart, ppart. cbv iota. rewrite CN.
        rewrite Rsum_map_plus. ring.
      + eexists. eexists. split; [reflexivity |].
        split; [reflexivity |]. intros e s d. unfold dpart, ppart. cbv iota. rewrite CN.
        rewrite Rsum_map_plus, Rsum_zero. ring.
    - assert (CN : c_norm c = false) by (destruct (c_norm c); [exfalso; tauto | reflexivity]).
      rewrite CN. eexists. eexists. split; [reflexivity |].
      split; [reflexivity |]. intros e s d. unfold dpart, ppart. cbv iota. rewrite CN.
      rewrite Rsum_map_plus, Rsum_zero. ring.
    - eexists. eexists. split; [reflexivity |].
      split; [reflexivity |]. intros e s d. cbn [dpart]. f_equal.
      apply Rsum_map_ext. intros p _. cbn [ppart].
      destruct (c_max c) as [h |]; [destruct (Rltb h (p_quantile p)) |];
        destruct (c_low c) as [l |]; try destruct (Rltb (p_quantile p) l);
        reflexivity.
    - eexists. eexists. split; [reflexivity |]. split; [reflexivity |].
      intros e s d. unfold ppart. rewrite Rsum_zero. unfold dpart. ring.
    - eexists. eexists. split; [reflexivity |]. split; [reflexivity |].
      intros e s d. unfold ppart. rewrite Rsum_zero. unfold dpart.
      cbv zeta. ring.
    - eexists. eexists. split; [reflexivity |]. split; [reflexivity |].
      intros e s d. unfold dpart, ppart. rewrite Rsum_zero. ring.
    - eexists. eexists. split; [reflexivity |]. split; [reflexivity |].
      intros e s d. unfold ppart. rewrite Rsum_zero. unfold dpart.
      cbv zeta. ring.
  Qed.

  Lemma time_error f c b r sort e : check_time b r = Err e ->
    loss_function lgamma f c b r sort = Err e.
  Proof.
    intros H. destruct f; unfold loss_function, unbinned_extended_pulse_llh,
      unbinned_pulse_time_llh, unbinned_pulse_and_dom_charge_pdf,
      unbinned_charge_quantile_pdf, dom_and_event_charge_pdf,
      negative_binomial_charge_pdf, negative_binomial_event_charge_pdf,
      normalized_dom_charge_pdf; rewrite H; reflexivity.
  Qed.

  Lemma check_cases b r : check_time b r = Ok tt \/
    check_time b r = Err AssertionError.
  Proof.
    unfold check_time. destruct (b_time b && negb (r_cdf r)); auto.
  Qed.

  Lemma scalar_form f c b r (normalize : bool) : check_time b r = Ok tt ->
    get_loss lgamma f c b r true normalize false =
    Ok (LScalar (if normalize then value f c b r / number_of_terms b
                 else value f c b r)).
  Proof.
    intros HC. destruct (unsorted_form f c b r HC) as (l & E & N & S).
    unfold get_loss. cbn [andb]. rewrite E. cbn [bind fill].
    assert (K : forall l', l' <> [] -> accumulate_n (map reduce_sum l') =
              Ok (Rsum (map total l'))).
    { intros l' N'. destruct l' as [| t l']; [congruence |].
      unfold accumulate_n. cbn [map]. rewrite !Rsum_cons, reduce_total.
      f_equal. f_equal. f_equal. apply map_ext. apply reduce_total. }
    destruct normalize.
    - rewrite K by (destruct l; [congruence | discriminate]).
      cbn [bind]. rewrite map_map.
      rewrite (map_ext _ (fun t => total t / number_of_terms b))
        by (intros; apply total_scale).
      rewrite <- (map_map total (fun x => x / number_of_terms b)).
      rewrite Rsum_div, S. reflexivity.
    - rewrite K by exact N. rewrite S. reflexivity.
  Qed.
End Forms.

Section More.
  Variable lgamma : R -> R.

  Lemma sorted_loss_form f c b r (normalize : bool) : check_time b r = Ok tt ->
    ids_ok b -> nonempty b -> ~ exceptional f c ->
    exists ev dm,
      get_loss lgamma f c b r false normalize true =
        Ok (LTerms [TScalar (if normalize then 0 / number_of_terms b else 0);
                    TEvent (b_n b) ev;
                    TDom (b_n b) (b_strings b) (b_doms b) dm]) /\
      (forall e, ev e = if normalize then epart lgamma f b r e / number_of_terms b
                        else epart lgamma f b r e) /\
      (forall e s d, dm e s d =
        let x := dpart lgamma f c b r e s d +
                 Rsum (map (ppart lgamma f c)
                        (filter (at_dom e s d) (b_pulses b))) in
        if normalize then x / number_of_terms b else x).
  Proof.
    intros HC HI (N1 & N2 & N3) HX.
    destruct (sorted_form lgamma f c b r HC HI HX) as (eo & dm & E & EV & DM).
    unfold get_loss. cbn [andb]. rewrite E. cbn [bind fill].
    rewrite (proj2 (Nat.eqb_neq (b_n b) 0)) by lia.
    rewrite (proj2 (Nat.eqb_neq (b_strings b) 0)) by lia.
    rewrite (proj2 (Nat.eqb_neq (b_doms b) 0)) by lia.
    cbn [orb bind]. unfold event_term, dom_term.
    destruct normalize.
    - cbn [map scale_term]. eexists. eexists. split; [reflexivity |]. split.
      + intros e. rewrite <- EV. destruct eo; reflexivity.
      + intros e s d. cbv zeta. rewrite <- DM. destruct dm; reflexivity.
    - eexists. eexists. split; [reflexivity |]. split.
      + intros e. rewrite <- EV. destruct eo; reflexivity.
      + intros e s d. cbv zeta. rewrite <- DM. destruct dm; reflexivity.
  Qed.

  Lemma time_error_loss f c b r reduce normalize sort e :
    check_time b r = Err e -> reduce && sort = false ->
    get_loss lgamma f c b r reduce normalize sort = Err e.
  Proof.
    intros H S. unfold get_loss. rewrite S, (time_error lgamma _ _ _ _ _ _ H).
    reflexivity.
  Qed.

  Lemma value_sorted f c b r : ids_ok b ->
    value lgamma f c b r =
    isum (b_n b) (epart lgamma f b r) +
    isum3 (b_n b) (b_strings b) (b_doms b) (fun e s d =>
      dpart lgamma f c b r e s d +
      Rsum (map (ppart lgamma f c) (filter (at_dom e s d) (b_pulses b)))).
  Proof.
    intros H. rewrite isum3_plus, isum3_scatter by exact H.
    unfold value. ring.
  Qed.

  (** ** DOM exclusions *)

  Lemma masked_some b m t : b_mask b = Some m ->
    masked b t = fun e s d => t e s d * (if m e s d then 1 else 0).
  Proof. intros H. unfold masked. rewrite H. reflexivity. Qed.

  Lemma masked_agree m b1 b2 t1 t2 : b_mask b1 = Some m -> b_mask b2 = Some m ->
    forall e s d, (m e s d = true -> t1 e s d = t2 e s d) ->
    masked b1 t1 e s d = masked b2 t2 e s d.
  Proof.
    intros H1 H2 e s d H. rewrite !masked_some with (m := m) by assumption.
    destruct (m e s d); [rewrite H by reflexivity; reflexivity | ring].
  Qed.

  Lemma esum_agree m b1 b2 t1 t2 e : b_mask b1 = Some m -> b_mask b2 = Some m ->
    b_strings b1 = b_strings b2 -> b_doms b1 = b_doms b2 ->
    (forall s d, (s < b_strings b1)%nat -> (d < b_doms b1)%nat ->
       m e s d = true -> t1 e s d = t2 e s d) ->
    esum b1 (masked b1 t1) e = esum b2 (masked b2 t2) e.
  Proof.
    intros M1 M2 E1 E2 H. unfold esum. rewrite !sum2_isum, <- E1, <- E2.
    apply isum_ext. intros s Hs. apply isum_ext. intros d Hd.
    apply masked_agree with (m := m); auto.
  Qed.

  Definition mask_leaks (f : loss_name) (c : settings) : Prop :=
    f = NormalizedDom \/ (f = PulseAndDomCharge /\ c_norm c = true).

  Lemma dpart_agree f c m b1 b2 r1 r2 : agree_used m b1 b2 r1 r2 ->
    ~ mask_leaks f c -> forall e s d,
    (e < b_n b1)%nat -> (s < b_strings b1)%nat -> (d < b_doms b1)%nat ->
    dpart lgamma f c b1 r1 e s d = dpart lgamma f c b2 r2 e s d.
  Proof.
    intros (A1 & A2 & A3 & A4 & A5 & A6 & A7 & A8 & A9) L e s d He Hs Hd.
    specialize (A9 e s d He Hs Hd). unfold mask_leaks in L.
    assert (P : masked b1 (r_pred r1) e s d = masked b2 (r_pred r2) e s d)
      by (apply masked_agree with (m := m); auto; intros; apply A9; auto).
    assert (T : masked b1 (b_true b1) e s d = masked b2 (b_true b2) e s d)
      by (apply masked_agree with (m := m); auto; intros; apply A9; auto).
    assert (Q : masked b1 (r_logpdf r1) e s d = masked b2 (r_logpdf r2) e s d)
      by (apply masked_agree with (m := m); auto; intros; apply A9; auto).
    destruct f; unfold dpart; try reflexivity.
    - rewrite P, T. reflexivity.
    - rewrite Q. destruct (c_norm c); [exfalso; tauto | reflexivity].
    - rewrite Q. reflexivity.
    - f_equal. apply masked_agree with (m := m); auto. intros M.
      destruct (A9 M) as (-> & -> & -> & _). reflexivity.
    - exfalso; tauto.
  Qed.

  Lemma epart_agree f m b1 b2 r1 r2 : agree_used m b1 b2 r1 r2 ->
    forall e, (e < b_n b1)%nat ->
    epart lgamma f b1 r1 e = epart lgamma f b2 r2 e.
  Proof.
    intros (A1 & A2 & A3 & A4 & A5 & A6 & A7 & A8 & A9) e He.
    assert (P : esum b1 (masked b1 (r_pred r1)) e = esum b2 (masked b2 (r_pred r2)) e)
      by (apply esum_agree with (m := m); auto; intros; apply A9; auto).
    assert (T : esum b1 (masked b1 (b_true b1)) e = esum b2 (masked b2 (b_true b2)) e)
      by (apply esum_agree with (m := m); auto; intros; apply A9; auto).
    assert (V : esum b1 (masked b1 (r_var r1)) e = esum b2 (masked b2 (r_var r2)) e)
      by (apply esum_agree with (m := m); auto; intros; apply A9; auto).
    destruct f; unfold epart; rewrite ?P, ?T, ?V; reflexivity.
  Qed.

  Lemma value_agree f c m b1 b2 r1 r2 : agree_used m b1 b2 r1 r2 ->
    ~ mask_leaks f c -> value lgamma f c b1 r1 = value lgamma f c b2 r2.
  Proof.
    intros A L. pose proof (dpart_agree f c m b1 b2 r1 r2 A L) as D.
    pose proof (epart_agree f m b1 b2 r1 r2 A) as E.
    destruct A as (A1 & A2 & A3 & A4 & _). unfold value.
    rewrite <- A1, <- A2, <- A3, <- A4.
    rewrite (isum3_ext _ _ _ _ _ D), (isum_ext _ _ _ E). reflexivity.
  Qed.

  Lemma same_term_scale k t u : same_term t u ->
    same_term (scale_term k t) (scale_term k u).
  Proof.
    clear lgamma. destruct t, u; simpl; try tauto.
    - intros ->. reflexivity.
    - intros (-> & H). split; [reflexivity |]. intros e He. rewrite H; auto.
    - intros (-> & -> & -> & H). repeat split. intros.
      rewrite H by assumption. reflexivity.
    - intros ->. reflexivity.
  Qed.
End More.

(** ** The same terms off the excluded DOMs *)

Definition same_fterms (b : batch) (t u : result fterms) : Prop :=
  match t, u with
  | Err e, Err e' => e = e'
  | Ok (Unsorted l), Ok (Unsorted m) => Forall2 same_term l m
  | Ok (Sorted None eo1 do1), Ok (Sorted None eo2 do2) =>
      match eo1, eo2 with
      | Some f, Some g => forall e, (e < b_n b)%nat -> f e = g e
      | None, None => True
      | _, _ => False
      end /\
      match do1, do2 with
      | Some f, Some g => forall e s d, (e < b_n b)%nat ->
          (s < b_strings b)%nat -> (d < b_doms b)%nat -> f e s d = g e s d
      | None, None => True
      | _, _ => False
      end
  | _, _ => False
  end.

Section Agree.
  Variable lgamma : R -> R.

  Lemma scatter_agree b1 b2 t1 t2 upd :
    b_n b1 = b_n b2 -> b_strings b1 = b_strings b2 -> b_doms b1 = b_doms b2 ->
    b_pulses b1 = b_pulses b2 ->
    (forall e s d, (e < b_n b1)%nat -> (s < b_strings b1)%nat ->
       (d < b_doms b1)%nat -> t1 e s d = t2 e s d) ->
    match scatter b1 t1 upd, scatter b2 t2 upd with
    | Ok u1, Ok u2 => forall e s d, (e < b_n b1)%nat ->
        (s < b_strings b1)%nat -> (d < b_doms b1)%nat -> u1 e s d = u2 e s d
    | Err e1, Err e2 => e1 = e2
    | _, _ => False
    end.
  Proof.
    intros A1 A2 A3 A4 H. unfold scatter, id_in_range.
    rewrite <- A1, <- A2, <- A3, <- A4.
    match goal with |- context [if ?c then _ else _] => destruct c end;
      [| reflexivity].
    intros e s d He Hs Hd. rewrite H by assumption. reflexivity.
  Qed.

  Lemma function_agree f c m b1 b2 r1 r2 sort : agree_used m b1 b2 r1 r2 ->
    ~ mask_leaks f c ->
    same_fterms b1 (loss_function lgamma f c b1 r1 sort)
                   (loss_function lgamma f c b2 r2 sort).
  Proof.
    intros A L. pose proof (dpart_agree lgamma f c m b1 b2 r1 r2 A L) as D.
    pose proof (epart_agree lgamma f m b1 b2 r1 r2 A) as E.
    destruct A as (A1 & A2 & A3 & A4 & A5 & A6 & A7 & A8 & A9).
    assert (P : forall e s d, (e < b_n b1)%nat -> (s < b_strings b1)%nat ->
              (d < b_doms b1)%nat ->
              masked b1 (r_pred r1) e s d = masked b2 (r_pred r2) e s d)
      by (intros; apply masked_agree with (m := m); auto; intros; apply A9; auto).
    assert (T : forall e s d, (e < b_n b1)%nat -> (s < b_strings b1)%nat ->
              (d < b_doms b1)%nat ->
              masked b1 (b_true b1) e s d = masked b2 (b_true b2) e s d)
      by (intros; apply masked_agree with (m := m); auto; intros; apply A9; auto).
    assert (Q : forall e s d, (e < b_n b1)%nat -> (s < b_strings b1)%nat ->
              (d < b_doms b1)%nat ->
              masked b1 (r_logpdf r1) e s d = masked b2 (r_logpdf r2) e s d)
      by (intros; apply masked_agree with (m := m); auto; intros; apply A9; auto).
    assert (TC : check_time b1 r1 = check_time b2 r2)
      by (unfold check_time; rewrite A7, A8; reflexivity).
    assert (Z : forall b : batch, forall e s d, (e < b_n b1)%nat ->
              (s < b_strings b1)%nat -> (d < b_doms b1)%nat ->
              (fun _ _ _ => 0 : R) e s d = (fun _ _ _ => 0 : R) e s d)
      by reflexivity.
    destruct (check_cases b1 r1) as [C1 | C1]; pose proof C1 as C2;
      rewrite TC in C2.
    2:{ rewrite !(time_error lgamma _ _ _ _ _ _ C1),
        (time_error lgamma _ _ _ _ _ _ C2). reflexivity. }
    destruct f; unfold loss_function, unbinned_extended_pulse_llh,
      unbinned_pulse_time_llh, unbinned_pulse_and_dom_charge_pdf,
      unbinned_charge_quantile_pdf, dom_and_event_charge_pdf,
      negative_binomial_charge_pdf, negative_binomial_event_charge_pdf,
      normalized_dom_charge_pdf; rewrite C1, C2; cbn [bind].
    - destruct sort.
      + match goal with |- same_fterms _ (bind (scatter _ ?t1 ?u) _)
          (bind (scatter _ ?t2 _) _) =>
          pose proof (scatter_agree b1 b2 t1 t2 u A1 A2 A3 A4) as SA;
          destruct (scatter b1 t1 u), (scatter b2 t2 u) end;
          try (exfalso; apply SA; intros; rewrite P, T by assumption; reflexivity);
          cbn [bind];
          [| simpl; apply SA; intros; rewrite P, T by assumption; reflexivity].
        destruct (c_norm c).
        * match goal with |- same_fterms _ (bind (scatter _ ?t1 ?u) _)
          (bind (scatter _ ?t2 _) _) =>
          pose proof (scatter_agree b1 b2 t1 t2 u A1 A2 A3 A4) as SB;
          destruct (scatter b1 t1 u), (scatter b2 t2 u) end;
          try (exfalso; apply SB; intros; rewrite T by assumption; reflexivity);
          cbn [bind same_fterms];
          [split; [exact I |] |]; apply SB; intros; rewrite T by assumption; reflexivity.
        * cbn [same_fterms]. split; [exact I |]. apply SA. intros.
          rewrite P, T by assumption; reflexivity.
      + unfold same_fterms, dom_term, pulse_term. rewrite <- A1, <- A2, <- A3, <- A4.
        assert (F1 : same_term
          (TDom (b_n b1) (b_strings b1) (b_doms b1) (fun e s d =>
             masked b1 (r_pred r1) e s d - masked b1 (b_true b1) e s d *
               ln (masked b1 (r_pred r1) e s d + eps7)))
          (TDom (b_n b1) (b_strings b1) (b_doms b1) (fun e s d =>
             masked b2 (r_pred r2) e s d - masked b2 (b_true b2) e s d *
               ln (masked b2 (r_pred r2) e s d + eps7)))).
        { simpl. repeat split. intros. rewrite P, T by assumption. reflexivity. }
        destruct (c_norm c); cbn [app]; repeat constructor;
          intros; rewrite ?P, ?T by assumption; reflexivity.
    - destruct sort; [| unfold same_fterms, pulse_term; rewrite <- A4;
        destruct (c_norm c); cbn [app]; repeat constructor].
      match goal with |- same_fterms _ (bind (scatter _ ?t1 ?u) _)
          (bind (scatter _ ?t2 _) _) =>
          pose proof (scatter_agree b1 b2 t1 t2 u A1 A2 A3 A4 (Z b1)) as SA;
          destruct (scatter b1 t1 u) as [s1 |], (scatter b2 t2 u) as [s2 |] end;
        try (exfalso; exact SA); cbn [bind]; [| exact SA].
      destruct (c_norm c); [| split; [exact I | exact SA]].
      match goal with |- same_fterms _ (bind (scatter _ ?t1 ?u) _)
          (bind (scatter _ ?t2 _) _) =>
          pose proof (scatter_agree b1 b2 t1 t2 u A1 A2 A3 A4 SA) as SB;
          destruct (scatter b1 t1 u), (scatter b2 t2 u) end;
        try (exfalso; exact SB); cbn [bind same_fterms];
        [split; [exact I | exact SB] | exact SB].
    - assert (CN : c_norm c = false)
        by (unfold mask_leaks in L; destruct (c_norm c); [exfalso; tauto | reflexivity]).
      rewrite CN. destruct sort.
      + match goal with |- same_fterms _ (bind (scatter _ ?t1 ?u) _)
          (bind (scatter _ ?t2 _) _) =>
          pose proof (scatter_agree b1 b2 t1 t2 u A1 A2 A3 A4) as SA;
          destruct (scatter b1 t1 u), (scatter b2 t2 u) end;
          try (exfalso; apply SA; intros; rewrite Q by assumption; reflexivity);
          cbn [bind same_fterms];
          [split; [exact I |] |]; apply SA; intros; rewrite Q by assumption; reflexivity.
      + unfold same_fterms, dom_term, pulse_term. rewrite <- A1, <- A2, <- A3, <- A4.
        repeat constructor. intros. rewrite Q by assumption. reflexivity.
    - destruct sort; [| unfold same_fterms, pulse_term; rewrite <- A4;
        repeat constructor].
      match goal with |- same_fterms _ (bind (scatter _ ?t1 ?u) _)
          (bind (scatter _ ?t2 _) _) =>
          pose proof (scatter_agree b1 b2 t1 t2 u A1 A2 A3 A4 (Z b1)) as SA;
          destruct (scatter b1 t1 u), (scatter b2 t2 u) end;
        try (exfalso; exact SA); cbn [bind same_fterms];
        [split; [exact I | exact SA] | exact SA].
    - unfold epart, esum in E. destruct sort; cbn [same_fterms].
      + split; [exact E |]. intros. rewrite Q by assumption. reflexivity.
      + unfold dom_term, event_term. rewrite <- A1, <- A2, <- A3 in *.
        repeat constructor; [| exact E].
        intros. rewrite Q by assumption. reflexivity.
    - unfold dpart in D. destruct sort; cbn [same_fterms].
      + split; [exact I |]. exact D.
      + unfold dom_term. rewrite <- A1, <- A2, <- A3 in *.
        repeat constructor. exact D.
    - unfold epart, esum in E. destruct sort; cbn [same_fterms].
      + split; [exact E | exact I].
      + unfold event_term. rewrite <- A1 in *. repeat constructor. exact E.
    - exfalso. apply L. left. reflexivity.
  Qed.

  Lemma Forall2_scale k l m : Forall2 same_term l m ->
    Forall2 same_term (map (scale_term k) l) (map (scale_term k) m).
  Proof.
    intros H. induction H as [| t u l m TU LM IH]; cbn [map];
      [apply Forall2_nil |].
    apply Forall2_cons; [apply same_term_scale; exact TU | exact IH].
  Qed.

  Lemma total_same t u : same_term t u -> total t = total u.
  Proof.
    clear lgamma. destruct t, u; simpl; try tauto.
    - intros (-> & H). apply isum_ext. exact H.
    - intros (-> & -> & -> & H). apply isum3_ext. exact H.
    - intros ->. reflexivity.
  Qed.

  Lemma loss_agree f c m b1 b2 r1 r2 reduce normalize sort :
    agree_used m b1 b2 r1 r2 -> ~ mask_leaks f c ->
    same_loss (get_loss lgamma f c b1 r1 reduce normalize sort)
              (get_loss lgamma f c b2 r2 reduce normalize sort).
  Proof.
    intros A L. pose proof (function_agree f c m b1 b2 r1 r2 sort A L) as F.
    destruct A as (A1 & A2 & A3 & A4 & A5 & A6 & A7 & A8 & A9).
    unfold get_loss. destruct (reduce && sort); [constructor |].
    assert (NT : number_of_terms b1 = number_of_terms b2)
      by (unfold number_of_terms; rewrite A1, A4; reflexivity).
    assert (TAIL : forall l1 l2, Forall2 same_term l1 l2 ->
      same_loss
       (if reduce then bind (accumulate_n (map reduce_sum l1)) (fun x => Ok (LScalar x))
        else Ok (LTerms l1))
       (if reduce then bind (accumulate_n (map reduce_sum l2)) (fun x => Ok (LScalar x))
        else Ok (LTerms l2))).
    { intros l1 l2 H. destruct reduce; [| constructor; exact H].
      replace (map reduce_sum l2) with (map reduce_sum l1).
      - destruct (accumulate_n (map reduce_sum l1)); constructor.
      - induction H; [reflexivity |]. simpl. f_equal; [| exact IHForall2].
        rewrite !reduce_total. apply total_same. assumption. }
    assert (TAIL2 : forall l1 l2, Forall2 same_term l1 l2 ->
      same_loss
       (let terms := if normalize then map (scale_term (number_of_terms b1)) l1 else l1 in
        if reduce then bind (accumulate_n (map reduce_sum terms)) (fun x => Ok (LScalar x))
        else Ok (LTerms terms))
       (let terms := if normalize then map (scale_term (number_of_terms b2)) l2 else l2 in
        if reduce then bind (accumulate_n (map reduce_sum terms)) (fun x => Ok (LScalar x))
        else Ok (LTerms terms))).
    { intros l1 l2 H. cbv zeta. rewrite <- NT. apply TAIL.
      destruct normalize; [apply Forall2_scale; exact H | exact H]. }
    destruct (loss_function lgamma f c b1 r1 sort) as [[l1 | [s1 |] e1 d1] |];
      destruct (loss_function lgamma f c b2 r2 sort) as [[l2 | [s2 |] e2 d2] |];
      cbn [same_fterms] in F; try contradiction.
    - cbn [bind fill]. apply TAIL2. exact F.
    - cbn [bind fill]. rewrite <- A1, <- A2, <- A3.
      match goal with |- context [if ?x then Err _ else _] => destruct x end;
        [constructor |]. cbn [bind]. apply TAIL2.
      unfold event_term, dom_term. rewrite <- A1, <- A2, <- A3.
      destruct F as (F1 & F2). repeat constructor.
      + destruct e1, e2; try contradiction; auto.
      + destruct d1, d2; try contradiction; auto.
    - cbn [bind]. subst. constructor.
  Qed.

  (** ** Splitting a batch into its events *)

  Lemma Rsum_split_events n (u : pulse -> R) ps :
    (forall p, In p ps -> (p_event p < n)%nat) ->
    Rsum (map u ps) = isum n (fun e => Rsum (map u (filter (of_event e) ps))).
  Proof.
    induction ps as [| p ps IH]; intros H.
    - symmetry. apply isum_zero.
    - cbn [map]. rewrite Rsum_cons, IH by (intros; apply H; right; assumption).
      rewrite <- (isum_single n (p_event p) (u p) (H p (or_introl eq_refl))) at 1.
      rewrite <- isum_plus. apply isum_ext. intros e _. cbn [filter].
      unfold of_event at 2. destruct (Nat.eqb (p_event p) e); cbn [map];
        rewrite ?Rsum_cons; ring.
  Qed.

  Lemma masked_one b e t :
    masked (one_event b e) (fun _ s d => t e s d) 0%nat =
    masked b t e.
  Proof. unfold masked, one_event. simpl. destruct (b_mask b); reflexivity. Qed.

  Lemma value_events f c b r : ids_ok b ->
    value lgamma f c b r =
    isum (b_n b) (fun e => value lgamma f c (one_event b e) (one_result r e)).
  Proof.
    intros H. unfold value. rewrite !isum_plus. f_equal; [f_equal |].
    - unfold isum3 at 1. apply isum_ext. intros e _. unfold isum3.
      change (b_n (one_event b e)) with 1%nat.
      change (b_strings (one_event b e)) with (b_strings b).
      change (b_doms (one_event b e)) with (b_doms b).
      cbn [isum]. rewrite Rplus_0_l. apply isum_ext. intros s _.
      apply isum_ext. intros d _.
      assert (M : forall t, masked b t e s d =
        masked (one_event b e) (fun _ s d => t e s d) 0%nat s d)
        by (intros; rewrite masked_one; reflexivity).
      destruct f; unfold dpart; rewrite ?M; reflexivity.
    - rewrite (Rsum_split_events (b_n b)) by (intros p Hp; apply H; exact Hp).
      apply isum_ext. intros e _.
      change (b_pulses (one_event b e)) with
        (map as_first (filter (of_event e) (b_pulses b))).
      rewrite map_map. apply Rsum_map_ext. intros p _.
      destruct f; reflexivity.
    - apply isum_ext. intros e _. change (b_n (one_event b e)) with 1%nat.
      cbn [isum]. rewrite Rplus_0_l.
      assert (M : forall t, esum b (masked b t) e =
        esum (one_event b e) (masked (one_event b e) (fun _ s d => t e s d)) 0%nat)
        by (intros; unfold esum; rewrite masked_one; reflexivity).
      destruct f; unfold epart; rewrite ?M; reflexivity.
  Qed.
End Agree.

(** ** Names of the modes *)

Lemma fmt02_inj n m : fmt02 n = fmt02 m -> n = m.
Proof.
  unfold fmt02, str_of_nat. intros H.
  pose proof (uint_of_string_zeros (2 - String.length (NilEmpty.string_of_uint (Nat.to_uint n))) _ _
    (NilEmpty.usu (Nat.to_uint n))) as H1.
  pose proof (uint_of_string_zeros (2 - String.length (NilEmpty.string_of_uint (Nat.to_uint m))) _ _
    (NilEmpty.usu (Nat.to_uint m))) as H2.
  rewrite H in H1. rewrite H1 in H2. injection H2 as H2.
  apply (f_equal Nat.of_uint) in H2. rewrite !of_uint_d0s in H2.
  rewrite !DecimalNat.Unsigned.of_to in H2. exact H2.
Qed.

Lemma mode_inj i j : mode i = mode j -> i = j.
Proof. unfold mode. intros H. apply append_inj_l in H. apply fmt02_inj, H. Qed.

Lemma index_from_nth i names name j : index_from i names name = Some j ->
  (i <= j)%nat /\ nth_error names (j - i) = Some name.
Proof.
  revert i. induction names as [| x names IH]; intros i H; simpl in H;
    [discriminate |].
  destruct (index_from (S i) names name) as [k |] eqn:E.
  - injection H as <-. destruct (IH _ E) as (A & B). split; [lia |].
    replace (k - i)%nat with (S (k - S i)) by lia. exact B.
  - destruct (String.eqb_spec x name) as [-> | N]; [| discriminate].
    injection H as <-. split; [lia |]. rewrite Nat.sub_diag. reflexivity.
Qed.

Lemma get_index_inj names a b i :
  get_index names a = Ok i -> get_index names b = Ok i -> a = b.
Proof.
  unfold get_index. intros H1 H2.
  destruct (index_from 0 names a) eqn:E1; [| discriminate].
  destruct (index_from 0 names b) eqn:E2; [| discriminate].
  injection H1 as ->. injection H2 as ->.
  apply index_from_nth in E1, E2. destruct E1 as (_ & E1), E2 as (_ & E2).
  congruence.
Qed.

Lemma mapr_in {A B} (f : A -> result B) l ys : mapr f l = Ok ys ->
  forall x, In x l -> exists y, f x = Ok y.
Proof.
  revert ys. induction l as [| a l IH]; intros ys H x Hx;
    simpl in H, Hx; [contradiction |]; destruct Hx as [-> | Hx].
  - apply bind_ok in H. destruct H as (y & E & _). eauto.
  - apply bind_ok in H. destruct H as (y & _ & H).
    apply bind_ok in H. destruct H as (zs & E & _). eauto.
Qed.

Lemma Forall2_perm {A B} (P : A -> B -> Prop) l l' xs :
  Permutation l l' -> Forall2 P l xs ->
  exists xs', Permutation xs xs' /\ Forall2 P l' xs'.
Proof.
  intros Q. revert xs. induction Q; intros xs H.
  - inversion H; subst. exists []. split; constructor.
  - inversion H; subst. destruct (IHQ _ ltac:(eassumption)) as (ys & E & F).
    eexists (_ :: ys). split; [apply perm_skip; exact E |].
    constructor; eassumption.
  - inversion H as [| ? x1 ? ? E1 H1]; subst.
    inversion H1 as [| ? x2 ? zs E2 H2]; subst.
    exists (x2 :: x1 :: zs). split; [apply perm_swap |].
    repeat constructor; assumption.
  - destruct (IHQ1 _ H) as (ys & E & F). destruct (IHQ2 _ F) as (zs & G & I).
    exists zs. split; [eapply perm_trans; eassumption | exact I].
Qed.

Lemma fold_plus_perm (l l' : list R) : Permutation l l' ->
  fold_right Rplus 0 l = fold_right Rplus 0 l'.
Proof. intros P. induction P; simpl; lra. Qed.
