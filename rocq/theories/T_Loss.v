(** Properties C38 to C42 and C74 to C76: losses and priors. *)
From Coq Require Import Psatz Permutation.
From Verif Require Import Py PyFacts PyStr RList M_Loss S_Loss L_Loss.

(** ** C38: the sorted terms and the unsorted terms add up to the scalar *)

Theorem C38_sorted_sum : forall lgamma f c b r normalize L,
  nonempty b -> ids_ok b ->
  ~ ((f = ExtendedPulse \/ f = PulseAndDomCharge) /\ c_norm c = true) ->
  get_loss lgamma f c b r true normalize false = Ok (LScalar L) ->
  exists s ev dm,
    get_loss lgamma f c b r false normalize true =
      Ok (LTerms [TScalar s; TEvent (b_n b) ev;
                  TDom (b_n b) (b_strings b) (b_doms b) dm]) /\
    L = s + isum (b_n b) ev + isum3 (b_n b) (b_strings b) (b_doms b) dm.
Proof.
  intros lgamma f c b r normalize L HN HI HX H.
  destruct (check_cases b r) as [HC | HC];
    [| rewrite (time_error_loss lgamma _ _ _ _ _ _ _ _ HC) in H by reflexivity; discriminate].
  rewrite scalar_form in H by exact HC. injection H as <-.
  destruct (sorted_loss_form lgamma f c b r normalize HC HI HN HX)
    as (ev & dm & E & EV & DM).
  exists (if normalize then 0 / number_of_terms b else 0), ev, dm.
  split; [exact E |].
  rewrite (isum_ext _ ev _ (fun e _ => EV e)).
  rewrite (isum3_ext _ _ _ dm _ (fun e s d _ _ _ => DM e s d)).
  cbv zeta. rewrite (value_sorted lgamma f c b r HI).
  destruct normalize; [| rewrite Rplus_0_l; reflexivity].
  rewrite isum_scal, isum3_scal. unfold Rdiv. ring.
Qed.

Theorem C38_unsorted_sum : forall lgamma f c b r normalize L,
  get_loss lgamma f c b r true normalize false = Ok (LScalar L) ->
  exists l, get_loss lgamma f c b r false normalize false = Ok (LTerms l) /\
    fold_right Rplus 0 (map total l) = L.
Proof.
  intros lgamma f c b r normalize L H.
  unfold get_loss in *. cbn [andb] in *.
  destruct (loss_function lgamma f c b r false) as [t |]; [| discriminate].
  cbn [bind] in *. destruct (fill b t) as [l |]; [| discriminate].
  cbn [bind] in *. set (l' := if normalize then _ else _) in *. clearbody l'.
  exists l'. split; [reflexivity |].
  destruct l' as [| x l']; [discriminate |].
  unfold accumulate_n in H. cbn [map bind] in H. injection H as <-.
  cbn [map]. rewrite <- reduce_total, (map_ext _ _ (fun t => eq_sym (reduce_total t))).
  reflexivity.
Qed.

(** The scalar and the sorted loss exist for the same data: they fail exactly
    if time exclusions exist which the model did not handle. *)
Theorem C38_errors : forall lgamma f c b r normalize,
  nonempty b -> ids_ok b ->
  ~ ((f = ExtendedPulse \/ f = PulseAndDomCharge) /\ c_norm c = true) ->
  if b_time b && negb (r_cdf r)
  then get_loss lgamma f c b r true normalize false = Err AssertionError /\
       get_loss lgamma f c b r false normalize true = Err AssertionError
  else (exists x, get_loss lgamma f c b r true normalize false = Ok (LScalar x)) /\
       (exists l, get_loss lgamma f c b r false normalize true = Ok (LTerms l)).
Proof.
  intros lgamma f c b r normalize HN HI HX.
  destruct (b_time b && negb (r_cdf r)) eqn:T.
  - assert (HC : check_time b r = Err AssertionError)
      by (unfold check_time; rewrite T; reflexivity).
    split; apply time_error_loss; auto.
  - assert (HC : check_time b r = Ok tt)
      by (unfold check_time; rewrite T; reflexivity).
    split.
    + rewrite scalar_form by exact HC. eauto.
    + destruct (sorted_loss_form lgamma f c b r normalize HC HI HN HX)
        as (ev & dm & E & _). eauto.
Qed.

(** Scalar and sorted results cannot be requested together. *)
Theorem C38_exclusive : forall lgamma f c b r normalize,
  get_loss lgamma f c b r true normalize true = Err ValueError.
Proof. reflexivity. Qed.

(** A pulse contributes to the sorted loss only at its own DOM, and the
    amount does not depend on the other pulses. *)
Theorem C38_pulse_local : forall lgamma f c n ns nd ps tr mask time r p,
  let b := mk_batch n ns nd ps tr mask time in
  let b' := mk_batch n ns nd (p :: ps) tr mask time in
  nonempty b -> ids_ok b' ->
  ~ ((f = ExtendedPulse \/ f = PulseAndDomCharge) /\ c_norm c = true) ->
  (time = true -> r_cdf r = true) ->
  exists x dm dm' ev ev' s s',
    get_loss lgamma f c b r false false true =
      Ok (LTerms [TScalar s; TEvent n ev; TDom n ns nd dm]) /\
    get_loss lgamma f c b' r false false true =
      Ok (LTerms [TScalar s'; TEvent n ev'; TDom n ns nd dm']) /\
    s' = s /\ (forall e, ev' e = ev e) /\
    (forall e s d, (e, s, d) <> (p_event p, p_string p, p_dom p) ->
       dm' e s d = dm e s d) /\
    dm' (p_event p) (p_string p) (p_dom p) =
      dm (p_event p) (p_string p) (p_dom p) + x.
Proof.
  intros lgamma f c n ns nd ps tr mask time r p b b' HN HI HX HT.
  assert (HI0 : ids_ok b) by (intros q Hq; apply HI; right; exact Hq).
  assert (HC : check_time b r = Ok tt /\ check_time b' r = Ok tt).
  { unfold check_time, b, b'. simpl. destruct time; [| split; reflexivity].
    rewrite HT by reflexivity. split; reflexivity. }
  destruct HC as (HC & HC').
  destruct (sorted_loss_form lgamma f c b r false HC HI0 HN HX)
    as (ev & dm & E & EV & DM).
  destruct (sorted_loss_form lgamma f c b' r false HC' HI HN HX)
    as (ev' & dm' & E' & EV' & DM').
  cbv zeta in DM, DM'.
  exists (ppart lgamma f c p), dm, dm', ev, ev', 0, 0.
  split; [exact E |]. split; [exact E' |]. split; [reflexivity |].
  split; [intros e; rewrite EV, EV'; reflexivity |].
  assert (DP : dpart lgamma f c b' r = dpart lgamma f c b r) by reflexivity.
  split.
  - intros e s d NE. rewrite DM, DM', DP. f_equal.
    change (b_pulses b') with (p :: ps). cbn [filter].
    destruct (at_dom e s d p) eqn:A; [| reflexivity].
    exfalso. apply NE. unfold at_dom in A.
    rewrite !Bool.andb_true_iff, !Nat.eqb_eq in A.
    destruct A as ((-> & ->) & ->). reflexivity.
  - rewrite DM, DM', DP. change (b_pulses b') with (p :: ps).
    change (b_pulses b) with ps. cbn [filter].
    unfold at_dom at 1. rewrite !Nat.eqb_refl. cbn [andb map].
    rewrite Rsum_cons. ring.
Qed.

(** The extended likelihood with normalisation: the sorted terms contain the
    normalisation only, the likelihood itself is missing. *)
Theorem C38_extended_norm : forall lgamma low high b r L L0,
  nonempty b -> ids_ok b ->
  get_loss lgamma ExtendedPulse (mk_settings true low high) b r true false false
    = Ok (LScalar L) ->
  get_loss lgamma ExtendedPulse (mk_settings false low high) b r true false false
    = Ok (LScalar L0) ->
  exists s ev dm,
    get_loss lgamma ExtendedPulse (mk_settings true low high) b r false false true
      = Ok (LTerms [TScalar s; TEvent (b_n b) ev;
                    TDom (b_n b) (b_strings b) (b_doms b) dm]) /\
    L = L0 + (s + isum (b_n b) ev + isum3 (b_n b) (b_strings b) (b_doms b) dm).
Proof.
  intros lgamma low high b r L L0 (N1 & N2 & N3) HI H H0.
  destruct (check_cases b r) as [HC | HC];
    [| rewrite (time_error_loss lgamma _ _ _ _ _ _ _ _ HC) in H by reflexivity; discriminate].
  rewrite scalar_form in H, H0 by exact HC.
  injection H as <-. injection H0 as <-.
  unfold get_loss, loss_function, unbinned_extended_pulse_llh. cbn [andb].
  rewrite HC. cbn [bind c_norm]. rewrite !scatter_ok by exact HI.
  cbn [bind fill].
  rewrite (proj2 (Nat.eqb_neq (b_n b) 0)) by lia.
  rewrite (proj2 (Nat.eqb_neq (b_strings b) 0)) by lia.
  rewrite (proj2 (Nat.eqb_neq (b_doms b) 0)) by lia.
  cbn [orb bind]. unfold event_term, dom_term.
  do 3 eexists. split; [reflexivity |].
  rewrite isum_zero, isum3_plus, isum3_scatter by exact HI.
  unfold value, dpart, ppart, epart. cbv iota. cbn [c_norm].
  rewrite !isum_zero, !isum3_plus, !Rsum_map_plus, !isum3_zero, !Rsum_zero. ring.
Qed.

Definition no_pulse (pred : R) : batch * results :=
  (mk_batch 1 1 1 [] (fun _ _ _ => 0) None false,
   mk_results (fun _ _ _ => pred) (fun _ _ _ => 1) (fun _ _ _ => 0) false).

Theorem C38_extended_norm_refuted : forall lgamma, exists b r L s ev dm,
  nonempty b /\ ids_ok b /\
  get_loss lgamma ExtendedPulse (mk_settings true None None) b r true false false
    = Ok (LScalar L) /\
  get_loss lgamma ExtendedPulse (mk_settings true None None) b r false false true
    = Ok (LTerms [TScalar s; TEvent (b_n b) ev;
                  TDom (b_n b) (b_strings b) (b_doms b) dm]) /\
  L <> s + isum (b_n b) ev + isum3 (b_n b) (b_strings b) (b_doms b) dm.
Proof.
  intros lgamma. set (b := fst (no_pulse 1)). set (r := snd (no_pulse 1)).
  assert (HC : check_time b r = Ok tt) by reflexivity.
  assert (HN : nonempty b) by (repeat split; simpl; lia).
  assert (HI : ids_ok b) by (intros p []).
  pose proof (scalar_form lgamma ExtendedPulse (mk_settings true None None) b r false HC) as E1.
  pose proof (scalar_form lgamma ExtendedPulse (mk_settings false None None) b r false HC) as E0.
  destruct (C38_extended_norm lgamma None None b r _ _ HN HI E1 E0)
    as (s & ev & dm & E & EQ).
  exists b, r. eexists. exists s, ev, dm.
  split; [exact HN |]. split; [exact HI |]. split; [exact E1 |].
  split; [exact E |]. cbv beta iota in EQ |- *.
  enough (value lgamma ExtendedPulse (mk_settings false None None) b r = 1) by lra.
  unfold value, isum3, dpart, epart, masked. simpl. unfold Rsum. simpl. ring.
Qed.

(** The charge pdf with normalisation has a scalar loss, but its sorted loss
    always raises. *)
Theorem C38_charge_norm : forall lgamma low high b r normalize,
  nonempty b -> ids_ok b -> (b_time b = true -> r_cdf r = true) ->
  (exists L, get_loss lgamma PulseAndDomCharge (mk_settings true low high) b r
     true normalize false = Ok (LScalar L)) /\
  get_loss lgamma PulseAndDomCharge (mk_settings true low high) b r
    false normalize true = Err RuntimeError.
Proof.
  intros lgamma low high b r normalize HN HI HT.
  assert (HC : check_time b r = Ok tt).
  { unfold check_time. destruct (b_time b); [| reflexivity].
    rewrite HT by reflexivity. reflexivity. }
  split; [rewrite scalar_form by exact HC; eauto |].
  unfold get_loss, loss_function, unbinned_pulse_and_dom_charge_pdf.
  cbn [andb]. rewrite HC. cbn [bind]. rewrite scatter_ok by exact HI.
  reflexivity.
Qed.

(** ** C39: excluded DOMs *)

Theorem C39_excluded_ignored : forall lgamma f c m b1 b2 r1 r2
  reduce normalize sort,
  agree_used m b1 b2 r1 r2 ->
  ~ (f = NormalizedDom \/ (f = PulseAndDomCharge /\ c_norm c = true)) ->
  same_loss (get_loss lgamma f c b1 r1 reduce normalize sort)
            (get_loss lgamma f c b2 r2 reduce normalize sort).
Proof. intros. eapply loss_agree; eassumption. Qed.

(** An excluded DOM without pulses contributes nothing to the sorted loss. *)
Theorem C39_excluded_zero : forall lgamma f c b r m normalize s ev dm,
  b_mask b = Some m -> nonempty b -> ids_ok b ->
  ~ ((f = ExtendedPulse \/ f = PulseAndDomCharge) /\ c_norm c = true) ->
  get_loss lgamma f c b r false normalize true =
    Ok (LTerms [TScalar s; TEvent (b_n b) ev;
                TDom (b_n b) (b_strings b) (b_doms b) dm]) ->
  forall e st d, m e st d = false ->
  (forall p, In p (b_pulses b) -> (p_event p, p_string p, p_dom p) <> (e, st, d)) ->
  dm e st d = 0.
Proof.
  intros lgamma f c b r m normalize s ev dm HM HN HI HX H e st d Hm HP.
  destruct (check_cases b r) as [HC | HC];
    [| rewrite (time_error_loss lgamma _ _ _ _ _ _ _ _ HC) in H by reflexivity; discriminate].
  destruct (sorted_loss_form lgamma f c b r normalize HC HI HN HX)
    as (ev' & dm' & E & _ & DM).
  rewrite E in H. injection H as _ _ <-. rewrite DM. cbv zeta.
  assert (F : filter (at_dom e st d) (b_pulses b) = []).
  { clear - HP. induction (b_pulses b) as [| p ps IH]; [reflexivity |].
    cbn [filter]. destruct (at_dom e st d p) eqn:A.
    - exfalso. apply (HP p (or_introl eq_refl)). unfold at_dom in A.
      rewrite !Bool.andb_true_iff, !Nat.eqb_eq in A.
      destruct A as ((-> & ->) & ->). reflexivity.
    - apply IH. intros q Hq. apply HP. right. exact Hq. }
  rewrite F. change (Rsum (map (ppart lgamma f c) [])) with 0.
  assert (M0 : forall t, masked b t e st d = 0)
    by (intros; rewrite (masked_some b m) by exact HM; rewrite Hm; ring).
  assert (D0 : dpart lgamma f c b r e st d = 0).
  { destruct f; unfold dpart; rewrite ?M0; try ring.
    - destruct (c_norm c); [exfalso; tauto | ring].
    - destruct (c_norm c); [exfalso; tauto | ring]. }
  rewrite D0. destruct normalize; unfold Rdiv; ring.
Qed.

(** The two remaining functions: they ignore the excluded DOMs as far as the
    measured charges (charge pdf with normalisation) respectively the
    predicted charges (normalised pdf) agree there as well. *)
Theorem C39_leaks : forall lgamma f c m b1 b2 r1 r2 x,
  agree_used m b1 b2 r1 r2 ->
  (forall e s d, (e < b_n b1)%nat -> (s < b_strings b1)%nat ->
     (d < b_doms b1)%nat ->
     if match f with NormalizedDom => true | _ => false end
     then r_pred r1 e s d = r_pred r2 e s d
     else b_true b1 e s d = b_true b2 e s d) ->
  get_loss lgamma f c b1 r1 true false false = Ok (LScalar x) ->
  get_loss lgamma f c b2 r2 true false false = Ok (LScalar x).
Proof.
  intros lgamma f c m b1 b2 r1 r2 x A H E.
  assert (TC : check_time b2 r2 = Ok tt).
  { destruct (check_cases b1 r1) as [HC | HC];
    [| rewrite (time_error_loss lgamma _ _ _ _ _ _ _ _ HC) in E by reflexivity; discriminate].
    rewrite <- HC. unfold check_time.
    destruct A as (_ & _ & _ & _ & _ & _ & -> & -> & _). reflexivity. }
  assert (TC1 : check_time b1 r1 = Ok tt).
  { rewrite <- TC. unfold check_time.
    destruct A as (_ & _ & _ & _ & _ & _ & -> & -> & _). reflexivity. }
  rewrite scalar_form in E by exact TC1. rewrite scalar_form by exact TC.
  rewrite <- E. do 2 f_equal.
  pose proof (epart_agree lgamma f m b1 b2 r1 r2 A) as EP.
  assert (D : forall e s d,
    (e < b_n b1)%nat -> (s < b_strings b1)%nat -> (d < b_doms b1)%nat ->
    dpart lgamma f c b1 r1 e s d = dpart lgamma f c b2 r2 e s d).
  { intros e s d He Hs Hd.
    destruct A as (A1 & A2 & A3 & A4 & A5 & A6 & A7 & A8 & A9).
    destruct f; try (apply dpart_agree with (m := m);
      [repeat split; auto; apply A9; auto | | assumption ..];
      unfold mask_leaks; intros [? | (? & ?)]; discriminate).
    - unfold dpart. specialize (H e s d He Hs Hd). cbn in H. rewrite H.
      f_equal. f_equal. apply masked_agree with (m := m); auto.
      intros; apply A9; auto.
    - unfold dpart. f_equal. apply masked_agree with (m := m); auto. intros M.
      destruct (A9 e s d He Hs Hd M) as (-> & -> & _). do 4 f_equal.
      rewrite !sum2_isum, <- A2, <- A3. apply isum_ext. intros s' Hs'.
      apply isum_ext. intros d' Hd'. apply (H e s' d' He Hs' Hd'). }
  destruct A as (A1 & A2 & A3 & A4 & _). unfold value.
  rewrite <- A1, <- A2, <- A3, <- A4.
  rewrite (isum3_ext _ _ _ _ _ D), (isum_ext _ _ _ EP). reflexivity.
Qed.

Definition two_doms (tr pr : nat -> R) : batch * results :=
  (mk_batch 1 1 2 [] (fun _ _ d => tr d)
     (Some (fun _ _ d => Nat.eqb d 0)) false,
   mk_results (fun _ _ d => pr d) (fun _ _ _ => 1) (fun _ _ _ => 0) false).

(** Expected but false: the predicted charge at an excluded DOM changes the
    normalised loss of the other DOMs. *)
Theorem C39_normalized_refuted : forall lgamma c, exists m b1 b2 r1 r2 x y,
  agree_used m b1 b2 r1 r2 /\
  get_loss lgamma NormalizedDom c b1 r1 true false false = Ok (LScalar x) /\
  get_loss lgamma NormalizedDom c b2 r2 true false false = Ok (LScalar y) /\
  x <> y.
Proof.
  intros lgamma c.
  set (tr := fun _ : nat => 1).
  set (p1 := fun d => if Nat.eqb d 0 then 1 else 0).
  set (p2 := fun _ : nat => 1).
  exists (fun _ _ d => Nat.eqb d 0), (fst (two_doms tr p1)),
    (fst (two_doms tr p2)), (snd (two_doms tr p1)), (snd (two_doms tr p2)).
  eexists. eexists. split.
  { unfold agree_used. simpl. repeat split; intros.
    unfold p1, p2. rewrite H2. reflexivity. }
  split; [apply scalar_form; reflexivity |].
  split; [apply scalar_form; reflexivity |]. cbv iota.
  unfold value, isum3, dpart, epart, masked, sum2. simpl. unfold Rsum. simpl.
  unfold tr, p1, p2. simpl. intros H.
  assert (L : ln (1 + eps5) = ln (1 / 2 + eps5)).
  { replace (1 + eps5) with (1 / (1 + (0 + 0) + 0) + eps5) by field.
    replace (1 / 2 + eps5) with (1 / (1 + (1 + 0) + 0) + eps5)
      by (replace (1 + (1 + 0) + 0) with 2 by ring; reflexivity).
    lra. }
  apply ln_inv in L; unfold eps5 in *; lra.
Qed.

(** Expected but false: with the normalisation the charge pdf depends on the
    measured charge at an excluded DOM. *)
Theorem C39_charge_norm_refuted : forall lgamma low high,
  lgamma 2 <> lgamma 3 -> exists m b1 b2 r x y,
  agree_used m b1 b2 r r /\
  get_loss lgamma PulseAndDomCharge (mk_settings true low high) b1 r
    true false false = Ok (LScalar x) /\
  get_loss lgamma PulseAndDomCharge (mk_settings true low high) b2 r
    true false false = Ok (LScalar y) /\
  x <> y.
Proof.
  intros lgamma low high HG.
  set (t1 := fun _ : nat => 0).
  set (t2 := fun d => if Nat.eqb d 0 then 0 else 2).
  exists (fun _ _ d => Nat.eqb d 0), (fst (two_doms t1 t1)),
    (fst (two_doms t2 t1)), (snd (two_doms t1 t1)).
  eexists. eexists. split.
  { unfold agree_used. simpl. repeat split; intros.
    unfold t1, t2. rewrite H2. reflexivity. }
  split; [apply scalar_form; reflexivity |].
  split; [apply scalar_form; reflexivity |]. cbv iota.
  unfold value, isum3, dpart, epart, masked, log_faculty. simpl.
  unfold Rsum. simpl. unfold t1, t2. simpl. intros H. apply HG.
  rewrite (Rmax_right (0 + 1) 2) in H by lra.
  rewrite (Rmax_left (2 + 1) 2) in H by lra.
  replace (2 + 1) with 3 in H by ring. lra.
Qed.

(** ** C40: combined losses *)

Theorem C40_scalar_sum : forall (ms : list member) (xs : list R),
  Forall2 (fun m x => m true false = Ok (LScalar x)) ms xs -> ms <> [] ->
  multi_loss ms true false = Ok (LScalar (fold_right Rplus 0 xs)).
Proof.
  assert (K : forall ms xs a t,
    Forall2 (fun (m : member) x => m true false = Ok (LScalar x)) ms xs ->
    multi_loop true false (LScalar a, t) ms =
    Ok (LScalar (a + fold_right Rplus 0 xs), t)).
  { intros ms xs a t H. revert a. induction H as [| m x ms xs E H IH]; intros a.
    - simpl. do 3 f_equal. ring.
    - simpl. rewrite E. simpl. rewrite IH. do 3 f_equal. ring. }
  intros ms xs H. destruct H as [| m x ms xs E H]; [intros N; destruct (N eq_refl) |]; intros _.
  unfold multi_loss. simpl. rewrite E. simpl. rewrite (K ms xs) by exact H.
  reflexivity.
Qed.

Theorem C40_unsorted_concat : forall (ms : list member) (ls : list (list term)),
  Forall2 (fun m l => m false false = Ok (LTerms l)) ms ls ->
  multi_loss ms false false = Ok (LTerms (concat ls)).
Proof.
  assert (K : forall ms ls a t,
    Forall2 (fun (m : member) l => m false false = Ok (LTerms l)) ms ls ->
    multi_loop false false (a, t) ms = Ok (a, t ++ concat ls)).
  { intros ms ls a t H. revert t. induction H as [| m l ms ls E H IH]; intros t.
    - simpl. rewrite app_nil_r. reflexivity.
    - simpl. rewrite E. simpl. rewrite IH, app_assoc. reflexivity. }
  intros ms ls H. unfold multi_loss. rewrite (K ms ls) by exact H. reflexivity.
Qed.

(** The sorted terms of members of one batch. *)
Definition sorted_terms (n ns nd : nat) (x : R * (nat -> R) * tensor3)
  : list term :=
  let '(s, e, d) := x in [TScalar s; TEvent n e; TDom n ns nd d].

Theorem C40_sorted_sum : forall n ns nd (ms : list member) xs,
  Forall2 (fun m x => m false true = Ok (LTerms (sorted_terms n ns nd x))) ms xs ->
  ms <> [] ->
  exists s ev dm,
    multi_loss ms false true = Ok (LTerms (sorted_terms n ns nd (s, ev, dm))) /\
    s = fold_right Rplus 0 (map (fun x => fst (fst x)) xs) /\
    (forall e, ev e = fold_right Rplus 0 (map (fun x => snd (fst x) e) xs)) /\
    (forall e st d, dm e st d =
       fold_right Rplus 0 (map (fun x => snd x e st d) xs)).
Proof.
  intros n ns nd.
  assert (K : forall ms xs a s0 e0 d0,
    Forall2 (fun (m : member) x =>
      m false true = Ok (LTerms (sorted_terms n ns nd x))) ms xs ->
    exists s ev dm,
    multi_loop false true (a, sorted_terms n ns nd (s0, e0, d0)) ms =
      Ok (a, sorted_terms n ns nd (s, ev, dm)) /\
    s = s0 + fold_right Rplus 0 (map (fun x => fst (fst x)) xs) /\
    (forall e, ev e = e0 e + fold_right Rplus 0 (map (fun x => snd (fst x) e) xs)) /\
    (forall e st d, dm e st d = d0 e st d +
       fold_right Rplus 0 (map (fun x => snd x e st d) xs))).
  { intros ms xs a s0 e0 d0 H. revert s0 e0 d0.
    induction H as [| m x ms xs E H IH]; intros s0 e0 d0.
    - exists s0, e0, d0. split; [reflexivity |]. simpl.
      repeat split; intros; ring.
    - destruct x as ((s1, e1), d1).
      destruct (IH (s0 + s1) (fun e => e0 e + e1 e)
                   (fun e st d => d0 e st d + d1 e st d))
        as (s & ev & dm & EQ & A & B & C).
      exists s, ev, dm. split.
      + cbn [multi_loop]. unfold multi_step at 1. rewrite E.
        cbn [bind sorted_terms add_term].
        rewrite !Nat.eqb_refl. cbn [andb bind]. exact EQ.
      + simpl. split; [rewrite A; ring |]. split; intros; rewrite ?B, ?C; ring. }
  intros ms xs H. destruct H as [| m x ms xs E H]; [intros N; destruct (N eq_refl) |]; intros _.
  destruct x as ((s0, e0), d0).
  destruct (K ms xs LNone s0 e0 d0 H) as (s & ev & dm & EQ & A & B & C).
  exists s, ev, dm. split.
  - unfold multi_loss. cbn [multi_loop]. unfold multi_step at 1. rewrite E.
    cbn [bind sorted_terms]. change [TScalar s0; TEvent n e0; TDom n ns nd d0]
      with (sorted_terms n ns nd (s0, e0, d0)). rewrite EQ. reflexivity.
  - simpl. split; [exact A |]. split; [exact B | exact C].
Qed.

(** The order of the members does not matter. *)
Theorem C40_order : forall (ms ms' : list member) (xs : list R),
  Permutation ms ms' ->
  Forall2 (fun m x => m true false = Ok (LScalar x)) ms xs ->
  multi_loss ms true false = multi_loss ms' true false.
Proof.
  intros ms ms' xs P H.
  destruct ms as [| m ms].
  { apply Permutation_nil in P. subst. reflexivity. }
  destruct (Forall2_perm _ _ _ _ P H) as (xs' & P' & H').
  rewrite (C40_scalar_sum _ xs) by (auto; discriminate).
  rewrite (C40_scalar_sum _ xs').
  - do 2 f_equal. apply fold_plus_perm, P'.
  - exact H'.
  - intros ->. apply Permutation_sym, Permutation_nil in P. discriminate.
Qed.

Theorem C40_order_sorted : forall n ns nd (ms ms' : list member) xs,
  Permutation ms ms' ->
  Forall2 (fun m x => m false true = Ok (LTerms (sorted_terms n ns nd x))) ms xs ->
  same_loss (multi_loss ms false true) (multi_loss ms' false true).
Proof.
  intros n ns nd ms ms' xs P H.
  destruct ms as [| m ms].
  { apply Permutation_nil in P. subst. constructor. constructor. }
  destruct (Forall2_perm _ _ _ _ P H) as (xs' & P' & H').
  destruct (C40_sorted_sum n ns nd _ _ H) as (s1 & e1 & d1 & E1 & A1 & B1 & C1);
    [discriminate |].
  destruct (C40_sorted_sum n ns nd _ _ H') as (s2 & e2 & d2 & E2 & A2 & B2 & C2).
  { intros ->. apply Permutation_sym, Permutation_nil in P. discriminate. }
  rewrite E1, E2. constructor. repeat constructor; intros; simpl;
    rewrite ?A1, ?A2, ?B1, ?B2, ?C1, ?C2;
    apply fold_plus_perm, Permutation_map, P'.
Qed.

(** Without members there is nothing to add: the scalar is None and the lists
    are empty. *)
Theorem C40_empty : forall reduce sort, multi_loss [] reduce sort =
  Ok (if reduce then LNone else LTerms []).
Proof. intros [|] [|]; reflexivity. Qed.

(** The first member that fails determines the error: the members before it
    return losses as [get_loss] of a loss module does for the given flags. *)
Definition regular (n ns nd : nat) (reduce sort : bool) (l : loss) : Prop :=
  if reduce then exists x, l = LScalar x
  else if sort then exists x, l = LTerms (sorted_terms n ns nd x)
  else exists ts, l = LTerms ts.

Theorem C40_error : forall n ns nd (ms ms' : list member) m e reduce sort,
  (forall a, In a ms -> exists l, a reduce sort = Ok l /\
     regular n ns nd reduce sort l) ->
  m reduce sort = Err e ->
  multi_loss (ms ++ m :: ms') reduce sort = Err e.
Proof.
  intros n ns nd ms ms' m e reduce sort H HE. unfold multi_loss.
  enough (K : forall st, (reduce = true \/ sort = false \/ snd st = [] \/
              exists x, snd st = sorted_terms n ns nd x) ->
            multi_loop reduce sort st (ms ++ m :: ms') = Err e).
  { rewrite K by (right; right; left; reflexivity). reflexivity. }
  induction ms as [| a ms IH]; intros st HS.
  - cbn [app multi_loop]. unfold multi_step. destruct st. rewrite HE. reflexivity.
  - cbn [app multi_loop]. destruct (H a (or_introl eq_refl)) as (l & El & HL).
    unfold multi_step. destruct st as (acc, terms). rewrite El. cbn [bind].
    assert (IH' := IH (fun a' Ha => H a' (or_intror Ha))). clear IH.
    unfold regular in HL. destruct reduce.
    + destruct HL as (x & ->). destruct acc; cbn [bind]; apply IH'; auto.
    + destruct sort.
      * destruct HL as (((x, ev), dm) & ->). cbn [sorted_terms].
        destruct HS as [HS | [HS | [HS | (((y, fv), fm) & HS)]]];
          try discriminate; cbn [snd] in HS; rewrite HS.
        -- cbn [bind]. apply IH'. right. right. right.
           exists (x, ev, dm). reflexivity.
        -- cbn [sorted_terms add_term bind]. rewrite !Nat.eqb_refl.
           cbn [andb bind]. apply IH'. right. right. right.
           eexists (_, _, _). reflexivity.
      * destruct HL as (ts & ->). cbn [bind]. apply IH'. auto.
Qed.

(** ** C41: the prior on the Fourier modes *)

(** With at least one sigma the loss raises, whatever the parameters of the
    model are. *)
Theorem C41_fourier_raises : forall uniform sigmas names x n ns nd reduce sort,
  sigmas <> [] ->
  exists e, prior_loss uniform sigmas names x n ns nd reduce sort = Err e /\
    (e = KeyError \/ e = AssertionError).
Proof.
  intros uniform sigmas names x n ns nd reduce sort HS.
  assert (KE : forall nm e, get_index names nm = Err e -> e = KeyError).
  { intros nm e. unfold get_index. destruct (index_from 0 names nm);
      [discriminate | congruence]. }
  assert (F : exists e, fourier_terms names x sigmas = Err e /\
            (e = KeyError \/ e = AssertionError)).
  { unfold fourier_terms. set (k := length sigmas).
    assert (k <> 0)%nat by (destruct sigmas; [congruence | discriminate]).
    rewrite (proj2 (Nat.eqb_neq k 0)) by assumption.
    destruct (get_index names (mode 0)) as [start | e] eqn:E0;
      [| exists e; split; [reflexivity | left; eauto]].
    cbn [bind].
    destruct (get_index names (mode k)) as [last | e] eqn:E1;
      [| exists e; split; [reflexivity | left; eauto]].
    cbn [bind].
    destruct (Z.eqb_spec (Z.of_nat (last + 1) - Z.of_nat start) (Z.of_nat k))
      as [EQ | NE]; cbn [negb]; [| eauto].
    match goal with |- context [mapr ?g ?l] => destruct (mapr g l) as [us | e] eqn:M end.
    - exfalso.
      destruct (mapr_in _ _ _ M (k - 1)%nat) as (y & Hy).
      { apply in_seq. lia. }
      apply bind_ok in Hy. destruct Hy as (idx & Hi & Hy).
      destruct (Nat.eqb_spec (start + (k - 1)) idx) as [<- | ]; [| discriminate].
      replace (start + (k - 1))%nat with last in Hi by lia.
      pose proof (get_index_inj _ _ _ _ E1 Hi) as J. apply mode_inj in J. lia.
    - exists e. split; [reflexivity |].
      clear - M KE. revert M. generalize (seq 0 (last + 1 - start)).
      intros l. revert e. induction l as [| i l IH]; intros e M;
        cbn [mapr] in M; [discriminate |].
      destruct (get_index names (mode i)) as [idx | e'] eqn:E; cbn [bind] in M.
      + destruct (Nat.eqb (start + i) idx); cbn [bind] in M.
        * match type of M with bind ?r _ = _ => destruct r as [us | e'] eqn:M' end;
            cbn [bind] in M; [discriminate |]. injection M as <-. eauto.
        * injection M as <-. right. reflexivity.
      + injection M as <-. left. eauto. }
  destruct F as (e & F & HE).
  unfold prior_loss.
  match goal with |- context [mapr ?g ?l] => destruct (mapr g l) as [us | e'] eqn:M end.
  - cbn [bind]. rewrite F. exists e. split; [reflexivity | exact HE].
  - exists e'. split; [reflexivity |]. left.
    clear - M KE. revert e' M. induction uniform as [| nb l IH]; intros e' M;
      cbn [mapr] in M; [discriminate |].
    destruct (get_index names (fst nb)) as [idx | e2] eqn:E; cbn [bind] in M.
    + match type of M with bind ?r _ = _ => destruct r as [us | e3] eqn:M' end;
        cbn [bind] in M; [discriminate |]. injection M as <-. eauto.
    + injection M as <-. eauto.
Qed.

(** ** C42: the prior on the uniform parameters *)

Lemma exp10_pos x : 0 < x -> 0 < loss_excess x.
Proof.
  intros H. unfold loss_excess.
  assert (exp 10 < exp ((x + 1) * 10)) by (apply exp_increasing; lra). lra.
Qed.

Theorem C42_inside : forall v low high, low <= v <= high ->
  uniform_log_prior_loss v low high = 0.
Proof.
  intros v low high H. unfold uniform_log_prior_loss.
  rewrite (proj2 (Rltb_false high v)) by lra.
  rewrite (proj2 (Rltb_false v low)) by lra. ring.
Qed.

Theorem C42_outside : forall v low high, low < high -> v < low \/ high < v ->
  0 < uniform_log_prior_loss v low high.
Proof.
  intros v low high LH [H | H]; unfold uniform_log_prior_loss.
  - rewrite (proj2 (Rltb_false high v)) by lra.
    rewrite (proj2 (Rltb_true v low)) by lra.
    rewrite Rplus_0_l. apply exp10_pos. apply Rdiv_lt_0_compat; lra.
  - rewrite (proj2 (Rltb_true high v)) by lra.
    rewrite (proj2 (Rltb_false v low)) by lra.
    rewrite Rplus_0_r. apply exp10_pos. apply Rdiv_lt_0_compat; lra.
Qed.

(** Further outside on the same side costs strictly more. *)
Theorem C42_increasing : forall v w low high, low < high ->
  (high <= v /\ v < w) \/ (w < v /\ v <= low) ->
  uniform_log_prior_loss v low high < uniform_log_prior_loss w low high.
Proof.
  intros v w low high LH H.
  assert (HM : forall a b, a < b -> loss_excess a < loss_excess b).
  { intros a b L. unfold loss_excess.
    assert (exp ((a + 1) * 10) < exp ((b + 1) * 10)) by (apply exp_increasing; lra).
    lra. }
  assert (HD : forall a b, a < b -> a / (high - low) < b / (high - low)).
  { intros a b L. unfold Rdiv. apply Rmult_lt_compat_r; [| exact L].
    apply Rinv_0_lt_compat. lra. }
  destruct H as [(H1 & H2) | (H1 & H2)].
  - destruct (Req_dec v high) as [-> | N].
    + rewrite (C42_inside high) by lra. apply C42_outside; lra.
    + unfold uniform_log_prior_loss.
      rewrite (proj2 (Rltb_true high v)), (proj2 (Rltb_true high w)) by lra.
      rewrite (proj2 (Rltb_false v low)), (proj2 (Rltb_false w low)) by lra.
      rewrite !Rplus_0_r. apply HM, HD. lra.
  - destruct (Req_dec v low) as [-> | N].
    + rewrite (C42_inside low) by lra. apply C42_outside; lra.
    + unfold uniform_log_prior_loss.
      rewrite (proj2 (Rltb_false high v)), (proj2 (Rltb_false high w)) by lra.
      rewrite (proj2 (Rltb_true v low)), (proj2 (Rltb_true w low)) by lra.
      rewrite !Rplus_0_l. apply HM, HD. lra.
Qed.

(** The two sides are mirror images. *)
Theorem C42_symmetric : forall v low high,
  uniform_log_prior_loss (low + high - v) low high =
  uniform_log_prior_loss v low high.
Proof.
  intros v low high. unfold uniform_log_prior_loss.
  destruct (Rltb high v) eqn:E1; destruct (Rltb v low) eqn:E2;
    destruct (Rltb high (low + high - v)) eqn:E3;
    destruct (Rltb (low + high - v) low) eqn:E4;
    repeat match goal with
    | H : Rltb _ _ = true |- _ => apply (proj1 (Rltb_true _ _)) in H
    | H : Rltb _ _ = false |- _ => apply (proj1 (Rltb_false _ _)) in H
    end; try lra.
  - replace (low + high - v - high) with (low - v) by ring.
    replace (low - (low + high - v)) with (v - high) by ring. ring.
  - replace (low - (low + high - v)) with (v - high) by ring. ring.
  - replace (low + high - v - high) with (low - v) by ring. ring.
Qed.

(** There is no jump at the bounds: the prior is continuous. *)
Theorem C42_continuous : forall low high, low < high ->
  forall v, continuity_pt (fun v => uniform_log_prior_loss v low high) v.
Proof.
  intros low high LH v.
  set (f := fun v => loss_excess (Rmax 0 ((v - high) / (high - low))) +
                     loss_excess (Rmax 0 ((low - v) / (high - low)))).
  assert (Z : loss_excess 0 = 0)
    by (unfold loss_excess; replace ((0 + 1) * 10) with 10 by ring; ring).
  assert (P : 0 < / (high - low)) by (apply Rinv_0_lt_compat; lra).
  assert (E : forall v, f v = uniform_log_prior_loss v low high).
  { intros u. unfold f, uniform_log_prior_loss. f_equal.
    - destruct (Rltb high u) eqn:T.
      + apply (proj1 (Rltb_true _ _)) in T. rewrite Rmax_right; [reflexivity |].
        unfold Rdiv. apply Rmult_le_pos; lra.
      + apply (proj1 (Rltb_false _ _)) in T. rewrite Rmax_left; [exact Z |].
        unfold Rdiv. nra.
    - destruct (Rltb u low) eqn:T.
      + apply (proj1 (Rltb_true _ _)) in T. rewrite Rmax_right; [reflexivity |].
        unfold Rdiv. apply Rmult_le_pos; lra.
      + apply (proj1 (Rltb_false _ _)) in T. rewrite Rmax_left; [exact Z |].
        unfold Rdiv. nra. }
  assert (MX : forall g x, continuity_pt g x ->
            continuity_pt (fun y => Rmax 0 (g y)) x).
  { intros g x C.
    assert (EQ : forall y, Rmax 0 (g y) = (g y + Rabs (g y)) * / 2).
    { intros y. unfold Rmax, Rabs. destruct (Rle_dec 0 (g y)), (Rcase_abs (g y)); lra. }
    intros eps Heps. destruct (C eps Heps) as (a & Ha & H).
    exists a. split; [exact Ha |]. intros y Hy. specialize (H y Hy).
    simpl in *. unfold R_dist in *.
    eapply Rle_lt_trans; [| exact H].
    unfold Rmax. destruct (Rle_dec 0 (g y)), (Rle_dec 0 (g x));
      unfold Rabs; repeat destruct Rcase_abs; lra. }
  assert (LE : forall g x, continuity_pt g x ->
            continuity_pt (fun y => loss_excess (g y)) x).
  { intros g x C. unfold loss_excess.
    apply (continuity_pt_minus (fun y => exp ((g y + 1) * 10)) (fun _ => exp 10));
      [| apply continuity_pt_const; intros ? ?; reflexivity].
    apply (continuity_pt_comp (fun y => (g y + 1) * 10) exp).
    - apply (continuity_pt_mult (fun y => g y + 1) (fun _ => 10));
        [| apply continuity_pt_const; intros ? ?; reflexivity].
      apply (continuity_pt_plus g (fun _ => 1)); [exact C |].
      apply continuity_pt_const; intros ? ?; reflexivity.
    - apply derivable_continuous_pt, derivable_pt_exp. }
  assert (CF : continuity_pt f v).
  { unfold f. apply (continuity_pt_plus
      (fun v => loss_excess (Rmax 0 ((v - high) / (high - low))))
      (fun v => loss_excess (Rmax 0 ((low - v) / (high - low)))));
      apply LE, MX; unfold Rdiv.
    - apply (continuity_pt_mult (fun v => v - high) (fun _ => / (high - low)));
        [| apply continuity_pt_const; intros ? ?; reflexivity].
      apply (continuity_pt_minus (fun v => v) (fun _ => high));
        [apply derivable_continuous_pt, derivable_pt_id |
         apply continuity_pt_const; intros ? ?; reflexivity].
    - apply (continuity_pt_mult (fun v => low - v) (fun _ => / (high - low)));
        [| apply continuity_pt_const; intros ? ?; reflexivity].
      apply (continuity_pt_minus (fun _ => low) (fun v => v));
        [apply continuity_pt_const; intros ? ?; reflexivity |
         apply derivable_continuous_pt, derivable_pt_id]. }
  intros eps Heps. destruct (CF eps Heps) as (a & Ha & H).
  exists a. split; [exact Ha |]. intros y Hy. rewrite <- !E. apply H, Hy.
Qed.

(** The scalar prior loss is the sum over parameters and events, and an
    unknown parameter name raises. *)
Theorem C42_total : forall uniform names x n ns nd idx,
  Forall2 (fun nb i => get_index names (fst nb) = Ok i) uniform idx ->
  uniform <> [] ->
  prior_loss uniform [] names x n ns nd true false =
  Ok (LScalar (fold_right Rplus 0
    (map (fun p => isum (length x) (fun e =>
       uniform_log_prior_loss (nth (snd p) (nth e x []) 0)
         (fst (snd (fst p))) (snd (snd (fst p)))))
      (combine uniform idx)))).
Proof.
  intros uniform names x n ns nd idx H N. unfold prior_loss.
  set (g := fun nb : string * (R * R) => bind (get_index names (fst nb)) _).
  assert (M : mapr g uniform = Ok (map (fun p => TEvent (length x) (fun e =>
       uniform_log_prior_loss (nth (snd p) (nth e x []) 0)
         (fst (snd (fst p))) (snd (snd (fst p))))) (combine uniform idx))).
  { clear N. induction H as [| nb i u l E H IH]; [reflexivity |].
    cbn [mapr combine map]. unfold g at 1. rewrite E. cbn [bind].
    rewrite IH. reflexivity. }
  rewrite M. cbn [bind fourier_terms length Nat.eqb]. cbv zeta.
  rewrite app_nil_r, map_map.
  clear M. revert N. destruct H as [| nb i u l E H]; [intros N; destruct (N eq_refl) |]; intros _.
  cbn [combine map accumulate_n bind]. do 2 f_equal. unfold Rsum. cbn [fold_right].
  f_equal; [apply reduce_total |].
  f_equal. apply map_ext. intros p. apply reduce_total.
Qed.

Theorem C42_unknown : forall uniform sigmas names x n ns nd reduce sort nb,
  In nb uniform -> ~ In (fst nb) names ->
  prior_loss uniform sigmas names x n ns nd reduce sort = Err KeyError.
Proof.
  intros uniform sigmas names x n ns nd reduce sort nb HI HN. unfold prior_loss.
  match goal with |- context [mapr ?g uniform] =>
    assert (M : mapr g uniform = Err KeyError) end.
  { induction uniform as [| a u IH]; [contradiction |]. cbn [mapr].
    destruct (get_index names (fst a)) as [i | e] eqn:E; cbn [bind].
    - destruct HI as [-> | HI].
      + exfalso. apply HN. unfold get_index in E.
        destruct (index_from 0 names (fst nb)) eqn:J; [| discriminate].
        apply index_from_nth in J. destruct J as (_ & J).
        eapply nth_error_In. exact J.
      + rewrite IH by exact HI. reflexivity.
    - unfold get_index in E. destruct (index_from 0 names (fst a));
        [discriminate | congruence]. }
  rewrite M. reflexivity.
Qed.

(** ** C74: the prior in sorted mode *)

Theorem C74_sorted_raises : forall uniform names x n ns nd reduce,
  uniform <> [] ->
  exists e, prior_loss uniform [] names x n ns nd reduce true = Err e /\
    (e = TypeError \/ e = KeyError).
Proof.
  intros uniform names x n ns nd reduce N. unfold prior_loss.
  match goal with |- context [mapr ?g ?l] => destruct (mapr g l) as [us | e] eqn:M end.
  - cbn [bind fourier_terms length Nat.eqb]. cbv zeta. rewrite app_nil_r.
    destruct us as [| u us]; [| eauto].
    exfalso. destruct uniform as [| a u]; [congruence |]. cbn [mapr] in M.
    apply bind_ok in M. destruct M as (y & _ & M).
    apply bind_ok in M. destruct M as (ys & _ & M). discriminate.
  - exists e. split; [reflexivity |]. right.
    clear N. revert e M. induction uniform as [| nb l IH]; intros e M;
      cbn [mapr] in M; [discriminate |].
    destruct (get_index names (fst nb)) as [idx | e2] eqn:E; cbn [bind] in M.
    + match type of M with bind ?r _ = _ => destruct r as [us | e3] eqn:M' end;
        cbn [bind] in M; [discriminate |]. injection M as <-. eauto.
    + injection M as <-. unfold get_index in E.
      destruct (index_from 0 names (fst nb)); [discriminate | congruence].
Qed.

(** ** C75: losses add up over events *)

Theorem C75_events : forall lgamma f c b r L, ids_ok b ->
  get_loss lgamma f c b r true false false = Ok (LScalar L) ->
  exists le : nat -> R,
    (forall e, (e < b_n b)%nat ->
       get_loss lgamma f c (one_event b e) (one_result r e) true false false =
       Ok (LScalar (le e))) /\
    L = isum (b_n b) le.
Proof.
  intros lgamma f c b r L HI H.
  destruct (check_cases b r) as [HC | HC];
    [| rewrite (time_error_loss lgamma _ _ _ _ _ _ _ _ HC) in H by reflexivity; discriminate].
  rewrite scalar_form in H by exact HC. injection H as <-.
  exists (fun e => value lgamma f c (one_event b e) (one_result r e)).
  split; [| apply value_events; exact HI].
  intros e _. apply scalar_form. exact HC.
Qed.

(** ** C76: the normalised loss depends only on the relative charges *)

Theorem C76_scale : forall lgamma c b r k reduce normalize sort,
  (forall e, (e < b_n b)%nat -> k e <> 0 /\
     isum (b_strings b) (fun s => isum (b_doms b) (r_pred r e s)) <> 0) ->
  same_loss
    (get_loss lgamma NormalizedDom c b r reduce normalize sort)
    (get_loss lgamma NormalizedDom c b
       (mk_results (fun e s d => k e * r_pred r e s d) (r_var r) (r_logpdf r)
          (r_cdf r)) reduce normalize sort).
Proof.
  intros lgamma c b r k reduce normalize sort H.
  set (r' := mk_results _ _ _ _).
  assert (D : forall e s d, (e < b_n b)%nat ->
    - masked b (fun e s d => b_true b e s d * ln (r_pred r e s d /
        sum2 (b_strings b) (b_doms b) (r_pred r e) + eps5)) e s d =
    - masked b (fun e s d => b_true b e s d * ln (r_pred r' e s d /
        sum2 (b_strings b) (b_doms b) (r_pred r' e) + eps5)) e s d).
  { intros e s d He. destruct (H e He) as (K & S).
    assert (E : r_pred r e s d / sum2 (b_strings b) (b_doms b) (r_pred r e) =
                r_pred r' e s d / sum2 (b_strings b) (b_doms b) (r_pred r' e)).
    { rewrite !sum2_isum. unfold r'. cbn [r_pred].
      assert (X : isum (b_strings b) (fun s => isum (b_doms b)
                    (fun d => k e * r_pred r e s d)) =
                  k e * isum (b_strings b) (fun s => isum (b_doms b)
                    (fun d => r_pred r e s d))).
      { assert (Y : forall n f, isum n (fun i => k e * f i) = k e * isum n f)
          by (intros n0 f0; induction n0; simpl; [ring | rewrite IHn0; ring]).
        rewrite <- Y. apply isum_ext. intros. apply Y. }
      rewrite X. field. split; [exact S | exact K]. }
    unfold masked. destruct (b_mask b); rewrite E; reflexivity. }
  assert (TE : check_time b r' = check_time b r) by reflexivity.
  unfold get_loss. destruct (reduce && sort); [constructor |].
  unfold loss_function, normalized_dom_charge_pdf. rewrite TE.
  destruct (check_cases b r) as [HC | HC]; rewrite HC; cbn [bind];
    [| constructor].
  set (t1 := fun e s d : nat => - masked b (fun e s d => b_true b e s d *
    ln (r_pred r e s d / sum2 (b_strings b) (b_doms b) (r_pred r e) + eps5)) e s d) in *.
  set (t2 := fun e s d : nat => - masked b (fun e s d => b_true b e s d *
    ln (r_pred r' e s d / sum2 (b_strings b) (b_doms b) (r_pred r' e) + eps5)) e s d) in *.
  assert (TD : same_term (dom_term b t1) (dom_term b t2))
    by (simpl; repeat split; intros; apply D; assumption).
  assert (TAIL : forall l1 l2, Forall2 same_term l1 l2 ->
      same_loss
       (let terms := if normalize then map (scale_term (number_of_terms b)) l1 else l1 in
        if reduce then bind (accumulate_n (map reduce_sum terms)) (fun x => Ok (LScalar x))
        else Ok (LTerms terms))
       (let terms := if normalize then map (scale_term (number_of_terms b)) l2 else l2 in
        if reduce then bind (accumulate_n (map reduce_sum terms)) (fun x => Ok (LScalar x))
        else Ok (LTerms terms))).
  { intros l1 l2 F. cbv zeta.
    assert (F' : Forall2 same_term
      (if normalize then map (scale_term (number_of_terms b)) l1 else l1)
      (if normalize then map (scale_term (number_of_terms b)) l2 else l2))
      by (destruct normalize; [apply Forall2_scale; exact F | exact F]).
    revert F'. generalize (if normalize then map (scale_term (number_of_terms b)) l1 else l1)
      (if normalize then map (scale_term (number_of_terms b)) l2 else l2).
    intros l3 l4 F'. destruct reduce; [| constructor; exact F'].
    replace (map reduce_sum l4) with (map reduce_sum l3).
    - destruct (accumulate_n (map reduce_sum l3)); constructor.
    - induction F'; [reflexivity |]. simpl. f_equal; [| exact IHF'].
      rewrite !reduce_total. apply total_same. assumption. }
  destruct sort; cbn [fill bind].
  - match goal with |- context [if ?x then Err _ else _] => destruct x end;
      [constructor |]. cbn [bind]. apply TAIL.
    repeat constructor. intros. apply D. assumption.
  - apply TAIL. constructor; [exact TD | constructor].
Qed.

(** ** Examples *)

(** Two events, two DOMs on one string, three pulses, the second DOM of the
    first event excluded. *)
Definition ex_batch : batch :=
  mk_batch 2 1 2
    [mk_pulse 1 (1 / 2) 0 0 0 (1 / 10) (1 / 5);
     mk_pulse 2 1 0 0 0 (2 / 10) (2 / 5);
     mk_pulse 3 1 1 0 1 (3 / 10) (3 / 5)]
    (fun e _ d => INR (e + d))
    (Some (fun e _ d => negb (Nat.eqb e 0 && Nat.eqb d 1))) true.

Definition ex_results : results :=
  mk_results (fun e _ d => 1 + INR d) (fun _ _ _ => 2) (fun _ _ _ => 1) true.

Example ex_nonempty : nonempty ex_batch /\ ids_ok ex_batch.
Proof.
  split; [repeat split; simpl; lia |].
  intros p [<- | [<- | [<- | []]]]; simpl; lia.
Qed.

Example ex_scalar : forall lgamma f c, exists L,
  get_loss lgamma f c ex_batch ex_results true false false = Ok (LScalar L).
Proof. intros. eexists. apply scalar_form. reflexivity. Qed.

(** C39: the measured and predicted charges at the excluded DOM differ. *)
Example ex_agree :
  let b2 := mk_batch 2 1 2 (b_pulses ex_batch)
    (fun e _ d => if Nat.eqb e 0 && Nat.eqb d 1 then 7 else INR (e + d))
    (b_mask ex_batch) true in
  let r2 := mk_results
    (fun e _ d => if Nat.eqb e 0 && Nat.eqb d 1 then 9 else 1 + INR d)
    (fun _ _ _ => 2) (fun _ _ _ => 1) true in
  agree_used (fun e _ d => negb (Nat.eqb e 0 && Nat.eqb d 1))
    ex_batch b2 ex_results r2 /\ b_true b2 0%nat 0%nat 1%nat <> b_true ex_batch 0%nat 0%nat 1%nat.
Proof.
  simpl. split; [| lra]. unfold agree_used; simpl. repeat split; intros;
    destruct (Nat.eqb e 0 && Nat.eqb d 1); simpl in *; congruence.
Qed.

Example ex_excluded_zero :
  forall p, In p (b_pulses ex_batch) ->
    (p_event p, p_string p, p_dom p) <> (0%nat, 0%nat, 1%nat).
Proof. intros p [<- | [<- | [<- | []]]]; discriminate. Qed.

(** C40: loss modules as members. *)
Example ex_members : forall lgamma c, exists x y,
  Forall2 (fun (m : member) z => m true false = Ok (LScalar z))
    [(fun reduce sort => get_loss lgamma PulseTime c ex_batch ex_results reduce false sort);
     (fun reduce sort => get_loss lgamma NegativeBinomial c ex_batch ex_results reduce false sort)]
    [x; y].
Proof.
  intros. do 2 eexists. repeat constructor; apply scalar_form; reflexivity.
Qed.

Example ex_regular : forall lgamma c,
  exists x, get_loss lgamma PulseTime c ex_batch ex_results false false true =
    Ok (LTerms (sorted_terms 2 1 2 x)).
Proof.
  intros lgamma c.
  destruct (sorted_loss_form lgamma PulseTime c ex_batch ex_results false
    eq_refl (proj2 ex_nonempty) (proj1 ex_nonempty))
    as (ev & dm & E & _).
  { intros ([? | ?] & _); discriminate. }
  exists (0, ev, dm). exact E.
Qed.

(** C41 and C42: the parameters of a model with two modes and a scale. *)
Example ex_prior :
  get_index ["scale"; mode 0; mode 1] "scale" = Ok 0%nat /\
  fourier_terms ["scale"; mode 0; mode 1] [[1; 2; 3]] [1; 1] = Err KeyError /\
  fourier_terms ["scale"; mode 0; mode 1] [[1; 2; 3]] [1] = Err AssertionError.
Proof. repeat split; vm_compute; reflexivity. Qed.

Example ex_uniform : 0 < uniform_log_prior_loss 3 1 2 /\
  uniform_log_prior_loss (3 / 2) 1 2 = 0.
Proof.
  split; [apply C42_outside; lra | apply C42_inside; lra].
Qed.

Example ex_scale : forall e, (e < b_n ex_batch)%nat -> 3 <> 0 /\
  isum (b_strings ex_batch) (fun s => isum (b_doms ex_batch)
    (r_pred ex_results e s)) <> 0.
Proof. intros e _. simpl. split; lra. Qed.

Print Assumptions C38_sorted_sum.
Print Assumptions C38_unsorted_sum.
Print Assumptions C38_errors.
Print Assumptions C38_exclusive.
Print Assumptions C38_pulse_local.
Print Assumptions C38_extended_norm.
Print Assumptions C38_extended_norm_refuted.
Print Assumptions C38_charge_norm.
Print Assumptions C39_excluded_ignored.
Print Assumptions C39_excluded_zero.
Print Assumptions C39_leaks.
Print Assumptions C39_normalized_refuted.
Print Assumptions C39_charge_norm_refuted.
Print Assumptions C40_scalar_sum.
Print Assumptions C40_unsorted_concat.
Print Assumptions C40_sorted_sum.
Print Assumptions C40_order.
Print Assumptions C40_order_sorted.
Print Assumptions C40_empty.
Print Assumptions C40_error.
Print Assumptions C41_fourier_raises.
Print Assumptions C42_inside.
Print Assumptions C42_outside.
Print Assumptions C42_increasing.
Print Assumptions C42_symmetric.
Print Assumptions C42_continuous.
Print Assumptions C42_total.
Print Assumptions C42_unknown.
Print Assumptions C74_sorted_raises.
Print Assumptions C75_events.
Print Assumptions C76_scale.
