(** Properties of the noise source: expected charges (C100), time density (C101),
    checks of the excluded windows (C102) and learned scaling (C103). *)
From Coq Require Import Reals Lra Lia Psatz.
From Verif Require Import Py PyFacts RList M_Source S_Basis M_Noise S_Noise L_Noise.
Open Scope R_scope.

Lemma separate_overlap windows xs e c : Open windows -> Ordered xs -> Separate xs -> (e < length windows)%nat ->
  0 <= TotalOverlap (window_of windows e) xs e c <= livetime (window_of windows e).
Proof.
  intros OP O S E. pose proof (open_window windows e OP E) as W.
  rewrite <- (total_overlap windows xs e c OP O E). unfold livetime. apply total_len_range; assumption.
Qed.

Lemma separate_ok windows xs : Open windows -> Ordered xs -> Separate xs -> ValidWindows (length windows) xs ->
  exists f, dom_exclusion windows xs = Ok f /\
    forall e c, (e < length windows)%nat ->
      f e c = TotalOverlap (window_of windows e) xs e c / livetime (window_of windows e).
Proof.
  intros OP O S V. destruct (proj1 (dom_exclusion_spec windows xs OP O V)) as (f & F & E).
  - intros e c E _. pose proof (separate_overlap windows xs e c OP O S E) as T.
    pose proof (open_window windows e OP E) as W. unfold livetime in *. lra.
  - exists f. split; [exact F |]. intros e c L. rewrite (E e c L). apply Rmin_right.
    pose proof (separate_overlap windows xs e c OP O S L) as T.
    pose proof (open_window windows e OP L) as W. apply ratio_range; [exact T | unfold livetime; lra].
Qed.

Lemma scaling_above w0 : 102 / 100 < mean_scaling w0.
Proof.
  unfold mean_scaling. pose proof (elu_lower w0) as L. rewrite (elu_nonneg (elu w0 + 101 / 100)) by lra. lra.
Qed.

Lemma alpha_above w1 : exp (- (499 / 100)) + 1 / 1000000 < noise_alpha w1.
Proof.
  unfold noise_alpha. pose proof (elu_lower w1) as L.
  assert (M : elu (- (499 / 100)) < elu (elu w1 + 101 / 100 - 5)) by (apply elu_mono; lra).
  rewrite (elu_neg (- (499 / 100))) in M by lra. lra.
Qed.

(** ** C100 *)

(** With separate windows the source never fails. *)
Theorem C100_accepted rates w0 w1 windows xs ids : Open windows -> Ordered xs -> Separate xs ->
  ValidWindows (length windows) xs -> ValidIds (length windows) ids ->
  exists r, noise_get_tensors rates w0 w1 windows (Some xs) ids = Ok r /\ length (n_pdf r) = length ids.
Proof.
  intros OP O S V I. destruct (separate_ok windows xs OP O S V) as (f & F & _).
  unfold noise_get_tensors. rewrite F. cbn [bind]. rewrite (gather_ok _ _ ids I). cbn [bind].
  eexists. split; [reflexivity |]. cbn [n_pdf]. apply map_length.
Qed.

(** The expected charge is proportional to the time the DOM is read out. *)
Theorem C100_charge w0 : exists k, 102 / 100 < k /\
  forall rates w1 windows xs ids r e c, Open windows -> Ordered xs -> Separate xs ->
  ValidWindows (length windows) xs ->
  noise_get_tensors rates w0 w1 windows (Some xs) ids = Ok r -> (e < length windows)%nat ->
  let t0 := fst (nth e windows (0, 0)) in let t1 := snd (nth e windows (0, 0)) in
  exists live, LiveTime xs e c t0 t1 live /\ 0 <= live <= t1 - t0 /\
    n_charges r e c = k * rates c * (live + (t1 - t0) / 1000) + 1 / 10000000.
Proof.
  exists (mean_scaling w0). split; [apply scaling_above |].
  intros rates w1 windows xs ids r e c OP O S V H E t0 t1.
  destruct (separate_ok windows xs OP O S V) as (f & F & FE).
  unfold noise_get_tensors in H. rewrite F in H. cbn [bind] in H.
  destruct (gather_pulses _ _ ids) as [p | x] eqn:G; cbn [bind] in H; [| discriminate].
  injection H as <-. cbn [n_charges]. rewrite (FE e c E). pose proof (open_window windows e OP E) as W.
  pose proof (separate_overlap windows xs e c OP O S E) as T.
  exists (t1 - t0 - TotalOverlap (window_of windows e) xs e c).
  unfold window_of in *. unfold livetime in *. fold t0 t1 in W, T. fold t0 t1.
  split; [| split; [lra | field; lra]].
  pose proof (total_overlap windows xs e c OP O E) as TO. cbv zeta in TO. unfold window_of in TO.
  rewrite <- TO. apply live_time; assumption.
Qed.

(** Without the tensor of excluded windows. *)
Theorem C100_no_exclusions w0 : exists k, 102 / 100 < k /\
  forall rates w1 windows ids r e c, noise_get_tensors rates w0 w1 windows None ids = Ok r ->
  n_charges r e c = k * rates c * (snd (nth e windows (0, 0)) - fst (nth e windows (0, 0))) + 1 / 10000000.
Proof.
  exists (mean_scaling w0). split; [apply scaling_above |]. intros rates w1 windows ids r e c H.
  unfold noise_get_tensors in H. cbn [bind] in H.
  destruct (gather_pulses _ _ ids) as [p | x] eqn:G; cbn [bind] in H; [| discriminate].
  injection H as <-. cbn [n_charges]. unfold livetime. ring.
Qed.

(** The variance is that of a negative binomial with a positive over-dispersion,
    the same for all DOMs. *)
Theorem C100_variance rates w0 w1 windows ex ids r : noise_get_tensors rates w0 w1 windows ex ids = Ok r ->
  0 < n_alpha r /\ forall e c, n_var r e c = n_charges r e c + n_alpha r * n_charges r e c ^ 2 /\
    n_unc r e c = sqrt (n_var r e c).
Proof.
  intros H. unfold noise_get_tensors in H.
  destruct (match ex with None => _ | Some xs => _ end) as [f | x]; cbn [bind] in H; [| discriminate].
  destruct (gather_pulses _ _ ids) as [p | x] eqn:G; cbn [bind] in H; [| discriminate].
  injection H as <-. cbn [n_alpha n_var n_charges n_unc]. split; [| intros; split; reflexivity].
  pose proof (alpha_above w1) as A. pose proof (exp_pos (- (499 / 100))). lra.
Qed.

(** ** C101 *)

(** The density of a pulse is the inverse of the time the DOM is read out, plus a
    thousandth of the read-out window. *)
Theorem C101_density rates w0 w1 windows xs ids r j e c : Open windows -> Ordered xs -> Separate xs ->
  ValidWindows (length windows) xs ->
  noise_get_tensors rates w0 w1 windows (Some xs) ids = Ok r -> nth_error ids j = Some (e, c) ->
  let t0 := fst (nth e windows (0, 0)) in let t1 := snd (nth e windows (0, 0)) in
  exists live, LiveTime xs e c t0 t1 live /\
    nth_error (n_pdf r) j = Some (Some (1 / (live + (t1 - t0) / 1000))).
Proof.
  intros OP O S V H J t0 t1.
  destruct (separate_ok windows xs OP O S V) as (f & F & FE).
  unfold noise_get_tensors in H. rewrite F in H. cbn [bind] in H.
  destruct (Forall_dec (fun i : nat * cell => (fst i < length windows)%nat /\ InDetector (snd i))
    (fun i => match Bool.bool_dec (in_range (length windows) (fst i) (snd i)) true with
              | left p => left (proj1 (in_range_true _ _ _) p)
              | right q => right (fun p => q (proj2 (in_range_true _ _ _) p)) end) ids) as [I | I].
  2:{ rewrite (gather_err _ _ ids I) in H. discriminate. }
  rewrite (gather_ok _ _ ids I) in H. cbn [bind] in H. injection H as <-. cbn [n_pdf].
  rewrite nth_error_map, J. cbn [option_map fst snd].
  assert (E : (e < length windows)%nat).
  { exact (proj1 (proj1 (Forall_forall _ _) I (e, c) (nth_error_In _ _ J))). }
  rewrite (FE e c E). pose proof (open_window windows e OP E) as W.
  pose proof (separate_overlap windows xs e c OP O S E) as T.
  exists (t1 - t0 - TotalOverlap (window_of windows e) xs e c).
  unfold window_of in *. unfold livetime in *. fold t0 t1 in W, T. fold t0 t1. split.
  - pose proof (total_overlap windows xs e c OP O E) as TO. cbv zeta in TO. unfold window_of in TO.
    rewrite <- TO. apply live_time; assumption.
  - rewrite (proj2 (Reqb_false (t1 - t0) 0)) by lra. do 2 f_equal.
    set (u := TotalOverlap _ _ _ _) in *. clearbody u. clearbody t0 t1. clear - W T.
    assert (A : 1 - u / (t1 - t0) + 1 / 1000 = (t1 - t0 - u + (t1 - t0) / 1000) / (t1 - t0)) by (field; lra).
    rewrite A. field. lra.
Qed.

(** Over the time the DOM is read out it integrates to less than one: the
    thousandth of the window is missing. *)
Theorem C101_mass rates w0 w1 windows xs ids r j e c f : Open windows -> Ordered xs -> Separate xs ->
  ValidWindows (length windows) xs ->
  noise_get_tensors rates w0 w1 windows (Some xs) ids = Ok r -> nth_error ids j = Some (e, c) ->
  ReadOut xs e c f ->
  let t0 := fst (nth e windows (0, 0)) in let t1 := snd (nth e windows (0, 0)) in
  exists p live, nth_error (n_pdf r) j = Some (Some p) /\ LiveTime xs e c t0 t1 live /\
    Integrates (fun t => p * f t) t0 t1 (live / (live + (t1 - t0) / 1000)) /\
    live / (live + (t1 - t0) / 1000) < 1.
Proof.
  intros OP O S V H J RO t0 t1.
  destruct (C101_density rates w0 w1 windows xs ids r j e c OP O S V H J) as (live & L & P). fold t0 t1 in L, P.
  exists (1 / (live + (t1 - t0) / 1000)), live. split; [exact P |]. split; [exact L |].
  assert (E : (e < length windows)%nat).
  { destruct (Nat.lt_ge_cases e (length windows)) as [|G]; [assumption | exfalso].
    unfold noise_get_tensors in H. destruct (separate_ok windows xs OP O S V) as (g & F & FE).
    rewrite F in H. cbn [bind] in H. rewrite gather_err in H; [discriminate |].
    intros I. pose proof (proj1 (proj1 (Forall_forall _ _) I (e, c) (nth_error_In _ _ J))) as B. cbn in B. lia. }
  pose proof (open_window windows e OP E) as W. unfold window_of in W. fold t0 t1 in W.
  assert (R0 : 0 <= live).
  { destruct (C100_charge w0) as (k & _ & K).
    destruct (K rates w1 windows xs ids r e c OP O S V H E) as (l' & L' & R' & _). fold t0 t1 in L', R'.
    rewrite (live_time_unique xs e c t0 t1 live l' L L'). lra. }
  destruct L as (g & G & I).
  split.
  - replace (live / (live + (t1 - t0) / 1000)) with (1 / (live + (t1 - t0) / 1000) * live) by (field; lra).
    apply integrates_scale.
    assert (EX : forall t, g t = f t).
    { intros t. destruct (Classical_Prop.classic (Excluded xs e c t)) as [X | X];
        [rewrite (proj1 (G t) X), (proj1 (RO t) X) | rewrite (proj2 (G t) X), (proj2 (RO t) X)]; reflexivity. }
    rewrite <- (FunctionalExtensionality.functional_extensionality _ _ EX). exact I.
  - apply (Rmult_lt_reg_r (live + (t1 - t0) / 1000)); [lra |].
    unfold Rdiv at 1. rewrite Rmult_assoc, Rinv_l by lra. lra.
Qed.

(** Without the tensor of excluded windows it integrates to one over the read-out
    window. *)
Theorem C101_no_exclusions rates w0 w1 windows ids r j e c : Open windows ->
  noise_get_tensors rates w0 w1 windows None ids = Ok r -> nth_error ids j = Some (e, c) ->
  let t0 := fst (nth e windows (0, 0)) in let t1 := snd (nth e windows (0, 0)) in
  exists p, nth_error (n_pdf r) j = Some (Some p) /\ Integrates (fun _ => p) t0 t1 1.
Proof.
  intros OP H J t0 t1. unfold noise_get_tensors in H. cbn [bind] in H.
  destruct (Forall_dec (fun i : nat * cell => (fst i < length windows)%nat /\ InDetector (snd i))
    (fun i => match Bool.bool_dec (in_range (length windows) (fst i) (snd i)) true with
              | left p => left (proj1 (in_range_true _ _ _) p)
              | right q => right (fun p => q (proj2 (in_range_true _ _ _) p)) end) ids) as [I | I].
  2:{ rewrite (gather_err _ _ ids I) in H. discriminate. }
  rewrite (gather_ok _ _ ids I) in H. cbn [bind] in H. injection H as <-. cbn [n_pdf].
  rewrite nth_error_map, J. cbn [option_map fst snd].
  assert (E : (e < length windows)%nat).
  { exact (proj1 (proj1 (Forall_forall _ _) I (e, c) (nth_error_In _ _ J))). }
  pose proof (open_window windows e OP E) as W. unfold window_of in W. fold t0 t1 in W.
  unfold livetime. fold t0 t1. rewrite (proj2 (Reqb_false (t1 - t0) 0)) by lra. eexists. split; [reflexivity |].
  pose proof (RiemannInt_P14 t0 t1 (1 / (t1 - t0))) as pr.
  exists pr. transitivity (1 / (t1 - t0) * (t1 - t0)); [apply RiemannInt_P15 | field; lra].
Qed.

(** An event whose pulses all have the same time has no finite density. *)
Theorem C101_single rates w0 w1 windows ids r j e c : 
  noise_get_tensors rates w0 w1 windows None ids = Ok r -> nth_error ids j = Some (e, c) ->
  fst (nth e windows (0, 0)) = snd (nth e windows (0, 0)) ->
  nth_error (n_pdf r) j = Some None /\ n_charges r e c = 1 / 10000000.
Proof.
  intros H J Z. unfold noise_get_tensors in H. cbn [bind] in H.
  destruct (gather_pulses _ _ ids) as [p | x] eqn:G; cbn [bind] in H; [| discriminate].
  injection H as <-. cbn [n_pdf n_charges]. unfold livetime in *.
  assert (L : snd (nth e windows (0, 0)) - fst (nth e windows (0, 0)) = 0) by lra. split.
  - revert p j J G. induction ids as [| (e', c') ids IH]; intros p j J G; [destruct j; discriminate |].
    cbn [gather_pulses] in G. destruct (in_range _ e' c'); [| discriminate].
    destruct (gather_pulses _ _ ids) as [q | x] eqn:G'; cbn [bind] in G; [| discriminate]. injection G as <-.
    destruct j as [| j]; cbn [nth_error] in *; [| apply (IH q j J eq_refl)].
    injection J as -> ->. rewrite L. rewrite (proj2 (Reqb_true 0 0)) by reflexivity. reflexivity.
  - rewrite L. ring.
Qed.

(** The constants of the densities, one per event, with or without excluded
    windows *)
Theorem C101_constant rates w0 w1 windows exclusions ids r :
  noise_get_tensors rates w0 w1 windows exclusions ids = Ok r ->
  length (n_constant r) = length windows /\
  forall e w, nth_error windows e = Some w ->
    nth_error (n_constant r) e = Some (if Req_EM_T (snd w) (fst w) then None else Some (1 / (snd w - fst w))).
Proof.
  intros H. unfold noise_get_tensors in H.
  destruct (match exclusions with None => Ok None | Some _ => _ end) as [x | x]; cbn [bind] in H; [| discriminate].
  destruct (gather_pulses _ _ ids) as [p | p]; cbn [bind] in H; [| discriminate].
  injection H as <-. cbn [n_constant]. split; [rewrite map_length, seq_length; reflexivity |].
  intros e w E. rewrite nth_error_map. 
  assert (L : (e < length windows)%nat) by (apply nth_error_Some; congruence).
  rewrite (nth_error_nth' (seq 0 (length windows)) 0%nat) by (rewrite seq_length; exact L).
  rewrite seq_nth by exact L. cbn [option_map Nat.add]. rewrite (nth_error_nth windows e (0, 0) E). unfold livetime.
  destruct (Req_EM_T (snd w) (fst w)) as [Z | Z].
  - rewrite (proj2 (Reqb_true _ _)) by lra. reflexivity.
  - rewrite (proj2 (Reqb_false _ _)) by lra. reflexivity.
Qed.

(** ** C102 *)

(** For windows that are not reversed: they are rejected if and only if the sum
    of their lengths inside the read-out window, counting what is covered twice
    twice, reaches 1.0001 times the read-out window for some DOM. *)
Theorem C102_checks rates w0 w1 windows xs ids : Open windows -> Ordered xs ->
  ValidWindows (length windows) xs -> ValidIds (length windows) ids ->
  (noise_get_tensors rates w0 w1 windows (Some xs) ids = Err AssertionError <->
   exists e c, (e < length windows)%nat /\ InDetector c /\
     let w := nth e windows (0, 0) in 10001 / 10000 * (snd w - fst w) <= TotalOverlap w xs e c) /\
  (noise_get_tensors rates w0 w1 windows (Some xs) ids <> Err AssertionError ->
   exists r, noise_get_tensors rates w0 w1 windows (Some xs) ids = Ok r).
Proof.
  intros OP O V I. pose proof (dom_exclusion_spec windows xs OP O V) as (A & B).
  unfold noise_get_tensors. destruct (Classical_Prop.classic (exists e c, (e < length windows)%nat /\ InDetector c /\
     10001 / 10000 * livetime (window_of windows e) <= TotalOverlap (window_of windows e) xs e c)) as [H | H].
  - rewrite (B H). cbn [bind]. split; [| intros N; exfalso; apply N; reflexivity].
    split; [intros _; exact H | reflexivity].
  - destruct A as (f & F & _).
    { intros e c E C. apply Rnot_le_lt. intros L. apply H. exists e, c. auto. }
    rewrite F. cbn [bind]. rewrite (gather_ok _ _ ids I). cbn [bind]. split; [| intros _; eexists; reflexivity].
    split; [discriminate | intros X; exfalso; apply H; exact X].
Qed.

(** A reversed window is rejected if it is longer than a ten-thousandth of the
    read-out window; one such window of one event fails the whole batch. *)
Lemma bad_window windows x : (forall l, tw_fractions windows (x :: l) = Err AssertionError) ->
  forall rates w0 w1 before after ids,
  exists err, noise_get_tensors rates w0 w1 windows (Some (before ++ x :: after)) ids = Err err.
Proof.
  intros B rates w0 w1 before after ids.
  assert (T : exists err, tw_fractions windows (before ++ x :: after) = Err err).
  { induction before as [| y before (err & IH)]; [exists AssertionError; apply B |].
    cbn [app tw_fractions]. destruct (nth_error windows (x_event y)); [| eexists; reflexivity].
    destruct (tw_fraction _ y) as [v |]; [| eexists; reflexivity].
    destruct (checked v); [| eexists; reflexivity]. rewrite IH. eexists. reflexivity. }
  destruct T as (err & T). exists err. unfold noise_get_tensors, dom_exclusion. rewrite T. reflexivity.
Qed.

Theorem C102_reversed rates w0 w1 windows before x after ids : (x_event x < length windows)%nat ->
  let w := nth (x_event x) windows (0, 0) in fst w < snd w ->
  fst w <= x_stop x -> x_start x <= snd w -> (snd w - fst w) / 10000 <= x_start x - x_stop x ->
  exists err, noise_get_tensors rates w0 w1 windows (Some (before ++ x :: after)) ids = Err err.
Proof.
  intros E w W A B C. apply bad_window. intros l. cbn [tw_fractions]. rewrite (window_nth windows _ E).
  unfold tw_fraction, window_of. unfold livetime. fold w.
  rewrite (proj2 (Reqb_false _ 0)) by lra.
  assert (D : 0 < (snd w - fst w) / 10000) by lra. rewrite !clip_id by lra.
  replace (checked _) with false; [reflexivity |]. symmetry.
  apply not_true_is_false. intros H. apply checked_true in H. destruct H as (H & _).
  apply (Rmult_lt_compat_r (snd w - fst w)) in H; [| lra].
  unfold Rdiv in H at 2. rewrite Rmult_assoc, Rinv_l in H by lra. lra.
Qed.

(** The same holds for any excluded window of an event whose pulses all have the
    same time. *)
Theorem C102_no_time rates w0 w1 windows before x after ids : (x_event x < length windows)%nat ->
  fst (nth (x_event x) windows (0, 0)) = snd (nth (x_event x) windows (0, 0)) ->
  exists err, noise_get_tensors rates w0 w1 windows (Some (before ++ x :: after)) ids = Err err.
Proof.
  intros E Z. apply bad_window. intros l. cbn [tw_fractions]. rewrite (window_nth windows _ E).
  unfold tw_fraction, window_of, livetime. rewrite (proj2 (Reqb_true _ 0)) by lra. reflexivity.
Qed.

(** ** Concrete windows *)

Definition x1 : exclusion := {| x_event := 0; x_cell := (2, 3)%nat; x_start := 100; x_stop := 700 |}.
Definition x2 : exclusion := {| x_event := 0; x_cell := (2, 3)%nat; x_start := 700; x_stop := 900 |}.
Definition x3 : exclusion := {| x_event := 0; x_cell := (2, 3)%nat; x_start := 200; x_stop := 700 |}.
Definition x4 : exclusion := {| x_event := 0; x_cell := (2, 3)%nat; x_start := 600; x_stop := 700 |}.
Definition window1 : list (R * R) := [(0, 1000)].
Definition ids1 : list (nat * cell) := [(0, (2, 3)); (0, (0, 0))]%nat.

Ltac list_forall := repeat (apply Forall_cons; [cbn; unfold InDetector; cbn; try lra; try (split; [| split]; lia) |]); try apply Forall_nil.

Example open1 : Open window1. Proof. unfold Open, window1. list_forall. Qed.
Example ids1_valid : ValidIds (length window1) ids1.
Proof. unfold ValidIds, ids1. list_forall. Qed.
Example x12_ordered : Ordered [x1; x2] /\ Separate [x1; x2] /\ ValidWindows (length window1) [x1; x2].
Proof.
  split; [unfold Ordered; list_forall |]. split; [| unfold ValidWindows; list_forall].
  constructor; [| constructor; [constructor | constructor]]. constructor; [| constructor].
  intros _ _. left. cbn. lra.
Qed.

(** The hypotheses of the theorems hold: the source is evaluated. *)
Example noise1 rates w0 w1 : exists r, noise_get_tensors rates w0 w1 window1 (Some [x1; x2]) ids1 = Ok r /\
  exists p, nth_error (n_pdf r) 0 = Some (Some p) /\ nth_error ids1 0 = Some (0, (2, 3))%nat.
Proof.
  destruct x12_ordered as (O & S & V).
  destruct (C100_accepted rates w0 w1 window1 [x1; x2] ids1 open1 O S V ids1_valid) as (r & H & _).
  exists r. split; [exact H |].
  destruct (C101_density rates w0 w1 window1 [x1; x2] ids1 r 0 0 (2, 3)%nat open1 O S V H eq_refl) as (l & _ & P).
  eexists. split; [exact P | reflexivity].
Qed.
(** A function as required by C101_mass exists. *)
Example readout1 : exists f, ReadOut [x1; x2] 0 (2, 3)%nat f.
Proof.
  destruct x12_ordered as (O & S & _).
  destruct (live_time 0 1000 [x1; x2] 0 (2, 3)%nat ltac:(lra) O S) as (f & F & _). exists f. exact F.
Qed.
Example reversed1 : let x := {| x_event := 0; x_cell := (2, 3)%nat; x_start := 700; x_stop := 100 |} in
  let w := nth (x_event x) window1 (0, 0) in
  fst w < snd w /\ fst w <= x_stop x /\ x_start x <= snd w /\ (snd w - fst w) / 10000 <= x_start x - x_stop x.
Proof. cbn. lra. Qed.

Lemma overlap1 x : 0 <= x_start x <= x_stop x -> x_stop x <= 1000 -> Overlap (0, 1000) x = x_stop x - x_start x.
Proof.
  intros A B. unfold Overlap. cbn [fst snd]. rewrite Rmin_left, (Rmax_left (x_start x)) by lra.
  apply Rmax_right. lra.
Qed.

(** A pulse in an excluded window has the same density as one outside. *)
Theorem C101_excluded_refuted rates w0 w1 : exists windows xs t,
  Open windows /\ Ordered xs /\ Separate xs /\ Excluded xs 0 (2, 3)%nat t /\
  fst (nth 0 windows (0, 0)) <= t <= snd (nth 0 windows (0, 0)) /\
  exists r p, noise_get_tensors rates w0 w1 windows (Some xs) [(0, (2, 3))]%nat = Ok r /\
    n_pdf r = [Some p] /\ 0 < p.
Proof.
  destruct x12_ordered as (O & S & V). exists window1, [x1; x2], 200.
  split; [exact open1 |]. split; [exact O |]. split; [exact S |].
  split. { exists x1. split; [left; reflexivity |]. cbn. repeat split; lra. }
  split; [cbn; lra |].
  assert (I : ValidIds (length window1) [(0, (2, 3))]%nat) by (unfold ValidIds; list_forall).
  destruct (C100_accepted rates w0 w1 window1 [x1; x2] _ open1 O S V I) as (r & H & L).
  destruct (C101_density rates w0 w1 window1 [x1; x2] _ r 0 0 (2, 3)%nat open1 O S V H eq_refl) as (l & LT & P).
  exists r, (1 / (l + (1000 - 0) / 1000)). split; [exact H |]. cbn [window1 nth fst snd] in P.
  split.
  - destruct (n_pdf r) as [| a [| b q]]; cbn in *; try discriminate. injection P as ->. reflexivity.
  - destruct (C100_charge w0) as (k & _ & K).
    destruct (K rates w1 window1 [x1; x2] _ r 0%nat (2, 3)%nat open1 O S V H ltac:(cbn; lia)) as (l' & L' & R' & _).
    cbn [window1 nth fst snd] in *. rewrite (live_time_unique _ _ _ _ _ _ _ LT L').
    apply Rdiv_lt_0_compat; lra.
Qed.

(** Windows that overlap each other are rejected although they leave 400 ns of
    1000 ns to read out. *)
Theorem C102_overlap_refuted rates w0 w1 ids : exists windows xs,
  Open windows /\ Ordered xs /\ ValidWindows (length windows) xs /\
  LiveTime xs 0 (2, 3)%nat (fst (nth 0 windows (0, 0))) (snd (nth 0 windows (0, 0))) 400 /\
  noise_get_tensors rates w0 w1 windows (Some xs) ids = Err AssertionError.
Proof.
  exists window1, [x1; x3]. split; [exact open1 |].
  assert (O : Ordered [x1; x3]) by (unfold Ordered; list_forall).
  assert (V : ValidWindows (length window1) [x1; x3]) by (unfold ValidWindows; list_forall).
  split; [exact O |]. split; [exact V |]. split.
  - cbn [window1 nth fst snd].
    assert (S1 : Separate [x1]) by (constructor; constructor).
    assert (O1 : Ordered [x1]) by (unfold Ordered; list_forall).
    destruct (live_time 0 1000 [x1] 0 (2, 3)%nat ltac:(lra) O1 S1) as (f & F & I).
    exists f. split.
    + intros t. destruct (F t) as (F1 & F0). split; intros H.
      * apply F1. destruct H as (x & [<- | [<- | []]] & A & B & C);
          exists x1; (split; [left; reflexivity |]); (split; [reflexivity |]); (split; [reflexivity |]); cbn in *; lra.
      * apply F0. intros (x & [<- | []] & X). apply H. exists x1. split; [left; reflexivity | exact X].
    + replace 400 with (1000 - 0 - total_len 0 1000 [x1] 0 (2, 3)%nat); [exact I |].
      unfold total_len. cbn [filter]. rewrite (proj2 (at_true 0 (2, 3)%nat x1)) by (split; reflexivity).
      cbn [map Rsum fold_right]. rewrite clen_overlap by (cbn; lra). rewrite overlap1 by (cbn; lra). cbn. lra.
  - unfold noise_get_tensors.
    rewrite (proj2 (dom_exclusion_spec window1 [x1; x3] open1 O V)); [reflexivity |].
    exists 0%nat, (2, 3)%nat. split; [cbn; lia |]. split; [split; cbn; lia |].
    unfold TotalOverlap. cbn [filter]. rewrite !(proj2 (at_true 0 (2, 3)%nat _)) by (split; reflexivity).
    cbn [map Rsum fold_right window1 window_of nth]. rewrite !overlap1 by (cbn; lra).
    unfold livetime. cbn. lra.
Qed.

(** If they are accepted, what they cover twice counts twice: with a DOM that is
    read out for 400 ns of 1000 ns the expected charge is that of 300 ns. *)
Theorem C102_double_refuted : exists windows xs, Open windows /\ Ordered xs /\
  LiveTime xs 0 (2, 3)%nat (fst (nth 0 windows (0, 0))) (snd (nth 0 windows (0, 0))) 400 /\
  forall w0, exists k, 102 / 100 < k /\ forall rates w1,
  exists r, noise_get_tensors rates w0 w1 windows (Some xs) [] = Ok r /\
    n_charges r 0 (2, 3)%nat = k * rates (2, 3)%nat * (300 + 1) + 1 / 10000000.
Proof.
  exists window1, [x1; x4]. split; [exact open1 |].
  assert (O : Ordered [x1; x4]) by (unfold Ordered; list_forall).
  assert (V : ValidWindows (length window1) [x1; x4]) by (unfold ValidWindows; list_forall).
  split; [exact O |]. split.
  - cbn [window1 nth fst snd].
    assert (S1 : Separate [x1]) by (constructor; constructor).
    assert (O1 : Ordered [x1]) by (unfold Ordered; list_forall).
    destruct (live_time 0 1000 [x1] 0 (2, 3)%nat ltac:(lra) O1 S1) as (f & F & I).
    exists f. split.
    + intros t. destruct (F t) as (F1 & F0). split; intros H.
      * apply F1. destruct H as (x & [<- | [<- | []]] & A & B & C);
          exists x1; (split; [left; reflexivity |]); (split; [reflexivity |]); (split; [reflexivity |]); cbn in *; lra.
      * apply F0. intros (x & [<- | []] & X). apply H. exists x1. split; [left; reflexivity | exact X].
    + replace 400 with (1000 - 0 - total_len 0 1000 [x1] 0 (2, 3)%nat); [exact I |].
      unfold total_len. cbn [filter]. rewrite (proj2 (at_true 0 (2, 3)%nat x1)) by (split; reflexivity).
      cbn [map Rsum fold_right]. rewrite clen_overlap by (cbn; lra). rewrite overlap1 by (cbn; lra). cbn. lra.
  - intros w0. exists (mean_scaling w0). split; [apply scaling_above |]. intros rates w1.
    assert (T : forall e c, (e < length window1)%nat -> 0 <= TotalOverlap (window_of window1 e) [x1; x4] e c <= 700).
    { intros e c E. cbn [window1 length] in E. assert (e = 0%nat) as -> by lia.
      unfold TotalOverlap. cbn [filter]. destruct (At 0 c x1), (At 0 c x4);
        cbn [map Rsum fold_right window1 window_of nth]; rewrite ?overlap1 by (cbn; lra); cbn; lra. }
    destruct (proj1 (dom_exclusion_spec window1 [x1; x4] open1 O V)) as (f & F & FE).
    { intros e c E _. specialize (T e c E). cbn [window1 length] in E. assert (e = 0%nat) as -> by lia.
      unfold livetime. cbn [window1 window_of nth fst snd] in *. lra. }
    unfold noise_get_tensors. rewrite F. cbn [bind gather_pulses]. eexists. split; [reflexivity |].
    cbn [n_charges]. rewrite (FE 0%nat (2, 3)%nat) by (cbn; lia).
    replace (TotalOverlap (window_of window1 0) [x1; x4] 0 (2, 3)%nat) with 700.
    + unfold livetime. cbn [window1 window_of nth fst snd]. rewrite Rmin_right by lra. field.
    + unfold TotalOverlap. cbn [filter]. rewrite !(proj2 (at_true 0 (2, 3)%nat _)) by (split; reflexivity).
      cbn [map Rsum fold_right window1 window_of nth]. rewrite !overlap1 by (cbn; lra). cbn. lra.
Qed.

(** ** C103 *)

(** The learned factor of the nominal noise rate is always above 1.02, and takes
    all these values. *)
Theorem C103_range rates windows w1 ids r w0 : noise_get_tensors rates w0 w1 windows None ids = Ok r ->
  forall e c, 0 < rates c -> fst (nth e windows (0, 0)) < snd (nth e windows (0, 0)) ->
  102 / 100 * rates c * (snd (nth e windows (0, 0)) - fst (nth e windows (0, 0))) < n_charges r e c.
Proof.
  intros H e c RP W. destruct (C100_no_exclusions w0) as (k & K & F). rewrite (F _ _ _ _ _ e c H).
  set (l := snd (nth e windows (0, 0)) - fst (nth e windows (0, 0))). assert (LP : 0 < l) by (unfold l; lra).
  pose proof (Rmult_lt_0_compat _ _ RP LP) as P.
  pose proof (Rmult_lt_compat_r (rates c * l) _ _ P K). lra.
Qed.

Theorem C103_onto k : 102 / 100 < k -> exists w0, forall rates w1 windows ids r e c,
  noise_get_tensors rates w0 w1 windows None ids = Ok r ->
  n_charges r e c = k * rates c * (snd (nth e windows (0, 0)) - fst (nth e windows (0, 0))) + 1 / 10000000.
Proof.
  intros K. destruct (elu_onto (k - 202 / 100)) as (w0 & E); [lra |]. exists w0.
  intros rates w1 windows ids r e c H. unfold noise_get_tensors in H. cbn [bind] in H.
  destruct (gather_pulses _ _ ids) as [p | x] eqn:G; cbn [bind] in H; [| discriminate].
  injection H as <-. cbn [n_charges]. unfold livetime, mean_scaling. rewrite E.
  rewrite elu_nonneg by lra. field.
Qed.

(** Weights around zero, as at the start of a training, double the rate. *)
Theorem C103_start rates w1 windows ids r e c : noise_get_tensors rates 0 w1 windows None ids = Ok r ->
  n_charges r e c = 202 / 100 * rates c * (snd (nth e windows (0, 0)) - fst (nth e windows (0, 0))) + 1 / 10000000.
Proof.
  intros H. unfold noise_get_tensors in H. cbn [bind] in H.
  destruct (gather_pulses _ _ ids) as [p | x] eqn:G; cbn [bind] in H; [| discriminate].
  injection H as <-. cbn [n_charges]. unfold livetime, mean_scaling.
  rewrite (elu_nonneg 0) by lra. rewrite elu_nonneg by lra. field.
Qed.

(** No weight gives the nominal rate. *)
Theorem C103_nominal_refuted : exists rates windows e c, 0 < rates c /\
  forall w0 w1 r, noise_get_tensors rates w0 w1 windows None [] = Ok r ->
  n_charges r e c <> rates c * (snd (nth e windows (0, 0)) - fst (nth e windows (0, 0))) + 1 / 10000000.
Proof.
  exists (fun _ => 5 / 10000000), window1, 0%nat, (2, 3)%nat. split; [lra |]. intros w0 w1 r H.
  destruct (C100_no_exclusions w0) as (k & K & F). rewrite (F _ _ _ _ _ 0%nat (2, 3)%nat H).
  cbn [window1 nth fst snd]. lra.
Qed.

(** The over-dispersion has a smallest value, so that Poisson fluctuations are
    never approached. *)
Theorem C103_dispersion rates w0 w1 windows ex ids r e c :
  noise_get_tensors rates w0 w1 windows ex ids = Ok r -> n_charges r e c <> 0 ->
  exp (- (499 / 100)) + 1 / 1000000 < n_alpha r /\
  n_charges r e c + exp (- (499 / 100)) * n_charges r e c ^ 2 < n_var r e c.
Proof.
  intros H N. assert (A : n_alpha r = noise_alpha w1).
  { unfold noise_get_tensors in H.
    destruct (match ex with None => _ | Some xs => _ end) as [f | x]; cbn [bind] in H; [| discriminate].
    destruct (gather_pulses _ _ ids) as [p | x] eqn:G; cbn [bind] in H; [| discriminate].
    injection H as <-. reflexivity. }
  pose proof (alpha_above w1) as B. rewrite A. split; [exact B |].
  destruct (C100_variance _ _ _ _ _ _ _ H) as (_ & V). destruct (V e c) as (-> & _). rewrite A.
  assert (P : 0 < n_charges r e c ^ 2) by (rewrite <- Rsqr_pow2; apply Rsqr_pos_lt; exact N).
  pose proof (Rmult_lt_compat_r _ _ _ P B). lra.
Qed.
Print Assumptions C100_accepted.
Print Assumptions C100_charge.
Print Assumptions C100_no_exclusions.
Print Assumptions C100_variance.
Print Assumptions C101_density.
Print Assumptions C101_mass.
Print Assumptions C101_no_exclusions.
Print Assumptions C101_single.
Print Assumptions C102_checks.
Print Assumptions C102_reversed.
Print Assumptions C102_no_time.
Print Assumptions C101_excluded_refuted.
Print Assumptions C102_overlap_refuted.
Print Assumptions C102_double_refuted.
Print Assumptions C103_range.
Print Assumptions C103_onto.
Print Assumptions C103_start.
Print Assumptions C103_nominal_refuted.
Print Assumptions C103_dispersion.
Print Assumptions C101_constant.
