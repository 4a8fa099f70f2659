(** From every start a state can be reached in which the pipeline hangs. *)
From Verif Require Import Py M_Pipeline S_Pipeline L_Pipeline.

Section Lemmas.
Variable E : Type.
Variable p : params.
Notation state := (state E).
Notation step := (step E p).
Notation steps := (steps E p).
Notation bs := (p_batch_size p).

Ltac proj := cbn [s_files s_counter s_all s_data s_final s_left s_workers s_iter s_acc s_cons s_out
  set_workers set_files set_count set_data set_iter set_left set_acc set_final set_cons] in *.

(** Same except for the consumer, the final queue, the batch under construction
    and the position of the batching process. *)
Record Same (s s' : state) : Prop := {
  sa_files : s_files E s' = s_files E s;
  sa_counter : s_counter E s' = s_counter E s;
  sa_all : s_all E s' = s_all E s;
  sa_data : s_data E s' = s_data E s;
  sa_workers : s_workers E s' = s_workers E s;
  sa_left : s_left E s' = s_left E s;
  sa_cons : s_cons E s' <> CDone
}.

Lemma same_trans s1 s2 s3 : Same s1 s2 -> Same s2 s3 -> Same s1 s3.
Proof. intros [] []. constructor; congruence. Qed.

(** The consumer can make room in the final queue. *)
Lemma drain n : forall s, length (s_final E s) <= n -> s_left E s = true -> s_cons E s <> CDone ->
  exists s', steps s s' /\ Same s s' /\ s_iter E s' = s_iter E s /\ s_acc E s' = s_acc E s /\
    room (p_batch_capacity p) (s_final E s') = true.
Proof.
  induction n as [|n IH]; intros s Hn HL HC.
  - exists s. split; [constructor|]. split; [constructor; auto|]. split; [reflexivity|]. split; [reflexivity|].
    unfold room. destruct (p_batch_capacity p) as [|c]; [reflexivity|]. cbn [Nat.eqb orb]. apply Nat.ltb_lt. lia.
  - destruct (s_final E s) as [|b q] eqn:EF.
    + exists s. split; [constructor|]. split; [constructor; auto|]. split; [reflexivity|]. split; [reflexivity|].
      rewrite EF. unfold room. destruct (p_batch_capacity p) as [|c]; reflexivity.
    + assert (HG : exists s1, steps s s1 /\ Same s s1 /\ s_iter E s1 = s_iter E s /\ s_acc E s1 = s_acc E s /\ s_final E s1 = b :: q /\ s_cons E s1 = CGet).
      { destruct (s_cons E s) eqn:Ec; [| |congruence].
        - exists (set_cons E s CGet (s_out E s)). split; [apply steps_one, st_cons; rewrite Ec; apply cs_on; left; exact HL|].
          split; [constructor; proj; auto; discriminate|]. proj. auto.
        - exists s. split; [constructor|]. split; [constructor; auto; congruence|]. auto. }
      destruct HG as (s1 & H1 & H2 & H3 & H4 & H5 & H6).
      set (s2 := set_cons E (set_final E s1 q) CCheck (s_out E s1 ++ [b])).
      assert (HS : step s1 s2) by (apply st_cons; rewrite H6; apply cs_get; exact H5).
      assert (HSame : Same s1 s2) by (unfold s2; constructor; proj; auto; discriminate).
      destruct (IH s2) as (s' & I1 & I2 & I3 & I4 & I5).
      * unfold s2. proj. simpl in Hn. lia.
      * unfold s2. proj. destruct H2. congruence.
      * unfold s2. proj. discriminate.
      * exists s'. split; [eapply steps_trans; [econstructor; [exact H1|exact HS]|exact I1]|].
        split; [eapply same_trans; [exact H2|eapply same_trans; [exact HSame|exact I2]]|].
        rewrite I3, I4. unfold s2. proj. auto.
Qed.

(** Emitting everything and waiting for the next file. *)
Lemma emit_all es : forall s, s_iter E s = IEmit es -> s_left E s = true -> s_all E s = false -> s_cons E s <> CDone ->
  exists s', steps s s' /\ Same s s' /\ s_iter E s' = IGet.
Proof.
  induction es as [|e es IH]; intros s Hi HL HA HC.
  - set (s1 := set_iter E s IEnd). assert (H1 : step s s1) by (apply st_iter; rewrite Hi; apply is_emitted).
    set (s2 := set_iter E (set_left E s1 (if end_test E s1 then false else s_left E s1)) ILoop).
    assert (H2 : step s1 s2) by (apply st_iter; unfold s1; proj; apply (is_end E p s1)).
    assert (HL2 : s_left E s2 = true).
    { unfold s2, s1. proj. unfold end_test. proj. rewrite HA. exact HL. }
    set (s3 := set_iter E s2 IGet). assert (H3 : step s2 s3) by (apply st_iter; apply (is_loop_on E p s2 HL2)).
    exists s3. split; [econstructor; [econstructor; [apply steps_one; exact H1|exact H2]|exact H3]|].
    split; [|reflexivity]. constructor; try reflexivity; [|exact HC]. change (s_left E s2 = s_left E s). congruence.
  - destruct (Nat.eqb (S (length (s_acc E s))) bs) eqn:EB.
    + destruct (drain (length (s_final E s)) s (le_n _) HL HC) as (s1 & H1 & H2 & H3 & H4 & H5).
      set (s2 := set_iter E (set_final E (set_acc E s1 []) (s_final E s1 ++ [s_acc E s1 ++ [e]])) (IEmit es)).
      assert (HS : step s1 s2) by (apply st_iter; rewrite H3, Hi; apply is_full; [rewrite H4; exact EB|exact H5]).
      destruct H2 as [F1 F2 F3 F4 F5 F6 F7].
      destruct (IH s2) as (s' & I1 & I2 & I3); unfold s2; proj; try congruence.
      exists s'. split; [eapply steps_trans; [econstructor; [exact H1|exact HS]|exact I1]|]. split; [|exact I3].
      destruct I2 as [G1 G2 G3 G4 G5 G6 G7]. unfold s2 in *. proj. constructor; congruence.
    + set (s2 := set_iter E (set_acc E s (s_acc E s ++ [e])) (IEmit es)).
      assert (HS : step s s2) by (apply st_iter; rewrite Hi; apply is_add; exact EB).
      destruct (IH s2) as (s' & I1 & I2 & I3); unfold s2; proj; auto.
      exists s'. split; [eapply steps_trans; [apply steps_one; exact HS|exact I1]|]. split; [|exact I3].
      destruct I2 as [G1 G2 G3 G4 G5 G6 G7]. unfold s2 in *. proj. constructor; congruence.
Qed.

(** The batching process takes the only item and waits again (or dies). *)
Lemma consume i : forall s, s_data E s = [i] -> waiting E p s -> s_left E s = true -> s_all E s = false -> s_cons E s <> CDone ->
  exists s', steps s s' /\ s_files E s' = s_files E s /\ s_counter E s' = s_counter E s /\ s_all E s' = false /\
    s_workers E s' = s_workers E s /\ s_left E s' = true /\ s_cons E s' <> CDone /\
    ((exists g, s_iter E s' = IDead g) \/ s_data E s' = [] /\ waiting E p s').
Proof.
  assert (HI : forall s g n, s_iter E s = IInner g n -> s_data E s = [] -> s_left E s = true -> s_all E s = false -> s_cons E s <> CDone ->
    exists s', steps s s' /\ Same s s' /\ waiting E p s').
  { intros s g n Hi HD HL HA HC. destruct (wants_more p n (length g)) eqn:EW.
    - exists s. split; [constructor|]. split; [constructor; auto|]. unfold waiting. rewrite Hi. exact EW.
    - set (s1 := set_iter E s (IEmit (concat (repeat g (p_num_repetitions p))))).
      assert (H1 : step s s1).
      { apply st_iter. rewrite Hi. apply is_group; [rewrite EW; reflexivity|]. exists (repeat g (p_num_repetitions p)).
        split; [apply repeat_length|]. split; [|reflexivity]. apply Forall_forall. intros q Hq. apply repeat_spec in Hq. subst. reflexivity. }
      destruct (emit_all (concat (repeat g (p_num_repetitions p))) s1) as (s' & H2 & H3 & H4); unfold s1; proj; auto.
      exists s'. split; [eapply steps_trans; [apply steps_one; exact H1|exact H2]|]. split.
      + destruct H3 as [G1 G2 G3 G4 G5 G6 G7]. unfold s1 in *. proj. constructor; congruence.
      + unfold waiting. rewrite H4. exact I. }
  assert (HG : forall s, s_data E s = [i] -> s_iter E s = IGet -> s_left E s = true -> s_all E s = false -> s_cons E s <> CDone ->
    exists s', steps s s' /\ s_files E s' = s_files E s /\ s_counter E s' = s_counter E s /\ s_all E s' = false /\
    s_workers E s' = s_workers E s /\ s_left E s' = true /\ s_cons E s' <> CDone /\
    ((exists g, s_iter E s' = IDead g) \/ s_data E s' = [] /\ waiting E p s')).
  { intros s HD Hi HL HA HC. destruct i as [es|es].
    - set (s1 := set_iter E (set_data E s []) (IInner es 0)).
      assert (H1 : step s s1) by (apply st_iter; rewrite Hi; apply is_get; exact HD).
      destruct (HI s1 es 0) as (s' & H2 & H3 & H4); unfold s1; proj; auto.
      destruct H3 as [G1 G2 G3 G4 G5 G6 G7]. unfold s1 in *. proj.
      exists s'. split; [eapply steps_trans; [apply steps_one; exact H1|exact H2]|].
      repeat (split; [congruence|]). right. split; [congruence|exact H4].
    - exists (set_iter E (set_data E s []) (IDead es)).
      split; [apply steps_one, st_iter; rewrite Hi; apply is_get_bad; exact HD|]. proj.
      repeat (split; [auto|]). left. eexists. reflexivity. }
  intros s HD HW HL HA HC. unfold waiting in HW. destruct (s_iter E s) as [| | |g n|es| | | |g] eqn:Ei; try (destruct HW; fail).
  - set (s1 := set_iter E s IGet). assert (H1 : step s s1) by (apply st_iter; rewrite Ei; apply is_loop_on; exact HL).
    destruct (HG s1) as (s' & H2 & H3); unfold s1; proj; auto.
    exists s'. split; [eapply steps_trans; [apply steps_one; exact H1|exact H2]|exact H3].
  - apply HG; auto.
  - destruct i as [es|es].
    + set (s1 := set_iter E (set_data E s []) (IInner (g ++ es) (S n))).
      assert (H1 : step s s1) by (apply st_iter; rewrite Ei; apply is_more; [rewrite HW, HL; reflexivity|exact HD]).
      destruct (HI s1 (g ++ es) (S n)) as (s' & H2 & H3 & H4); unfold s1; proj; auto.
      destruct H3 as [G1 G2 G3 G4 G5 G6 G7]. unfold s1 in *. proj.
      exists s'. split; [eapply steps_trans; [apply steps_one; exact H1|exact H2]|].
      repeat (split; [congruence|]). right. split; [congruence|exact H4].
    + exists (set_iter E (set_data E s []) (IDead (g ++ es))).
      split; [apply steps_one, st_iter; rewrite Ei; apply is_more_bad; [rewrite HW, HL; reflexivity|exact HD]|]. proj.
      repeat (split; [auto|]). left. eexists. reflexivity.
Qed.

Record Ready (fs : list (file E)) (s : state) : Prop := {
  re_files : s_files E s = fs;
  re_data : s_data E s = [];
  re_left : s_left E s = true;
  re_cons : s_cons E s <> CDone;
  re_wait : waiting E p s;
  re_workers : exists dones checks, s_workers E s = dones ++ checks /\
     Forall (fun w => w = WDone) dones /\ Forall (fun w => w = WCheck) checks;
  re_all : fs <> [] -> s_all E s = false;
  re_count : s_counter E s + length fs <= p_num_files p
}.

Lemma count_ready fs s dones checks : s_files E s = fs -> s_data E s = [] -> s_left E s = true -> s_cons E s <> CDone ->
  waiting E p s -> s_workers E s = dones ++ WCount :: checks -> Forall (fun w => w = WDone) dones -> Forall (fun w => w = WCheck) checks ->
  s_all E s = false -> S (s_counter E s + length fs) <= p_num_files p ->
  exists s', step s s' /\ Ready fs s'.
Proof.
  intros H1 H2 H3 H4 H5 H6 H7 H8 H9 H10.
  exists (set_workers E (set_count E s (S (s_counter E s)) (s_all E s || Nat.eqb (S (s_counter E s)) (p_num_files p))) (dones ++ WCheck :: checks)).
  split; [eapply st_worker; [exact H6|apply ws_count]|]. constructor; proj; auto.
  - exists dones, (WCheck :: checks). split; [reflexivity|]. split; [exact H7|constructor; auto].
  - intros Hne. rewrite H9. cbn [orb]. apply Nat.eqb_neq. destruct fs; [congruence|]. simpl in H10. lia.
Qed.

Lemma ready_dead fs : forall s, Ready fs s -> exists s', steps s s' /\ Dead E p s'.
Proof.
  induction fs as [|f fs IH]; intros s HR; pose proof HR as [R1 R2 R3 R4 R5 (dones & checks & R6 & R7 & R8) R9 R10].
  - exists s. split; [constructor|]. split; [exact R3|]. split; [exact R4|]. right. split; [exact R2|]. split; [|exact R5].
    right. rewrite R1. split; [constructor|]. rewrite R6. apply Forall_app. split.
    + eapply Forall_impl; [|exact R7]. intros w ->. reflexivity.
    + eapply Forall_impl; [|exact R8]. intros w ->. reflexivity.
  - destruct checks as [|w checks].
    + exists s. split; [constructor|]. split; [exact R3|]. split; [exact R4|]. right. split; [exact R2|]. split; [|exact R5].
      left. rewrite R6, app_nil_r. exact R7.
    + inversion R8 as [|? ? Hw R8']; subst w. specialize (R9 ltac:(discriminate)). cbn [length] in R10.
      set (s1 := set_workers E s (dones ++ WGet :: checks)).
      assert (H1 : step s s1) by (eapply st_worker; [exact R6|apply ws_enter; exact R9]).
      assert (Hs1 : s_files E s1 = f :: fs) by (unfold s1; proj; exact R1).
      assert (Hw1 : s_workers E s1 = dones ++ WGet :: checks) by reflexivity.
      assert (Hskip : forall s2, step s1 s2 -> s2 = set_workers E (set_files E s1 fs) (dones ++ WCount :: checks) ->
        exists s', steps s s' /\ Dead E p s').
      { intros s2 H2 Es2. destruct (count_ready fs s2 dones checks) as (s3 & H3 & HR3); subst s2; unfold s1; proj; auto; [lia|].
        destruct (IH s3 HR3) as (s' & H4 & H5). exists s'. split; [|exact H5].
        eapply steps_trans; [econstructor; [econstructor; [apply steps_one; exact H1|exact H2]|exact H3]|exact H4]. }
      assert (Hdata : forall i, step s1 (set_workers E (set_files E s1 fs) (dones ++ WPut i :: checks)) ->
        exists s', steps s s' /\ Dead E p s').
      { intros i H2. set (s2 := set_workers E (set_files E s1 fs) (dones ++ WPut i :: checks)) in *.
        set (s3 := set_workers E (set_data E s2 (s_data E s2 ++ [i])) (dones ++ WCount :: checks)).
        assert (H3 : step s2 s3).
        { eapply st_worker; [reflexivity|]. apply ws_put. unfold s2, s1. proj. rewrite R2. unfold room. destruct (p_file_capacity p); reflexivity. }
        destruct (consume i s3) as (s4 & H4 & F1 & F2 & F3 & F4 & F5 & F6 & F7); unfold s3, s2, s1; proj; auto.
        { rewrite R2. reflexivity. }
        assert (Hpath : steps s s4).
        { eapply steps_trans; [econstructor; [econstructor; [apply steps_one; exact H1|exact H2]|exact H3]|exact H4]. }
        unfold s3, s2, s1 in F1, F2, F4. proj. destruct F7 as [HD|[HD HW]].
        - exists s4. split; [exact Hpath|]. split; [exact F5|]. split; [exact F6|]. left. exact HD.
        - destruct (count_ready fs s4 dones checks) as (s5 & H5 & HR5); auto; [lia|].
          destruct (IH s5 HR5) as (s' & H6 & H7). exists s'. split; [|exact H7].
          eapply steps_trans; [econstructor; [exact Hpath|exact H5]|exact H6]. }
      destruct f as [| | |es|es].
      * eapply Hskip; [|reflexivity]. eapply st_worker; [exact Hw1|apply ws_missing; exact Hs1].
      * eapply Hskip; [|reflexivity]. eapply st_worker; [exact Hw1|apply ws_nodata; exact Hs1].
      * set (s2 := set_workers E (set_files E s1 fs) (dones ++ WDone :: checks)).
        assert (H2 : step s1 s2) by (eapply st_worker; [exact Hw1|apply ws_raises; exact Hs1]).
        assert (HR2 : Ready fs s2).
        { unfold s2, s1. constructor; proj; auto; [|lia].
          exists (dones ++ [WDone]), checks. rewrite <- app_assoc. split; [reflexivity|]. split; [|exact R8'].
          apply Forall_app. split; [exact R7|constructor; [reflexivity|constructor]]. }
        destruct (IH s2 HR2) as (s' & H4 & H5). exists s'. split; [|exact H5].
        eapply steps_trans; [econstructor; [apply steps_one; exact H1|exact H2]|exact H4].
      * apply (Hdata (Good es)). eapply st_worker; [exact Hw1|apply ws_data; exact Hs1].
      * apply (Hdata (Bad es)). eapply st_worker; [exact Hw1|apply ws_bad; exact Hs1].
Qed.

Lemma init_dead fs w : p_num_files p = length fs -> exists s, steps (init E fs w) s /\ Dead E p s.
Proof.
  intros HN. set (s0 := init E fs w).
  set (s1 := set_iter E (set_left E s0 (if end_test E s0 then false else s_left E s0)) ILoop).
  assert (H1 : step s0 s1) by (apply st_iter; apply (is_start E p s0)).
  destruct (ready_dead fs s1) as (s' & H2 & H3).
  - unfold s1, s0, init, end_test. constructor; proj; auto; try discriminate; [exact I| |lia].
    exists [], (repeat WCheck w). split; [reflexivity|]. split; [constructor|]. apply Forall_forall. intros x Hx. apply repeat_spec in Hx. exact Hx.
  - exists s'. split; [|exact H3]. eapply steps_trans; [apply steps_one; exact H1|exact H2].
Qed.

End Lemmas.
