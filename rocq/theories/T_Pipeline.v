(** Property theorems C18-C21, C63: the multi-process data pipeline. *)
From Verif Require Import Py M_Pipeline S_Pipeline L_Pipeline L_Hang.

Section Theorems.
Variable E : Type.
Variable p : params.
Notation steps := (steps E p).

Ltac proj := cbn [s_files s_counter s_all s_data s_final s_left s_workers s_iter s_acc s_cons s_out
  set_workers set_files set_count set_data set_iter set_left set_acc set_final set_cons] in *.

(** ** C18 *)

(** Whatever the schedule: events of any kind are delivered at most as often
    as they occur in the files, times the number of repetitions. *)
Theorem C18_no_invention : forall fs w s P, steps (init E fs w) s ->
  count E P (concat (s_out E s)) <= p_num_repetitions p * count E P (all_events E fs).
Proof. intros fs w s P H. rewrite <- (mass_steps E p P fs w s H). unfold mass. lia. Qed.

(** The same as a statement on multiplicities. *)
Theorem C18_multiplicity : forall (dec : forall x y : E, {x = y} + {x <> y}) fs w s e, steps (init E fs w) s ->
  count_occ dec (concat (s_out E s)) e <= p_num_repetitions p * count_occ dec (all_events E fs) e.
Proof.
  intros dec fs w s e H.
  assert (HC : forall l, count_occ dec l e = count E (fun x => if dec x e then true else false) l).
  { unfold count. induction l as [|x l IH]; [reflexivity|]. cbn [count_occ filter]. destruct (dec x e); simpl; rewrite IH; reflexivity. }
  rewrite !HC. apply C18_no_invention with (w := w). exact H.
Qed.

(** Batches are never empty, never too large, and all but the last are full;
    a smaller one only appears once the batching process has finished. *)
Theorem C18_batches : forall fs w s, steps (init E fs w) s ->
  BatchesOk E (p_batch_size p) (s_out E s) /\
  (s_iter E s <> IDone -> Forall (fun b => length b = p_batch_size p) (s_out E s)).
Proof.
  intros fs w s H. pose proof (shape_steps E p fs w s H) as [S1 S2 _ _ _ _].
  assert (HD : s_iter E s = IDone \/ s_iter E s <> IDone) by (destruct (s_iter E s); (left; reflexivity) || (right; discriminate)).
  destruct HD as [HD|HD].
  - split; [|congruence]. destruct (S2 HD) as [_ (full & last & HE & HF & HL)].
    assert (HA : BatchesOk E (p_batch_size p) (full ++ last)).
    { split.
      - apply Forall_app. split.
        + eapply Forall_impl; [|exact HF]. intros b [Hb1 Hb2]. split; [exact Hb2|lia].
        + destruct HL as [->|(b & -> & Hb & Hb2)]; [constructor|]. constructor; [|constructor]. split; [exact Hb|lia].
      - intros k b Hk Hl. assert (Hf : k < length full).
        { rewrite app_length in Hl. destruct HL as [->|(b' & -> & _)]; simpl in Hl; [|lia].
          rewrite app_nil_r in Hk. apply nth_error_Some. congruence. }
        rewrite nth_error_app1 in Hk by exact Hf. rewrite Forall_forall in HF. apply nth_error_In in Hk. apply (HF b Hk). }
    rewrite <- HE in HA. destruct HA as [HA1 HA2]. apply Forall_app in HA1. split; [apply HA1|].
    intros k b Hk Hl. apply (HA2 k b); [rewrite nth_error_app1 by lia; exact Hk|rewrite app_length; lia].
  - specialize (S1 HD). apply Forall_app in S1. destruct S1 as [S1 _].
    assert (HF : Forall (fun b => length b = p_batch_size p) (s_out E s)) by (eapply Forall_impl; [|exact S1]; intros b [Hb _]; exact Hb).
    split; [|intros _; exact HF]. split.
    + eapply Forall_impl; [|exact S1]. intros b [Hb1 Hb2]. split; [exact Hb2|lia].
    + intros k b Hk _. rewrite Forall_forall in HF. apply HF. eapply nth_error_In. exact Hk.
Qed.

(** ** C19 *)

(** One worker: once the batching process has finished, every event of every
    file has been put into a batch, as often as requested. *)
Theorem C19_one_worker_complete : forall fs s P, p_num_files p = length fs ->
  steps (init E fs 1) s -> s_iter E s = IDone ->
  count E P (concat (s_out E s ++ s_final E s)) = p_num_repetitions p * count E P (all_events E fs).
Proof.
  intros fs s P HN H HD. rewrite <- (mass_steps E p P fs 1 s H).
  pose proof (one_steps E p fs s HN H) as [(w & Hw & HA & _) HL].
  pose proof (shape_steps E p fs 1 s H) as [_ S2 _ _ S5 _]. destruct (S2 HD) as [Hacc _].
  destruct (HL (S5 (or_intror HD))) as [Hall Hdata]. destruct (HA Hall) as [Hf Hw'].
  unfold mass, pending. rewrite HD, Hacc, Hdata, Hf, Hw. rewrite count_concat_app.
  destruct Hw' as [->| ->]; cbn [group emitting map concat held app]; unfold all_events; cbn [map concat]; rewrite ?count_nil; lia.
Qed.

(** Two or more workers: the run can finish while the only file is still being
    loaded; its events are never delivered, whatever happens afterwards. *)
Theorem C19_more_workers_lose : forall es w, p_num_files p = 1 ->
  exists s, steps (init E [FData es] (S (S w))) s /\ s_iter E s = IDone /\ s_cons E s = CDone /\
    forall s', steps s s' -> s_out E s' = [] /\ s_final E s' = [].
Proof.
  intros es w HN.
  set (R := repeat (@WCheck E) w).
  set (s0 := init E [FData es] (S (S w))).
  set (s1 := set_workers E s0 (WGet :: WCheck :: R)).
  set (s2 := set_workers E (set_files E s1 []) (WPut (Good es) :: WCheck :: R)).
  set (s3 := set_workers E s2 (WPut (Good es) :: WGet :: R)).
  set (s4 := set_workers E s3 (WPut (Good es) :: WCount :: R)).
  set (s5 := set_workers E (set_count E s4 1 (s_all E s4 || Nat.eqb 1 (p_num_files p))) (WPut (Good es) :: WCheck :: R)).
  assert (H1 : step E p s0 s1) by (apply (st_worker E p s0 s0 [] WCheck (WCheck :: R) WGet); [reflexivity|apply ws_enter; reflexivity]).
  assert (H2 : step E p s1 s2) by (apply (st_worker E p s1 (set_files E s1 []) [] WGet (WCheck :: R) (WPut (Good es))); [reflexivity|apply ws_data; reflexivity]).
  assert (H3 : step E p s2 s3) by (apply (st_worker E p s2 s2 [WPut (Good es)] WCheck R WGet); [reflexivity|apply ws_enter; reflexivity]).
  assert (H4 : step E p s3 s4) by (apply (st_worker E p s3 s3 [WPut (Good es)] WGet R WCount); [reflexivity|apply ws_none; reflexivity]).
  assert (H5 : step E p s4 s5).
  { apply (st_worker E p s4 (set_count E s4 1 (s_all E s4 || Nat.eqb 1 (p_num_files p))) [WPut (Good es)] WCount R WCheck); [reflexivity|].
    apply (ws_count E p s4). }
  assert (HA : s_all E s5 = true) by (unfold s5; proj; rewrite HN; reflexivity).
  set (s6 := set_iter E (set_left E s5 (if end_test E s5 then false else s_left E s5)) ILoop).
  assert (H6 : step E p s5 s6) by (apply st_iter; apply (is_start E p s5)).
  assert (HL : s_left E s6 = false) by (unfold s6, end_test; rewrite HA; reflexivity).
  set (s7 := set_iter E s6 ILeft).
  assert (H7 : step E p s6 s7) by (apply st_iter; apply (is_loop_off E p s6 HL)).
  set (s8 := set_iter E s7 IDone).
  assert (H8 : step E p s7 s8) by (apply st_iter; apply (is_left_none E p s7); reflexivity).
  set (s9 := set_cons E s8 CDone []).
  assert (H9 : step E p s8 s9) by (apply st_cons; apply (cs_off E s8); [exact HL|reflexivity]).
  exists s9. split.
  { eapply steps_trans; [|apply steps_one; exact H9]. do 8 (econstructor; [|eassumption]). constructor. }
  split; [reflexivity|]. split; [reflexivity|]. intros s' H.
  assert (HI : s_iter E s' = IDone /\ s_cons E s' = CDone /\ s_out E s' = [] /\ s_final E s' = []).
  { apply (steps_inv E p (fun s => s_iter E s = IDone /\ s_cons E s = CDone /\ s_out E s = [] /\ s_final E s = [])) with (s := s9); [|repeat split; reflexivity|exact H].
    intros a b (A1 & A2 & A3 & A4) Hs. destruct Hs as [a a' l x r x' Hx Hs|a a' Hs|a a' Hs].
    - destruct Hs; proj; auto.
    - rewrite A1 in Hs. inversion Hs.
    - rewrite A2 in Hs. inversion Hs. }
  split; apply HI.
Qed.

(** ** C20 *)

(** Without any file no run ever finishes or delivers anything. *)
Theorem C20_no_files_hang : forall w s, p_num_files p = 0 -> steps (init E [] w) s ->
  s_iter E s <> IDone /\ s_cons E s <> CDone /\ s_out E s = [].
Proof.
  intros w s HN H.
  assert (HI : s_all E s = false /\ s_data E s = [] /\ s_final E s = [] /\ s_left E s = true /\ s_files E s = [] /\
    Forall (fun w => holds E w = false) (s_workers E s) /\ (s_iter E s = IStart \/ s_iter E s = ILoop \/ s_iter E s = IGet) /\
    s_cons E s <> CDone /\ s_out E s = []).
  { apply (steps_inv E p (fun s => s_all E s = false /\ s_data E s = [] /\ s_final E s = [] /\ s_left E s = true /\ s_files E s = [] /\
      Forall (fun w => holds E w = false) (s_workers E s) /\ (s_iter E s = IStart \/ s_iter E s = ILoop \/ s_iter E s = IGet) /\
      s_cons E s <> CDone /\ s_out E s = [])) with (s := init E [] w); [| |exact H].
    - intros a b (A1 & A2 & A3 & A4 & A5 & A6 & A7 & A8 & A9) Hs. destruct Hs as [a a' l x r x' Hx Hs|a a' Hs|a a' Hs].
      + rewrite Hx in A6. apply Forall_app in A6. destruct A6 as [A6 A6']. inversion A6' as [|? ? B1 B2]; subst.
        assert (HZ : forall y, holds E y = false -> Forall (fun w => holds E w = false) (l ++ y :: r)).
        { intros y Hy. apply Forall_app. split; [exact A6|]. constructor; assumption. }
        destruct Hs; proj; try (rewrite A5 in *; discriminate); try discriminate;
          rewrite ?A1, ?HN; repeat (split; [reflexivity || assumption || (apply HZ; reflexivity)|]); auto.
      + remember (s_iter E a) as i eqn:Ei.
        destruct Hs; proj; try (destruct A7 as [A7|[A7|A7]]; discriminate); try congruence.
        * unfold end_test. rewrite A1. cbn [andb]. repeat (split; [reflexivity || assumption|]).
          split; [right; left; reflexivity|auto].
        * repeat (split; [assumption|]). split; [right; right; reflexivity|auto].
      + remember (s_cons E a) as c eqn:Ec. destruct Hs; proj; try congruence.
        repeat (split; [assumption|]). split; [discriminate|assumption].
    - unfold init. proj. repeat (split; [reflexivity|]). split; [apply Forall_forall; intros x Hx; apply repeat_spec in Hx; subst; reflexivity|].
      split; [left; reflexivity|]. split; [discriminate|reflexivity]. }
  destruct HI as (_ & _ & _ & _ & _ & _ & HI & HC & HO). split; [|auto]. destruct HI as [->|[->| ->]]; discriminate.
Qed.

(** If the number of files with data is not a multiple of the number of files
    mixed together, one worker and at most one repetition: no run finishes. *)
Theorem C20_incomplete_group_hangs : forall fs s, p_num_files p = length fs -> p_num_repetitions p <= 1 ->
  num_data_files E fs mod S (p_num_add_files p) <> 0 ->
  steps (init E fs 1) s -> s_iter E s <> IDone.
Proof.
  intros fs s HN Hr Hmod H HD. apply Hmod.
  pose proof (one_steps E p fs s HN H) as [(w & Hw & HA & _) HL].
  pose proof (shape_steps E p fs 1 s H) as [_ _ _ _ S5 _].
  destruct (HL (S5 (or_intror HD))) as [Hall Hdata]. destruct (HA Hall) as [Hf Hw'].
  destruct (groups_steps E p fs 1 s Hr H) as [[g HG]|[[k HG] _]]; [congruence|].
  rewrite HD, Hdata, Hf, Hw in HG. cbn [in_group length] in HG.
  assert (Hh : length (filter (holds E) [w]) = 0) by (destruct Hw' as [->| ->]; reflexivity).
  rewrite Hh in HG. unfold num_data_files in HG at 2. cbn [filter length] in HG. rewrite !Nat.add_0_r in HG.
  rewrite HG. apply Nat.mod_mul. discriminate.
Qed.

(** A batching process killed by an exception makes the consumer wait forever. *)
Theorem C20_dead_batching_process : forall fs w s g, steps (init E fs w) s -> s_iter E s = IDead g -> Hangs E p s.
Proof.
  intros fs w s g H Hi. apply dead_hangs. pose proof (shape_steps E p fs w s H) as [_ _ _ S4 _ S6].
  assert (HL : s_left E s = true).
  { destruct (s_left E s) eqn:EL; [reflexivity|]. specialize (S4 eq_refl). rewrite Hi in S4. destruct S4 as [S4|[S4|S4]]; discriminate. }
  split; [exact HL|]. split; [intros HC; apply S6 in HC; destruct HC; congruence|]. left. exists g. exact Hi.
Qed.

(** Waiting for data that cannot come any more is final. *)
Theorem C20_starved : forall fs w s, steps (init E fs w) s -> s_left E s = true ->
  s_iter E s = IGet \/ (exists g n, s_iter E s = IInner g n /\ n < p_num_add_files p) ->
  s_data E s = [] -> Forall (fun f => has_data E f = false) (s_files E s) ->
  Forall (fun w => forall i, w <> WPut i) (s_workers E s) -> Hangs E p s.
Proof.
  intros fs w s H HL Hi HD HF HW. apply dead_hangs. pose proof (shape_steps E p fs w s H) as [_ _ _ _ _ S6].
  split; [exact HL|]. split; [intros HC; apply S6 in HC; destruct HC; congruence|]. right. split; [exact HD|]. split.
  - right. split; [exact HF|]. eapply Forall_impl; [|exact HW]. intros x Hx. destruct x as [| |i| |]; try reflexivity. destruct (Hx i eq_refl).
  - unfold waiting. destruct Hi as [->|(g & n & -> & Hn)]; [exact I|]. unfold wants_more. apply Nat.ltb_lt in Hn. rewrite Hn. reflexivity.
Qed.

(** ** C63 *)

(** For every list of files, every number of workers and every choice of
    parameters there is a schedule after which the pipeline hangs. *)
Theorem C63_every_input_can_hang : forall fs w, p_num_files p = length fs ->
  exists s, steps (init E fs w) s /\ Hangs E p s.
Proof.
  intros fs w HN. destruct (init_dead E p fs w HN) as (s & H1 & H2). exists s. split; [exact H1|]. apply dead_hangs. exact H2.
Qed.

(** ** C21 *)

(** When the consumer has finished, at most one batch is left behind: the last,
    incomplete one. *)
Theorem C21_at_most_leftover : forall fs w s, steps (init E fs w) s -> s_cons E s = CDone ->
  s_final E s = [] \/
  exists b, s_final E s = [b] /\ b <> [] /\ (0 < p_batch_size p -> length b < p_batch_size p).
Proof.
  intros fs w s H HC. pose proof (shape_steps E p fs w s H) as [_ _ _ _ _ S6]. destruct (S6 HC) as [_ [HF|(_ & b & H1 & H2 & H3)]].
  - left. exact HF.
  - right. exists b. split; [exact H1|]. split; [exact H2|lia].
Qed.

(** If the consumer finishes after the batching process, nothing is missed: with
    one worker every event has been delivered. *)
Theorem C21_safe : forall fs s s' P, p_num_files p = length fs -> steps (init E fs 1) s ->
  s_iter E s = IDone -> s_cons E s <> CDone -> step E p s s' -> s_cons E s' = CDone ->
  count E P (concat (s_out E s')) = p_num_repetitions p * count E P (all_events E fs).
Proof.
  intros fs s s' P HN H Hi HC Hs HC'.
  rewrite <- (C19_one_worker_complete fs s P HN H Hi).
  destruct Hs as [s s' l x r x' Hx Hs|s s' Hs|s s' Hs].
  - destruct Hs; proj; congruence.
  - rewrite Hi in Hs. inversion Hs.
  - remember (s_cons E s) as c eqn:Ec. destruct Hs; proj; try congruence. rewrite H1, app_nil_r. reflexivity.
Qed.

End Theorems.

Print Assumptions C18_no_invention.
Print Assumptions C18_multiplicity.
Print Assumptions C18_batches.
Print Assumptions C19_one_worker_complete.
Print Assumptions C19_more_workers_lose.
Print Assumptions C20_no_files_hang.
Print Assumptions C20_incomplete_group_hangs.
Print Assumptions C20_dead_batching_process.
Print Assumptions C20_starved.
Print Assumptions C63_every_input_can_hang.
Print Assumptions C21_at_most_leftover.
Print Assumptions C21_safe.

(** ** Witnesses and examples *)

Definition ex_params : params := {| p_batch_size := 2; p_file_capacity := 1; p_batch_capacity := 5;
  p_num_add_files := 0; p_num_repetitions := 1; p_num_files := 1 |}.

(** One file with three events and one worker, step by step: the full batch is
    delivered, then the consumer finishes just before the leftover is queued. *)
Definition ex_sched (late_consumer : bool) (s : state nat) : Prop :=
  steps nat ex_params (init nat [FData [1; 2; 3]] 1) s /\ s_iter nat s = IDone /\
  s_cons nat s = CDone /\ s_out nat s = (if late_consumer then [[1; 2]; [3]] else [[1; 2]]) /\
  s_final nat s = (if late_consumer then [] else [[3]]).

Ltac norm := cbv [init repeat app set_workers set_files set_count set_data set_iter set_left set_acc set_final set_cons end_test
  s_files s_counter s_all s_data s_final s_left s_workers s_iter s_acc s_cons s_out orb andb Nat.eqb p_num_files ex_params].
Ltac wk c := eapply steps_trans; [apply steps_one; eapply (st_worker _ _ _ _ [] _ []); [reflexivity|eapply c; reflexivity]|norm].
Ltac it c := eapply steps_trans; [apply steps_one; eapply st_iter; eapply c; try reflexivity|norm].
Ltac co c := eapply steps_trans; [apply steps_one; eapply st_cons; eapply c; try reflexivity|norm].

Lemma ex_stream : Stream nat ex_params [1; 2; 3] [1; 2; 3].
Proof. exists [[1; 2; 3]]. split; [reflexivity|]. split; [|reflexivity]. repeat constructor. Qed.

Theorem C21_leftover_missed_refuted : exists s, ex_sched false s.
Proof.
  eexists. split; [|shelve].
  wk ws_enter. wk ws_data. wk ws_put.
  eapply steps_trans; [apply steps_one; eapply (st_worker _ _ _ _ [] _ []); [reflexivity|apply ws_count]|norm].
  it is_start. it is_loop_on. it is_get. it is_group; [exact ex_stream|]. it is_add. it is_full. it is_add. it is_emitted.
  it is_end. it is_loop_off.
  co cs_on; [right; discriminate|]. co cs_get. co cs_off.
  it is_left; [discriminate|]. apply steps_refl.
  Unshelve. repeat split; reflexivity.
Qed.
Print Assumptions C21_leftover_missed_refuted.

(** A run in which everything is delivered, meeting the hypotheses of C19 and
    C21_safe. *)
Example pipeline_ex : exists s, ex_sched true s.
Proof.
  eexists. split; [|shelve].
  wk ws_enter. wk ws_data. wk ws_put.
  eapply steps_trans; [apply steps_one; eapply (st_worker _ _ _ _ [] _ []); [reflexivity|apply ws_count]|norm].
  it is_start. it is_loop_on. it is_get. it is_group; [exact ex_stream|]. it is_add. it is_full. it is_add. it is_emitted.
  it is_end. it is_loop_off. it is_left; [discriminate|].
  co cs_on; [right; discriminate|]. co cs_get. co cs_on; [right; discriminate|]. co cs_get. co cs_off. apply steps_refl.
  Unshelve. repeat split; reflexivity.
Qed.

(** Three files mixed in pairs: the hypothesis of C20_incomplete_group_hangs. *)
Example C20_ex : num_data_files nat [FData [1]; FMissing; FData [2]; FData [3]] mod 2 <> 0.
Proof. discriminate. Qed.
