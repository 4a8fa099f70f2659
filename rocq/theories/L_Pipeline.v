(** Invariants of the data pipeline. *)
From Verif Require Import Py M_Pipeline S_Pipeline.

Section Lemmas.
Variable E : Type.
Variable p : params.
Notation state := (state E).
Notation step := (step E p).
Notation steps := (steps E p).
Notation count := (count E).
Notation rep := (p_num_repetitions p).
Notation bs := (p_batch_size p).

(** ** Induction along executions *)

Lemma steps_inv (I : state -> Prop) : (forall s s', I s -> step s s' -> I s') ->
  forall s s', I s -> steps s s' -> I s'.
Proof. intros H s s' Hs Hst. induction Hst; eauto. Qed.

Lemma steps_trans s1 s2 s3 : steps s1 s2 -> steps s2 s3 -> steps s1 s3.
Proof. intros H1 H2. induction H2 as [|s s' s'' H2 IH H]; [exact H1|]. econstructor; [apply IH; exact H1|exact H]. Qed.

Lemma steps_one s s' : step s s' -> steps s s'.
Proof. intros H. econstructor; [constructor|exact H]. Qed.

(** ** Counting *)

Lemma count_app P (l m : list E) : count P (l ++ m) = count P l + count P m.
Proof. unfold S_Pipeline.count. rewrite filter_app, app_length. reflexivity. Qed.

Lemma count_perm P (l m : list E) : Permutation l m -> count P l = count P m.
Proof.
  unfold S_Pipeline.count. induction 1; simpl; auto.
  - destruct (P x); simpl; congruence.
  - destruct (P x), (P y); reflexivity.
  - congruence.
Qed.

Lemma count_stream P g es : Stream E p g es -> count P es = rep * count P g.
Proof.
  intros (perms & Hl & HF & ->). rewrite <- Hl. clear Hl. induction HF as [|q qs Hq HF IH]; [reflexivity|].
  cbn [concat length]. rewrite count_app, IH, (count_perm P _ _ Hq). lia.
Qed.

Definition held (w : wpc E) : list E := match w with WPut i => events E i | _ => [] end.
Definition emitting (i : ipc E) : list E := match i with IEmit es => es | _ => [] end.
Definition group (i : ipc E) : list E := match i with IInner g _ => g | IDead g => g | _ => [] end.

Definition pending (P : E -> bool) (s : state) : nat :=
  count P (group (s_iter E s)) + count P (concat (map (events E) (s_data E s))) +
  count P (concat (map held (s_workers E s))) + count P (all_events E (s_files E s)).

Definition mass (P : E -> bool) (s : state) : nat :=
  count P (concat (s_out E s)) + count P (concat (s_final E s)) + count P (s_acc E s) +
  count P (emitting (s_iter E s)) + rep * pending P s.

Ltac proj := cbn [s_files s_counter s_all s_data s_final s_left s_workers s_iter s_acc s_cons s_out
  set_workers set_files set_count set_data set_iter set_left set_acc set_final set_cons] in *.

Lemma concat_app1 {A} (l : list (list A)) x : concat (l ++ [x]) = concat l ++ x.
Proof. rewrite concat_app. simpl. rewrite app_nil_r. reflexivity. Qed.

Lemma count_nil P : count P [] = 0.
Proof. reflexivity. Qed.

Lemma count_concat_app P (l m : list (list E)) : count P (concat (l ++ m)) = count P (concat l) + count P (concat m).
Proof. rewrite concat_app. apply count_app. Qed.

Lemma count_concat_cons P (x : list E) (m : list (list E)) : count P (concat (x :: m)) = count P x + count P (concat m).
Proof. cbn [concat]. apply count_app. Qed.

Lemma count_files_cons P f fs : count P (all_events E (f :: fs)) = count P (contents E f) + count P (all_events E fs).
Proof. unfold all_events. cbn [map concat]. apply count_app. Qed.

Lemma count_cons P (e : E) (es : list E) : count P (e :: es) = count P [e] + count P es.
Proof. change (e :: es) with ([e] ++ es) at 1. apply count_app. Qed.

Ltac counting := repeat (rewrite ?map_app, ?map_cons, ?count_concat_app, ?count_concat_cons, ?count_files_cons, ?count_app, ?count_nil, ?Nat.mul_add_distr_l;
  cbn [held events contents map group emitting]; change (concat []) with (@nil E)).

Lemma mass_step P s s' : step s s' -> mass P s' = mass P s.
Proof.
  intros H. unfold mass, pending. destruct H as [s s' l w r w' Hw H|s s' H|s s' H].
  - destruct H; proj; rewrite Hw; try rewrite H; counting; lia.
  - remember (s_iter E s) as i eqn:Ei. destruct H; proj; rewrite <- ?Ei; cbn [group emitting]; try reflexivity;
      try (match goal with HS : Stream E p _ _ |- _ => rewrite (count_stream P _ _ HS) end);
      try (match goal with HF : s_data E s = _ |- _ => rewrite HF end);
      try (match goal with |- context [count P (?x :: ?l)] => rewrite (count_cons P x l) end);
      counting; lia.
  - destruct H; proj; try reflexivity. rewrite H. counting. lia.
Qed.

Lemma mass_init P fs w : mass P (init E fs w) = rep * count P (all_events E fs).
Proof.
  unfold mass, pending, init. proj. cbn [map concat group emitting].
  replace (concat (map held (repeat WCheck w))) with (@nil E) by (induction w; simpl; auto).
  unfold S_Pipeline.count. simpl. lia.
Qed.

Lemma mass_steps P fs w s : steps (init E fs w) s -> mass P s = rep * count P (all_events E fs).
Proof.
  intros H. rewrite <- (mass_init P fs w). apply (steps_inv (fun s => mass P s = mass P (init E fs w))) with (s := init E fs w); auto.
  intros s1 s2 H1 H2. rewrite (mass_step P _ _ H2). exact H1.
Qed.

(** ** Shape of the batches *)

Definition late (i : ipc E) : Prop := i = ILoop \/ i = ILeft \/ i = IDone.

Record Shape (s : state) : Prop := {
  sh_full : s_iter E s <> IDone -> Forall (fun b => length b = bs /\ b <> []) (s_out E s ++ s_final E s);
  sh_done : s_iter E s = IDone -> s_acc E s = [] /\
    exists full last, s_out E s ++ s_final E s = full ++ last /\
      Forall (fun b => length b = bs /\ b <> []) full /\
      (last = [] \/ exists b, last = [b] /\ b <> [] /\ (bs = 0 \/ length b < bs));
  sh_acc : bs = 0 \/ length (s_acc E s) < bs;
  sh_left : s_left E s = false -> late (s_iter E s);
  sh_off : s_iter E s = ILeft \/ s_iter E s = IDone -> s_left E s = false;
  sh_cons : s_cons E s = CDone -> s_left E s = false /\
    (s_final E s = [] \/ s_iter E s = IDone /\ exists b, s_final E s = [b] /\ b <> [] /\ (bs = 0 \/ length b < bs))
}.

Lemma shape_init fs w : Shape (init E fs w).
Proof.
  constructor; unfold init; proj; try discriminate.
  - constructor.
  - simpl. lia.
  - intros [H|H]; discriminate.
Qed.

Lemma shape_step s s' : Shape s -> step s s' -> Shape s'.
Proof.
  intros [S1 S2 S3 S4 S5 S6] H. destruct H as [s s' l w r w' Hw H|s s' H|s s' H].
  - destruct H; constructor; proj; auto.
  - remember (s_iter E s) as i eqn:Ei. destruct H; proj.
    + (* start *) constructor; proj; try discriminate; auto.
      * intros _. apply S1. congruence.
      * intros H. left. reflexivity.
      * intros [H|H]; discriminate.
      * intros H. destruct (S6 H) as [H1 H2]. apply S4 in H1. try rewrite <- Ei in H1. destruct H1 as [H1|[H1|H1]]; discriminate.
    + constructor; proj; try discriminate; auto.
      * intros _. apply S1. congruence.
      * intros H1. congruence.
      * intros [H1|H1]; discriminate.
      * intros H1. destruct (S6 H1) as [H2 H3]. congruence.
    + constructor; proj; try discriminate; auto.
      * intros _. apply S1. congruence.
      * intros _. right; left; reflexivity.
      * intros H1. destruct (S6 H1) as [H2 [H3|[H3 _]]]; [auto|congruence].
    + constructor; proj; try discriminate; auto.
      * intros _. apply S1. congruence.
      * intros H1. apply S4 in H1. try rewrite <- Ei in H1. destruct H1 as [H1|[H1|H1]]; discriminate.
      * intros [H1|H1]; discriminate.
      * intros H1. destruct (S6 H1) as [H2 H3]. apply S4 in H2. try rewrite <- Ei in H2. destruct H2 as [H2|[H2|H2]]; discriminate.
    + constructor; proj; try discriminate; auto.
      * intros _. apply S1. congruence.
      * intros H1. apply S4 in H1. try rewrite <- Ei in H1. destruct H1 as [H1|[H1|H1]]; discriminate.
      * intros [H1|H1]; discriminate.
      * intros H1. destruct (S6 H1) as [H2 H3]. apply S4 in H2. try rewrite <- Ei in H2. destruct H2 as [H2|[H2|H2]]; discriminate.
    + rewrite Ei in *. constructor; auto.
    + constructor; proj; try discriminate; auto.
      * intros _. apply S1. congruence.
      * intros H1. apply S4 in H1. try rewrite <- Ei in H1. destruct H1 as [H1|[H1|H1]]; discriminate.
      * intros [H1|H1]; discriminate.
      * intros H1. destruct (S6 H1) as [H2 H3]. apply S4 in H2. try rewrite <- Ei in H2. destruct H2 as [H2|[H2|H2]]; discriminate.
    + constructor; proj; try discriminate; auto.
      * intros _. apply S1. congruence.
      * intros H1. apply S4 in H1. try rewrite <- Ei in H1. destruct H1 as [H1|[H1|H1]]; discriminate.
      * intros [H1|H1]; discriminate.
      * intros H1. destruct (S6 H1) as [H2 H3]. apply S4 in H2. try rewrite <- Ei in H2. destruct H2 as [H2|[H2|H2]]; discriminate.
    + constructor; proj; try discriminate; auto.
      * intros _. apply S1. congruence.
      * intros H1. apply S4 in H1. try rewrite <- Ei in H1. destruct H1 as [H1|[H1|H1]]; discriminate.
      * intros [H1|H1]; discriminate.
      * intros H1. destruct (S6 H1) as [H2 H3]. apply S4 in H2. try rewrite <- Ei in H2. destruct H2 as [H2|[H2|H2]]; discriminate.
    + (* add *) constructor; proj; try discriminate; auto.
      * intros _. apply S1. congruence.
      * apply Nat.eqb_neq in H. rewrite app_length. simpl. destruct S3 as [S3|S3]; [left; exact S3|right; lia].
      * intros H1. apply S4 in H1. try rewrite <- Ei in H1. destruct H1 as [H1|[H1|H1]]; discriminate.
      * intros [H1|H1]; discriminate.
      * intros H1. destruct (S6 H1) as [H2 H3]. apply S4 in H2. try rewrite <- Ei in H2. destruct H2 as [H2|[H2|H2]]; discriminate.
    + (* full *) apply Nat.eqb_eq in H. constructor; proj; try discriminate; auto.
      * intros _. rewrite app_assoc. apply Forall_app. split; [apply S1; congruence|]. constructor; [|constructor].
        split; [rewrite app_length; simpl; lia|]. intros HN. apply app_eq_nil in HN. destruct HN; discriminate.
      * right. simpl. lia.
      * intros H1. apply S4 in H1. try rewrite <- Ei in H1. destruct H1 as [H1|[H1|H1]]; discriminate.
      * intros [H1|H1]; discriminate.
      * intros H1. destruct (S6 H1) as [H2 H3]. apply S4 in H2. try rewrite <- Ei in H2. destruct H2 as [H2|[H2|H2]]; discriminate.
    + constructor; proj; try discriminate; auto.
      * intros _. apply S1. congruence.
      * intros H1. apply S4 in H1. try rewrite <- Ei in H1. destruct H1 as [H1|[H1|H1]]; discriminate.
      * intros [H1|H1]; discriminate.
      * intros H1. destruct (S6 H1) as [H2 H3]. apply S4 in H2. try rewrite <- Ei in H2. destruct H2 as [H2|[H2|H2]]; discriminate.
    + (* end *) constructor; proj; try discriminate; auto.
      * intros _. apply S1. congruence.
      * intros H. left. reflexivity.
      * intros [H|H]; discriminate.
      * intros H. destruct (S6 H) as [H1 H2]. apply S4 in H1. try rewrite <- Ei in H1. destruct H1 as [H1|[H1|H1]]; discriminate.
    + (* no leftovers *) constructor; proj; try discriminate; auto.
      * intros _. split; [exact H|]. exists (s_out E s ++ s_final E s), []. split; [rewrite app_nil_r; reflexivity|].
        split; [apply S1; congruence|left; reflexivity].
      * intros _. right; right; reflexivity.
      * intros H1. destruct (S6 H1) as [H2 [H3|[H3 _]]]; [auto|congruence].
    + (* leftovers *) assert (HL : bs = 0 \/ length (s_acc E s) < bs) by exact S3.
      constructor; proj; try discriminate; auto.
      * intros HN. congruence.
      * intros _. split; [reflexivity|]. exists (s_out E s ++ s_final E s), [s_acc E s]. split; [rewrite app_assoc; reflexivity|].
        split; [apply S1; congruence|right; exists (s_acc E s); auto].
      * destruct S3 as [S3|S3]; [left; exact S3|right; simpl; lia].
      * intros _. right; right; reflexivity.
      * intros H1. destruct (S6 H1) as [H2 [H3|[H3 _]]]; [|congruence]. split; [exact H2|]. right. split; [reflexivity|].
        exists (s_acc E s). rewrite H3. auto.
  - remember (s_cons E s) as c eqn:Ec. destruct H; constructor; proj; try discriminate; auto.
    + intros HN. rewrite <- app_assoc. cbn [app]. rewrite <- H. apply S1. exact HN.
    + intros HN. destruct (S2 HN) as [H1 (full & last & H2 & H3)]. split; [exact H1|]. exists full, last.
      rewrite <- app_assoc. cbn [app]. rewrite <- H. split; [exact H2|exact H3].
Qed.

Lemma shape_steps fs w s : steps (init E fs w) s -> Shape s.
Proof. intros H. eapply (steps_inv Shape); [apply shape_step|apply shape_init|exact H]. Qed.

(** ** Pending data and flags *)

(** What the flags guarantee for any number of workers: the last test found
    the data queue empty. *)

(** One worker. *)
Record One (N : nat) (s : state) : Prop := {
  one_w : exists w, s_workers E s = [w] /\
    (s_all E s = true -> s_files E s = [] /\ (w = WCheck \/ w = WDone)) /\
    (s_all E s = false -> match w with
       | WCheck | WGet => N = 0 \/ s_counter E s + length (s_files E s) = N /\ s_counter E s < N
       | WPut _ | WCount => N = 0 \/ s_counter E s + 1 + length (s_files E s) = N
       | WDone => True
       end);
  one_left : s_left E s = false -> s_all E s = true /\ s_data E s = []
}.

Lemma one_init fs : p_num_files p = length fs -> One (length fs) (init E fs 1).
Proof.
  intros HN. constructor; unfold init; proj; [|discriminate].
  exists WCheck. split; [reflexivity|]. split; [discriminate|]. intros _. destruct fs; [left; reflexivity|right; simpl; lia].
Qed.

Lemma single_app {A} (l : list A) w r x : l ++ w :: r = [x] -> l = [] /\ r = [] /\ w = x.
Proof.
  destruct l as [|y l]; simpl; intros H; inversion H; subst; [auto|]. destruct l; discriminate.
Qed.

Lemma one_step N s s' : p_num_files p = N -> One N s -> step s s' -> One N s'.
Proof.
  intros HN [(w & Hw & HA & HB) HL] H. destruct H as [s s' l w0 r w' Hw' H|s s' H|s s' H].
  - rewrite Hw in Hw'. symmetry in Hw'. apply single_app in Hw'. destruct Hw' as (-> & -> & ->).
    destruct H; constructor; proj; try (eexists; split; [reflexivity|]; split); auto.
    + intros HT. destruct (HA HT) as [HF _]. auto.
    + intros HT. congruence.
    + intros HT. destruct (HA HT) as [_ [HC|HC]]; discriminate.
    + intros HF. specialize (HB HF). cbn in HB. rewrite H in HB. simpl in HB. destruct HB as [HB|HB]; [left; exact HB|].
      left. lia.
    + intros HT. destruct (HA HT) as [_ [HC|HC]]; discriminate.
    + intros HF. specialize (HB HF). cbn in HB. rewrite H in HB. simpl in HB. destruct HB as [HB|HB]; [left; exact HB|right; lia].
    + intros HT. destruct (HA HT) as [_ [HC|HC]]; discriminate.
    + intros HF. specialize (HB HF). cbn in HB. rewrite H in HB. simpl in HB. destruct HB as [HB|HB]; [left; exact HB|right; lia].
    + intros HT. destruct (HA HT) as [_ [HC|HC]]; discriminate.
    + intros HT. destruct (HA HT) as [_ [HC|HC]]; discriminate.
    + intros HF. specialize (HB HF). cbn in HB. rewrite H in HB. simpl in HB. destruct HB as [HB|HB]; [left; exact HB|right; lia].
    + intros HT. destruct (HA HT) as [_ [HC|HC]]; discriminate.
    + intros HF. specialize (HB HF). cbn in HB. rewrite H in HB. simpl in HB. destruct HB as [HB|HB]; [left; exact HB|right; lia].
    + intros HT. destruct (HA HT) as [_ [HC|HC]]; discriminate.
    + intros HLf. destruct (HL HLf) as [HT _]. destruct (HA HT) as [_ [HC|HC]]; discriminate.
    + intros HT. destruct (s_all E s) eqn:Ea; [destruct (HA eq_refl) as [_ [HC|HC]]; discriminate|].
      cbn [orb] in HT. apply Nat.eqb_eq in HT. specialize (HB eq_refl). cbn in HB. split; [|left; reflexivity].
      destruct (s_files E s); [reflexivity|]. simpl in HB. lia.
    + intros HF. apply orb_false_iff in HF. destruct HF as [HF1 HF2]. specialize (HB HF1). cbn in HB. apply Nat.eqb_neq in HF2.
      destruct HB as [HB|HB]; [left; exact HB|right; lia].
    + intros HLf. destruct (HL HLf) as [HT HD]. rewrite HT. auto.
  - remember (s_iter E s) as i eqn:Ei.
    assert (HE : forall s0 i0, end_test E s = true -> s0 = set_iter E (set_left E s false) i0 -> One N s0).
    { intros s0 i0 He ->. unfold end_test in He. apply andb_true_iff in He. destruct He as [He1 He2].
      constructor; proj; [exists w; auto|]. intros _. split; [exact He1|]. destruct (s_data E s); [reflexivity|discriminate]. }
    destruct H; try (destruct (end_test E s) eqn:Ee; [eapply HE; reflexivity|]);
      constructor; proj; try (exists w; auto; fail); auto;
      try (intros HLf; destruct (HL HLf) as [HT HD]; split; [exact HT|congruence]).
  - destruct H; constructor; proj; try (exists w; auto; fail); auto.
Qed.

Lemma one_steps fs s : p_num_files p = length fs -> steps (init E fs 1) s -> One (length fs) s.
Proof.
  intros HN H. eapply (steps_inv (One (length fs))); [|apply one_init; exact HN|exact H].
  intros s1 s2 H1 H2. eapply one_step; eauto.
Qed.

(** ** Numbers of files in a group *)

Definition in_group (i : ipc E) : nat := match i with IInner _ n => S n | _ => 0 end.
Definition holds (w : wpc E) : bool := match w with WPut _ => true | _ => false end.

Definition Groups (D : nat) (s : state) : Prop :=
  (exists g, s_iter E s = IDead g) \/
  (exists k, D = k * S (p_num_add_files p) + in_group (s_iter E s) + length (s_data E s) +
     length (filter holds (s_workers E s)) + num_data_files E (s_files E s)) /\
  match s_iter E s with IInner _ n => n <= p_num_add_files p | _ => True end.

Lemma groups_init fs w : Groups (num_data_files E fs) (init E fs w).
Proof.
  right. unfold init. proj. cbn [in_group length]. split; [|exact I]. exists 0.
  replace (filter holds (repeat WCheck w)) with (@nil (wpc E)) by (induction w; simpl; auto). simpl. lia.
Qed.

Lemma wants_rep1 n size : rep <= 1 -> wants_more p n size = Nat.ltb n (p_num_add_files p).
Proof.
  intros H. unfold wants_more. replace (rep - 1) with 0 by lia. cbn [Nat.mul].
  replace (Nat.ltb (size * size) 0) with false by (symmetry; apply Nat.ltb_ge; lia). apply orb_false_r.
Qed.

Lemma groups_step D s s' : rep <= 1 -> Shape s -> Groups D s -> step s s' -> Groups D s'.
Proof.
  intros Hr HS HG H. destruct H as [s s' l w r w' Hw H|s s' H|s s' H].
  - destruct HG as [HG|[[k HG] Hn]].
    { left. destruct H; proj; exact HG. }
    right. rewrite Hw in HG. rewrite filter_app, app_length in HG. cbn [filter] in HG.
    destruct H; proj; (split; [exists k|exact Hn]); rewrite filter_app, app_length; cbn [filter holds length] in *;
      try match goal with HF : s_files E s = _ |- _ => rewrite HF in HG end;
      unfold num_data_files in *; cbn [filter has_data length] in *; rewrite ?app_length; cbn [length]; try lia.
    rewrite H. simpl. lia.
  - destruct HG as [[g0 HG]|[[k HG] Hn]].
    { rewrite HG in H. inversion H. }
    remember (s_iter E s) as i eqn:Ei. destruct H; unfold Groups; proj; rewrite <- ?Ei; cbn [in_group] in *;
      try match goal with HF : s_data E s = _ |- _ => rewrite ?HF in *; cbn [length] in * end;
      try (left; eexists; reflexivity); try (right; split; [exists k; lia|exact I || lia]).
    + apply andb_true_iff in H. destruct H as [H _]. rewrite wants_rep1 in H by exact Hr. apply Nat.ltb_lt in H.
      right. split; [exists k; lia|lia].
    + assert (HL : s_left E s = true).
      { destruct (s_left E s) eqn:EL; [reflexivity|]. apply (sh_left s HS) in EL. rewrite <- Ei in EL. destruct EL as [EL|[EL|EL]]; discriminate. }
      rewrite HL, andb_true_r in H. rewrite wants_rep1 in H by exact Hr. apply Nat.ltb_ge in H.
      right. split; [|exact I]. exists (S k). assert (n = p_num_add_files p) by lia. subst n. lia.
  - destruct H; exact HG.
Qed.

Lemma groups_steps fs w s : rep <= 1 -> steps (init E fs w) s -> Groups (num_data_files E fs) s.
Proof.
  intros Hr H.
  apply (steps_inv (fun s => Shape s /\ Groups (num_data_files E fs) s)) with (s := init E fs w); auto.
  - intros s1 s2 [H1 H2] H3. split; [eapply shape_step; eauto|eapply groups_step; eauto].
  - split; [apply shape_init|apply groups_init].
Qed.

(** ** Hanging *)

Definition waiting (s : state) : Prop :=
  match s_iter E s with
  | ILoop | IGet => True
  | IInner g n => wants_more p n (length g) = true
  | _ => False
  end.

(** Nothing can be added to the data queue any more. *)
Definition Dry (s : state) : Prop :=
  Forall (fun w => w = WDone) (s_workers E s) \/
  Forall (fun f => has_data E f = false) (s_files E s) /\ Forall (fun w => holds w = false) (s_workers E s).

Definition Dead (s : state) : Prop :=
  s_left E s = true /\ s_cons E s <> CDone /\
  ((exists g, s_iter E s = IDead g) \/ s_data E s = [] /\ Dry s /\ waiting s).

Lemma dead_step s s' : (s_all E s = true -> s_iter E s <> IStart) -> Dead s -> step s s' -> Dead s'.
Proof.
  intros _ (HL & HC & HD) H. destruct H as [s s' l w r w' Hw H|s s' H|s s' H].
  - assert (HX : forall q, Dry s -> w = q -> q <> WDone -> Forall (fun f => has_data E f = false) (s_files E s) /\ Forall (fun w => holds w = false) (l ++ w :: r)).
    { intros q [HY|HY] -> Hq; rewrite Hw in HY; [|exact HY].
      exfalso. rewrite Forall_forall in HY. apply Hq. apply HY. apply in_or_app. right. left. reflexivity. }
    destruct HD as [HD|(HD & HY & HW)].
    { destruct H; (split; [exact HL|split; [exact HC|left; exact HD]]). }
    assert (HZ : forall w2, holds w2 = false -> Forall (fun w => holds w = false) (l ++ w :: r) -> Forall (fun w => holds w = false) (l ++ w2 :: r)).
    { intros w2 H2 HF. apply Forall_app in HF. destruct HF as [HF1 HF2]. inversion HF2; subst. apply Forall_app. split; [exact HF1|constructor; assumption]. }
    destruct H; destruct (HX _ HY eq_refl ltac:(discriminate)) as [HF HH]; (split; [exact HL|split; [exact HC|right]]);
      try (rewrite H in HF; inversion HF; subst; discriminate).
    all: try (exfalso; rewrite Forall_forall in HH; specialize (HH (WPut i) ltac:(apply in_or_app; right; left; reflexivity)); discriminate).
    all: split; [exact HD|split; [|exact HW]]; right; proj; (split; [|apply HZ; [reflexivity|exact HH]]).
    all: try exact HF.
    all: rewrite H in HF; inversion HF; subst; assumption.
  - destruct HD as [[g0 HD]|(HD & HY & HW)].
    { rewrite HD in H. inversion H. }
    unfold waiting in HW. remember (s_iter E s) as i eqn:Ei.
    destruct H; try (destruct HW; fail); try congruence;
      try (split; [exact HL|split; [exact HC|right; split; [exact HD|split; [exact HY|unfold waiting; proj; rewrite <- ?Ei; auto]]]]; fail).
    rewrite HL, andb_true_r in H. congruence.
  - remember (s_cons E s) as c eqn:Ec. destruct H; try congruence.
    + split; [exact HL|]. split; [proj; discriminate|]. destruct HD as [HD|HD]; [left; exact HD|right; exact HD].
    + split; [exact HL|]. split; [proj; discriminate|]. destruct HD as [HD|HD]; [left; exact HD|right; exact HD].
Qed.

Lemma dead_hangs s : Dead s -> Hangs E p s.
Proof.
  intros HD s' H. assert (HD' : Dead s').
  { eapply (steps_inv Dead); [|exact HD|exact H]. intros s1 s2 H1 H2. eapply dead_step; eauto.
    intros _ HN. destruct H1 as (_ & _ & [[g H1]|(_ & _ & H1)]); [congruence|]. unfold waiting in H1. rewrite HN in H1. exact H1. }
  destruct HD' as (H1 & H2 & H3). split; [|exact H2]. intros HN. destruct H3 as [[g H3]|(_ & _ & H3)]; [congruence|].
  unfold waiting in H3. rewrite HN in H3. exact H3.
Qed.

End Lemmas.
