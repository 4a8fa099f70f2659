(** Lemmas about the model of the optimiser. *)
From Coq Require Import Psatz Sorting.Sorted Permutation.
From Verif Require Import Py PyFacts RList M_Sphere S_Sphere L_Sphere M_Opt S_Opt.

Lemma bind_ok {A B} (r : result A) (f : A -> result B) b :
  bind r f = Ok b -> exists a, r = Ok a /\ f a = Ok b.
Proof. destruct r; simpl; intros H; [eauto | discriminate]. Qed.

Lemma no_worse_refl l : no_worse l l.
Proof. intros v H. exists v. split; [exact H | lra]. Qed.

Lemma no_worse_trans a b c : no_worse a b -> no_worse b c -> no_worse a c.
Proof.
  intros H K v Hv. destruct (H v Hv) as (w & Hw & L).
  destruct (K w Hw) as (u & Hu & L'). exists u. split; [exact Hu | lra].
Qed.

Lemma no_worse_pointwise a b : length a = length b ->
  (forall i, (i < length a)%nat -> nth i b 0 <= nth i a 0) -> no_worse a b.
Proof.
  intros L H v Hv. apply In_nth with (d := 0) in Hv. destruct Hv as (i & Hi & <-).
  exists (nth i b 0). split; [apply nth_In; lia | apply H; exact Hi].
Qed.

Lemma no_worse_best a b i : (i < length b)%nat ->
  (forall v, In v a -> nth i b 0 <= v) -> no_worse a b.
Proof.
  intros Hi H v Hv. exists (nth i b 0). split; [apply nth_In; exact Hi | auto].
Qed.

(** ** Sorting *)

Lemma argsort_all vals idx : is_argsort vals idx ->
  forall i, (i < length vals)%nat -> In i idx.
Proof.
  intros ((N & R & _) & L) i Hi.
  assert (P : incl (seq 0 (length vals)) idx).
  { apply NoDup_length_incl.
    - exact N.
    - rewrite seq_length. lia.
    - intros j Hj. apply in_seq. specialize (R j Hj). lia. }
  apply P. apply in_seq. lia.
Qed.

Lemma argsort_head_min vals idx : is_argsort vals idx -> vals <> [] ->
  (hd 0%nat idx < length vals)%nat /\
  forall v, In v vals -> nth (hd 0%nat idx) vals 0 <= v.
Proof.
  intros A NE. pose proof (argsort_all vals idx A) as ALL.
  destruct A as (S & L).
  assert (LP : (0 < length vals)%nat) by (destruct vals; [congruence | simpl; lia]).
  assert (HD : hd 0%nat idx = nth 0 idx 0%nat) by (destruct idx; reflexivity).
  rewrite HD. split.
  - destruct S as (_ & R & _). apply R. apply nth_In. lia.
  - intros v Hv. apply In_nth with (d := 0) in Hv. destruct Hv as (i & Hi & <-).
    specialize (ALL i Hi). apply In_nth with (d := 0%nat) in ALL.
    destruct ALL as (k & Hk & <-). apply sorted_by_le; [exact S |]. lia.
Qed.

Lemma last_nth {A} (l : list A) d : last l d = nth (length l - 1) l d.
Proof.
  induction l as [| a l IH]; [reflexivity |]. destruct l as [| b l]; [reflexivity |].
  change (last (a :: b :: l) d) with (last (b :: l) d). rewrite IH.
  simpl. rewrite Nat.sub_0_r. reflexivity.
Qed.

Lemma argsort_worst vals idx : is_argsort vals idx -> (2 <= length vals)%nat ->
  (last idx 0%nat < length vals)%nat /\ last idx 0%nat <> hd 0%nat idx.
Proof.
  intros ((N & R & _) & L) H2. rewrite last_nth.
  assert (HD : hd 0%nat idx = nth 0 idx 0%nat) by (destruct idx; reflexivity).
  rewrite HD. split.
  - apply R. apply nth_In. lia.
  - intros E. apply (NoDup_nth idx 0%nat) in E; [lia | exact N | lia | lia].
Qed.

Lemma argmin_from_spec l : forall k best v d full,
  (forall i, (i < length l)%nat -> nth (k + i) full d = nth i l d) ->
  (best < k)%nat -> nth best full d = v ->
  (argmin_from k best v l < k + length l)%nat /\
  nth (argmin_from k best v l) full d <= v /\
  (forall x, In x l -> nth (argmin_from k best v l) full d <= x).
Proof.
  induction l as [| a l IH]; intros k best v d full F B E; simpl.
  - split; [lia |]. split; [lra |]. intros x [].
  - assert (F' : forall i, (i < length l)%nat -> nth (S k + i) full d = nth i l d).
    { intros i Hi. specialize (F (S i) ltac:(simpl; lia)). simpl in F.
      rewrite <- F. f_equal. lia. }
    assert (E0 : nth k full d = a).
    { specialize (F 0%nat ltac:(simpl; lia)). simpl in F.
      rewrite Nat.add_0_r in F. exact F. }
    destruct (Rltb a v) eqn:T.
    + apply (proj1 (Rltb_true _ _)) in T.
      destruct (IH (S k) k a d full F' (Nat.lt_succ_diag_r k) E0) as (P & Q & S).
      split; [lia |]. split; [lra |]. intros x [<- | Hx]; [exact Q | apply S, Hx].
    + apply (proj1 (Rltb_false _ _)) in T.
      destruct (IH (S k) best v d full F' (Nat.lt_lt_succ_r _ _ B) E) as (P & Q & S).
      split; [lia |]. split; [exact Q |].
      intros x [<- | Hx]; [lra | apply S, Hx].
Qed.

Lemma argmin_spec l : l <> [] -> (argmin l < length l)%nat /\
  forall v, In v l -> nth (argmin l) l 0 <= v.
Proof.
  destruct l as [| a l]; [congruence |]. intros _. unfold argmin.
  destruct (argmin_from_spec l 1 0 a 0 (a :: l)) as (P & Q & S);
    [reflexivity | lia | reflexivity |].
  split; [simpl in *; lia |]. intros v [<- | Hv]; [exact Q | apply S, Hv].
Qed.

(** ** Values belong to points *)

Lemma set_nth_map {A B} (h : A -> B) i v l :
  set_nth i (h v) (map h l) = map h (set_nth i v l).
Proof.
  revert i. induction l as [| a l IH]; intros [| i]; simpl; try reflexivity.
  f_equal. apply IH.
Qed.

Lemma replace_all_map {A B} (h : A -> B) reps new old da db :
  (forall p, In p reps -> (snd p < length new)%nat) ->
  replace_all db reps (map h new) (map h old) = map h (replace_all da reps new old).
Proof.
  unfold replace_all. revert old. induction reps as [| p reps IH]; intros old H;
    [reflexivity |]. simpl.
  rewrite (nth_indep (map h new) db (h da))
    by (rewrite map_length; apply H; left; reflexivity).
  rewrite map_nth, set_nth_map. apply IH. intros q Hq. apply H. right. exact Hq.
Qed.

Section Opt.
  Variable func : list R -> R.
  Variable argsort : list R -> list nat.
  Variable rnd : nat -> draws.
  Variable g : config.
  Variable ndim : nat.

  Notation make := (make g ndim).
  Notation put := (put func g ndim).
  Notation step := (step func argsort rnd g ndim).
  Notation loop := (loop func argsort rnd g ndim).

  Definition inv (n : nat) (st : state) : Prop :=
    s_f st = map func (s_x st) /\ length (s_f st) = n /\ length (s_pts st) = n /\
    (s_bi st < n)%nat.

  Hypothesis Hsort : forall l, is_argsort l (argsort l).

  Lemma find_shape old new so sn : (length sn <= length so)%nat ->
    exists k, (k <= length sn)%nat /\
      find_replacements old new so sn =
        Ok (combine (last_n k so) (firstn k sn)) /\
      accepts old new so sn k.
  Proof.
    intros L. destruct (search_spec old new so sn (length sn) L (le_n _))
      as (k & K & A & _ & E). exists k. auto.
  Qed.

  Lemma apply_reps_inv n reps pts st calls :
    inv n st -> (forall p, In p reps -> (snd p < length pts)%nat) ->
    inv n (apply_reps g ndim reps pts (map (fun p => func (make p)) pts) st calls).
  Proof.
    intros (A & B & C & D) H. unfold inv, apply_reps. cbn [s_f s_x s_pts s_bi].
    split.
    - rewrite A, <- (map_map make func). apply replace_all_map.
      intros p Hp. rewrite map_length. auto.
    - rewrite !replace_all_length. auto.
  Qed.

  Lemma put_inv n i p st calls : inv n st -> inv n (put i p st calls).
  Proof.
    intros (A & B & C & D). unfold inv, M_Opt.put. cbn [s_f s_x s_pts s_bi].
    rewrite !set_nth_length. split; [rewrite A; apply set_nth_map | auto].
  Qed.

  (** ** One iteration *)

  Definition good_step (n cost : nat) (st st' : state) : Prop :=
    inv n st' /\ no_worse (s_f st) (s_f st') /\
    (forall v, In v (s_f st) -> nth (s_bi st') (s_f st') 0 <= v) /\
    (s_calls st <= s_calls st' <= s_calls st + cost)%nat.

  Lemma sorted_by_firstn vals idx k : sorted_by vals idx ->
    sorted_by vals (firstn k idx).
  Proof.
    intros (N & R & S). split; [apply NoDup_firstn; exact N |].
    split; [intros i Hi; apply R; apply (in_firstn k); exact Hi |].
    clear N R. revert k. induction S as [| a l S IH F]; intros [| k]; simpl;
      try constructor; [apply IH |].
    rewrite Forall_forall in *. intros x Hx. apply F. apply (in_firstn k). exact Hx.
  Qed.

  Lemma sorted_by_ext vals vals' idx : sorted_by vals idx ->
    length vals = length vals' ->
    (forall i, In i idx -> nth i vals' 0 = nth i vals 0) ->
    sorted_by vals' idx.
  Proof.
    intros (N & R & S) L E. split; [exact N |].
    split; [intros i Hi; rewrite <- L; auto |].
    clear N R. induction S as [| a l S IH F]; constructor.
    - apply IH. intros i Hi. apply E. right. exact Hi.
    - rewrite Forall_forall in *. intros x Hx.
      rewrite !E by (simpl; auto). apply F. exact Hx.
  Qed.

  Lemma sort_facts l : sorted_by l (argsort l) /\ length (argsort l) = length l.
  Proof. apply Hsort. Qed.

  Lemma step_crs_good n d st : inv n st -> (0 < n)%nat ->
    length (d_choice d) = g_batch g -> (g_batch g <= n)%nat ->
    s_bi st = hd 0%nat (argsort (s_f st)) ->
    exists st', step_crs func argsort g ndim d (argsort (s_f st)) st = Ok st' /\
      good_step n (2 * g_batch g) st st'.
  Proof.
    intros I NP HB HN BI. pose proof I as (IF & IL & IP & IB).
    assert (NE : s_f st <> []) by (intros E; rewrite E in IL; simpl in IL; lia).
    destruct (sort_facts (s_f st)) as (SO & LO).
    set (so := argsort (s_f st)) in *.
    unfold step_crs. set (refl := reflections d st).
    set (new_f := map (fun p => func (make p)) refl).
    assert (LR : length refl = g_batch g)
      by (unfold refl, reflections; rewrite map_length; exact HB).
    assert (LF : length new_f = g_batch g)
      by (unfold new_f; rewrite map_length; exact LR).
    destruct (sort_facts new_f) as (SN & LN). set (sn := argsort new_f) in *.
    assert (LE : (length sn <= length so)%nat) by lia.
    destruct (find_shape (s_f st) new_f so sn LE) as (k & K & E & A).
    set (reps := combine (last_n k so) (firstn k sn)) in *.
    assert (LL : length (last_n k so) = length (firstn k sn))
      by (rewrite last_n_length, firstn_length_le; lia).
    assert (LREP : length reps = k)
      by (unfold reps; rewrite combine_length, last_n_length, firstn_length_le, Nat.min_id by lia; reflexivity).
    pose proof (accepts_improving _ _ so sn k SO SN ltac:(lia) K A) as IMP.
    fold reps in IMP. destruct IMP as (ND1 & ND2 & IMP).
    rewrite E. cbn [bind].
    set (st1 := apply_reps g ndim reps refl new_f st (s_calls st + g_batch g)).
    assert (I1 : inv n st1).
    { apply apply_reps_inv; [exact I |]. intros (i, j) Hp. cbn [snd].
      destruct (IMP i j Hp) as (_ & Hj & _). destruct SN as (_ & R & _).
      rewrite LR, <- LF. apply R. exact Hj. }
    assert (P1 : forall i, (i < n)%nat -> nth i (s_f st1) 0 <= nth i (s_f st) 0).
    { intros i Hi. unfold st1, apply_reps. cbn [s_f].
      destruct (in_dec Nat.eq_dec i (map fst reps)) as [HI | HI].
      - apply in_map_iff in HI. destruct HI as ((i', j) & EQ & Hij).
        cbn [fst] in EQ. subst i'.
        rewrite (nth_replace_in 0 0 reps new_f (s_f st) i j ND1 Hij) by lia.
        destruct (IMP i j Hij) as (_ & _ & L). lra.
      - rewrite nth_replace_not by exact HI. lra. }
    assert (L1 : length (s_f st1) = n) by apply I1.
    assert (W1 : no_worse (s_f st) (s_f st1))
      by (apply no_worse_pointwise; [lia | intros i Hi; apply P1; lia]).
    destruct (argsort_head_min (s_f st) so (conj SO LO) NE) as (HB1 & HB2).
    rewrite <- BI in HB1, HB2.
    destruct (Nat.eqb_spec (length reps) (g_batch g)) as [EB | NB].
    - exists st1. split; [reflexivity |]. split; [exact I1 |].
      split; [exact W1 |]. split.
      + intros v Hv. change (s_bi st1) with (s_bi st).
        specialize (P1 (s_bi st) ltac:(lia)). specialize (HB2 v Hv). lra.
      + unfold st1, apply_reps. cbn [s_calls]. lia.
    - rewrite LREP in *.
      set (to_mutate := skipn k sn).
      set (to_replace := firstn (length so - k) so).
      assert (LTM : length to_mutate = (g_batch g - k)%nat)
        by (unfold to_mutate; rewrite skipn_length; lia).
      assert (LTR : length to_replace = (length so - k)%nat)
        by (unfold to_replace; apply firstn_length_le; lia).
      assert (STR : sorted_by (s_f st1) to_replace).
      { apply sorted_by_ext with (vals := s_f st);
          [apply sorted_by_firstn; exact SO | lia |].
        intros i Hi. unfold st1, apply_reps. cbn [s_f]. apply nth_replace_not.
        unfold reps. rewrite combine_fst by exact LL. intros HI.
        destruct SO as (NDO & _). rewrite <- (firstn_skipn (length so - k) so) in NDO.
        fold to_replace in NDO. unfold last_n in HI.
        clear - NDO Hi HI. induction to_replace as [| a l IH]; [contradiction |].
        simpl in NDO. inversion NDO as [| ? ? NI N]; subst.
        destruct Hi as [-> | Hi]; [| apply IH; assumption].
        apply NI. apply in_or_app. right. exact HI. }
      set (best := argmin (s_f st1)).
      set (mutated := zipw _ to_mutate (combine (d_wc d) (d_ws d))).
      set (new_f2 := map (fun p => func (make p)) mutated).
      assert (LM : (length mutated <= g_batch g - k)%nat)
        by (unfold mutated; rewrite zipw_length; lia).
      destruct (sort_facts new_f2) as (SN2 & LN2). set (sn2 := argsort new_f2) in *.
      assert (LF2 : length new_f2 = length mutated)
        by (unfold new_f2; apply map_length).
      assert (LE2 : (length sn2 <= length to_replace)%nat) by lia.
      destruct (find_shape (s_f st1) new_f2 to_replace sn2 LE2) as (k2 & K2 & E2 & A2).
      set (reps2 := combine (last_n k2 to_replace) (firstn k2 sn2)) in *.
      assert (LL2 : length (last_n k2 to_replace) = length (firstn k2 sn2))
        by (rewrite last_n_length, firstn_length_le; lia).
      pose proof (accepts_improving _ _ to_replace sn2 k2 STR SN2 ltac:(lia) K2 A2) as IMP2.
      fold reps2 in IMP2. destruct IMP2 as (ND21 & ND22 & IMP2).
      rewrite E2. cbn [bind].
      set (st2 := apply_reps g ndim reps2 mutated new_f2 st1
                    (s_calls st1 + length to_mutate)).
      assert (I2 : inv n st2).
      { apply apply_reps_inv; [exact I1 |]. intros (i, j) Hp. cbn [snd].
        destruct (IMP2 i j Hp) as (_ & Hj & _). destruct SN2 as (_ & R & _).
        rewrite <- LF2. apply R. exact Hj. }
      assert (P2 : forall i, (i < n)%nat -> nth i (s_f st2) 0 <= nth i (s_f st1) 0).
      { intros i Hi. unfold st2, apply_reps. cbn [s_f].
        destruct (in_dec Nat.eq_dec i (map fst reps2)) as [HI | HI].
        - apply in_map_iff in HI. destruct HI as ((i', j) & EQ & Hij).
          cbn [fst] in EQ. subst i'.
          rewrite (nth_replace_in 0 0 reps2 new_f2 (s_f st1) i j ND21 Hij) by lia.
          destruct (IMP2 i j Hij) as (_ & _ & L). lra.
        - rewrite nth_replace_not by exact HI. lra. }
      assert (L2 : length (s_f st2) = n) by apply I2.
      assert (NE1 : s_f st1 <> []) by (intros EE; rewrite EE in L1; simpl in L1; lia).
      destruct (argmin_spec (s_f st1) NE1) as (AM1 & AM2). fold best in AM1, AM2.
      eexists. split; [reflexivity |]. split.
      + destruct I2 as (X1 & X2 & X3 & X4). unfold inv. cbn [s_f s_x s_pts s_bi].
        repeat split; auto. lia.
      + cbn [s_f s_bi s_calls]. split.
        * apply no_worse_trans with (s_f st1); [exact W1 |].
          apply no_worse_pointwise; [lia | intros i Hi; apply P2; lia].
        * split.
          -- intros v Hv. destruct (W1 v Hv) as (w & Hw & Lw).
             specialize (AM2 w Hw). specialize (P2 best ltac:(lia)). lra.
          -- unfold st2, st1, apply_reps. cbn [s_calls]. lia.
  Qed.

  Lemma put_f i p st calls : s_f (put i p st calls) = set_nth i (func (make p)) (s_f st).
  Proof. reflexivity. Qed.

  Definition others (best : nat) (l : list nat) : nat :=
    length (filter (fun a => negb (Nat.eqb a best)) l).

  Lemma others_not best l : ~ In best l -> others best l = length l.
  Proof.
    unfold others. induction l as [| a l IH]; intros H; [reflexivity |]. simpl in *.
    destruct (Nat.eqb_spec a best) as [-> | N]; [tauto |]. simpl. rewrite IH; tauto.
  Qed.

  Lemma others_in best l : NoDup l -> In best l -> S (others best l) = length l.
  Proof.
    induction l as [| a l IH]; intros N H; [contradiction |].
    inversion N as [| ? ? NI N']; subst. unfold others. simpl.
    destruct (Nat.eqb_spec a best) as [-> | NE]; simpl.
    - rewrite <- (others_not best l NI). reflexivity.
    - destruct H as [-> | H]; [congruence |]. rewrite <- IH by assumption. reflexivity.
  Qed.

  Lemma set_nth_beyond {A} i (v : A) l : (length l <= i)%nat -> set_nth i v l = l.
  Proof.
    revert i. induction l as [| a l IH]; intros [| i] H; simpl in *;
      try lia; try reflexivity. f_equal. apply IH. lia.
  Qed.

  Lemma shrink_fold best l : forall n st, inv n st ->
    let st' := fold_left (shrink_one func g ndim best) l st in
    inv n st' /\ nth best (s_f st') 0 = nth best (s_f st) 0 /\
    s_bi st' = s_bi st /\ s_calls st' = (s_calls st + others best l)%nat.
  Proof.
    induction l as [| a l IH]; intros n st I; cbn [fold_left].
    - split; [exact I |]. unfold others. simpl. repeat split; lia.
    - set (st1 := shrink_one func g ndim best st a).
      assert (X : inv n st1 /\ nth best (s_f st1) 0 = nth best (s_f st) 0 /\
                  s_bi st1 = s_bi st /\
                  s_calls st1 = (s_calls st + if Nat.eqb a best then 0 else 1)%nat).
      { unfold st1, shrink_one. destruct (Nat.eqb_spec a best) as [-> | N].
        - split; [exact I |]. repeat split; lia.
        - split; [apply put_inv; exact I |]. split; [| split; reflexivity].
          rewrite put_f. destruct (Nat.lt_ge_cases a (length (s_f st))) as [LA | GA].
          + rewrite nth_set_nth by exact LA.
            destruct (Nat.eqb_spec best a); [congruence | reflexivity].
          + rewrite set_nth_beyond by exact GA. reflexivity. }
      destruct X as (X1 & X2 & X3 & X4).
      destruct (IH n st1 X1) as (A & B & C & D). cbv zeta.
      split; [exact A |]. split; [congruence |]. split; [congruence |].
      rewrite D, X4. unfold others. simpl.
      destruct (Nat.eqb a best); simpl; lia.
  Qed.

  Lemma step_nm_good n st : inv n st -> (2 <= n)%nat ->
    s_bi st = hd 0%nat (argsort (s_f st)) ->
    good_step n (n + 1) st (step_nm func g ndim (argsort (s_f st)) st).
  Proof.
    intros I N2 BI. pose proof I as (IF & IL & IP & IB).
    assert (NE : s_f st <> []) by (intros E; rewrite E in IL; simpl in IL; lia).
    pose proof (Hsort (s_f st)) as AS.
    destruct (argsort_head_min (s_f st) _ AS NE) as (HB1 & HB2).
    rewrite <- BI in HB1, HB2.
    destruct (argsort_worst (s_f st) _ AS ltac:(lia)) as (HW1 & HW2).
    rewrite <- BI in HW2. set (so := argsort (s_f st)) in *.
    assert (PUT : forall p calls, (s_calls st <= calls <= s_calls st + (n + 1))%nat ->
              good_step n (n + 1) st (put (last so 0%nat) p st calls)).
    { intros p calls HC.
      assert (X : nth (s_bi st) (s_f (put (last so 0%nat) p st calls)) 0 =
                  nth (s_bi st) (s_f st) 0).
      { rewrite put_f, nth_set_nth by exact HW1.
        destruct (Nat.eqb_spec (s_bi st) (last so 0%nat)); [congruence | reflexivity]. }
      assert (I' : inv n (put (last so 0%nat) p st calls)) by (apply put_inv; exact I).
      split; [exact I' |]. split.
      - apply no_worse_best with (s_bi st).
        + rewrite put_f, set_nth_length. exact HB1.
        + intros v Hv. rewrite X. auto.
      - split; [| exact HC]. change (s_bi (put (last so 0%nat) p st calls)) with (s_bi st).
        intros v Hv. rewrite X. auto. }
    assert (SHR : good_step n (n + 1) st
              (fold_left (shrink_one func g ndim (s_bi st)) (seq 0 (length (s_pts st)))
                 (mk_state (s_pts st) (s_x st) (s_f st) (s_best st) (s_bi st)
                    (s_noimp st) (s_calls st + 1 + 1) (s_i st)))).
    { set (st1 := mk_state _ _ _ _ _ _ _ _). assert (I1 : inv n st1) by exact I.
      destruct (shrink_fold (s_bi st) (seq 0 (length (s_pts st))) n st1 I1)
        as (A & B & C & D). set (st' := fold_left _ _ _) in *.
      pose proof (others_in (s_bi st) (seq 0 (length (s_pts st)))
                    (seq_NoDup _ _) ltac:(apply in_seq; lia)) as O.
      rewrite seq_length in O. cbn [s_f s_bi s_calls st1] in B, C, D.
      split; [exact A |]. split.
      - apply no_worse_best with (s_bi st);
          [destruct A as (_ & -> & _); lia | intros v Hv; rewrite B; auto].
      - split; [intros v Hv; rewrite C, B; auto | lia]. }
    unfold step_nm. cbv zeta.
    repeat match goal with
    | |- good_step _ _ _ (if ?c then _ else _) => destruct c
    end; try exact SHR; apply PUT; lia.
  Qed.

  Hypothesis Hrnd : forall k, length (d_choice (rnd k)) = g_batch g.

  Lemma note_best_inv n st : inv n st -> (0 < n)%nat ->
    let '(so, st1) := note_best argsort st in
    so = argsort (s_f st1) /\ inv n st1 /\ s_f st1 = s_f st /\
    s_calls st1 = s_calls st /\ s_bi st1 = hd 0%nat so.
  Proof.
    intros (A & B & C & D) N. unfold note_best. cbv zeta.
    assert (NE : s_f st <> []) by (intros E; rewrite E in B; simpl in B; lia).
    destruct (argsort_head_min (s_f st) _ (Hsort _) NE) as (H1 & _).
    destruct (Rltb _ _); unfold inv; cbn [s_f s_x s_pts s_bi s_calls];
      repeat split; auto; lia.
  Qed.

  Definition fits (n : nat) : Prop :=
    g_method g = NelderMead /\ (2 <= n)%nat \/
    g_method g = CRS2 /\ (0 < n)%nat /\ (g_batch g <= n)%nat.

  Lemma step_good n k st : inv n st -> fits n ->
    exists st', step k st = Ok st' /\ good_step n (max_cost g n) st st'.
  Proof.
    intros I F. unfold M_Opt.step, max_cost.
    assert (N : (0 < n)%nat) by (destruct F as [(_ & F) | (_ & F & _)]; lia).
    pose proof (note_best_inv n st I N) as NB.
    destruct (note_best argsort st) as (so, st1).
    destruct NB as (-> & I1 & EF & EC & EB).
    destruct F as [(M & F) | (M & F1 & F2)]; rewrite M.
    - eexists. split; [reflexivity |].
      destruct (step_nm_good n st1 I1 F EB) as (A & B & C & D).
      rewrite EF in A, B, C, D |- *. rewrite EC in D. exact (conj A (conj B (conj C D))).
    - destruct (step_crs_good n (rnd k) st1 I1 F1 (Hrnd k) F2 EB) as (st' & E & A & B & C & D).
      exists st'. split; [exact E |].
      rewrite EF in B, C. rewrite EC in D. exact (conj A (conj B (conj C D))).
  Qed.

  (** ** The loop *)

  (** What the loop guarantees about its result. *)
  Record good_loop (n fuel k : nat) (st : state) (o : outcome) : Prop := {
    gl_vals : o_fvals o = map func (o_xs o);
    gl_len : length (o_xs o) = n;
    gl_in : In (o_x o) (o_xs o);
    gl_fun : o_fun o = func (o_x o);
    gl_worse : no_worse (s_f st) (o_fvals o);
    gl_best : (0 < fuel)%nat -> o_flag o = (-1)%Z \/ (k < o_nit o)%nat ->
              forall v, In v (s_f st) -> o_fun o <= v;
    gl_nit : (k <= o_nit o)%nat \/ fuel = 0%nat;
    gl_steps : (o_flag o = (-1)%Z /\ o_nit o = (k + fuel - 1)%nat) \/
               (0 <= o_flag o <= 3)%Z /\ (o_nit o < k + fuel)%nat;
    gl_calls : forall m, g_max_calls g = Some m -> m <> 0%nat ->
               (o_calls o <= Nat.max (s_calls st) (m - 1 + max_cost g n))%nat;
    gl_total : (o_calls o <= s_calls st + fuel * max_cost g n)%nat;
    gl_flag0 : o_flag o = 0%Z -> exists m, g_max_calls g = Some m /\
               (0 < m <= o_calls o)%nat;
    gl_flag1 : o_flag o = 1%Z -> std (o_fvals o) < g_fstd g }.

  Lemma finish_good n fuel k st flag nit : inv n st -> fits n ->
    flag = (-1)%Z /\ fuel = 0%nat /\ nit = (k - 1)%nat \/
    (0 <= flag <= 3)%Z /\ nit = k /\ (0 < fuel)%nat ->
    (flag = 0%Z -> exists m, g_max_calls g = Some m /\ (0 < m <= s_calls st)%nat) ->
    (flag = 1%Z -> std (s_f st) < g_fstd g) ->
    good_loop n fuel k st (finish flag nit st).
  Proof.
    intros (A & B & C & D) F H F0 F1.
    assert (LX : length (s_x st) = n) by (rewrite <- B, A, map_length; reflexivity).
    constructor; unfold finish;
      cbn [o_fvals o_xs o_x o_fun o_flag o_nit o_calls]; auto; try lia.
    - apply nth_In. lia.
    - rewrite A. rewrite (nth_indep _ 0 (func [])) by (rewrite map_length; lia).
      apply map_nth.
    - apply no_worse_refl.
  Qed.

  Lemma check_flag st f : check g st = Ok (Some f) ->
    (0 <= f <= 3)%Z /\
    (f = 0%Z -> exists m, g_max_calls g = Some m /\ (0 < m <= s_calls st)%nat) /\
    (f = 1%Z -> std (s_f st) < g_fstd g).
  Proof.
    unfold check. unfold limit.
    assert (OTHER : forall f', f' = 2%Z \/ f' = 3%Z -> (0 <= f' <= 3)%Z /\
      (f' = 0%Z -> exists m, g_max_calls g = Some m /\ (0 < m <= s_calls st)%nat) /\
      (f' = 1%Z -> std (s_f st) < g_fstd g)).
    { intros f' H. split; [lia |]. split; intros; lia. }
    destruct (match g_max_calls g with Some m => _ | None => false end) eqn:E0.
    { intros E. injection E as <-. split; [lia |]. split; [| intros; lia].
      intros _. destruct (g_max_calls g) as [m |]; [| discriminate].
      exists m. split; [reflexivity |]. apply andb_prop in E0. destruct E0 as (Z & L).
      apply Nat.leb_le in L. apply negb_true_iff, Nat.eqb_neq in Z. lia. }
    destruct (match g_max_noimp g with Some m => _ | None => false end).
    { intros E. injection E as <-. apply OTHER. auto. }
    destruct (Rltb (std (s_f st)) (g_fstd g)) eqn:E1.
    { intros E. injection E as <-. split; [lia |]. split; [intros; lia |].
      intros _. apply (proj1 (Rltb_true _ _)) in E1. exact E1. }
    intros E. apply OTHER.
    destruct (active (g_cstd g)) as [c |], (active (g_sstd g)) as [s |];
      try discriminate; apply bind_ok in E; destruct E as (cv & _ & E);
      (destruct cv; [injection E as <-; auto | discriminate]).
  Qed.

  Lemma check_calls st m : check g st = Ok None -> g_max_calls g = Some m ->
    m <> 0%nat -> (s_calls st < m)%nat.
  Proof.
    unfold check. intros E M NZ. rewrite M in E. unfold limit at 1 in E.
    rewrite (proj2 (Nat.eqb_neq _ _) NZ) in E. cbn [negb andb] in E.
    destruct (Nat.leb_spec m (s_calls st)); [discriminate | lia].
  Qed.

  Lemma loop_nit fuel : forall k st o, loop fuel k st = Ok o ->
    o_flag o = (-1)%Z \/ (k <= o_nit o)%nat.
  Proof.
    induction fuel as [| fuel IH]; intros k st o E.
    - injection E as <-. left. reflexivity.
    - cbn [M_Opt.loop] in E. apply bind_ok in E. destruct E as ([f |] & _ & E).
      + injection E as <-. right. cbn. lia.
      + apply bind_ok in E. destruct E as (st' & _ & E). apply IH in E. lia.
  Qed.

  Lemma loop_good n fuel : forall k st o, inv n st -> fits n ->
    loop fuel k st = Ok o -> good_loop n fuel k st o.
  Proof.
    induction fuel as [| fuel IH]; intros k st o I F E.
    - injection E as <-. apply finish_good; auto; lia.
    - cbn [M_Opt.loop] in E. apply bind_ok in E. destruct E as (c & EC & E).
      destruct c as [f |].
      + injection E as <-. destruct (check_flag st f EC) as (R & F0 & F1).
        apply finish_good; auto. right. repeat split; lia.
      + destruct (step_good n k st I F) as (st' & ES & I' & W & BEST & C1 & C2).
        rewrite ES in E. cbn [bind] in E.
        pose proof (IH (S k) st' o I' F E) as G. constructor.
        * apply G.
        * apply G.
        * apply G.
        * apply G.
        * apply no_worse_trans with (s_f st'); [exact W | apply G].
        * intros _ H v Hv. destruct fuel as [| fuel].
          -- injection E as <-. unfold finish. cbn [o_fun]. auto.
          -- destruct (W v Hv) as (v' & Hv' & L).
             destruct (gl_steps _ _ _ _ _ G) as [(FL & _) | (FL & NI)].
             ++ pose proof (gl_best _ _ _ _ _ G ltac:(lia) (or_introl FL) v' Hv'). lra.
             ++ destruct (Nat.lt_ge_cases (S k) (o_nit o)) as [L1 | G1].
                ** pose proof (gl_best _ _ _ _ _ G ltac:(lia) (or_intror L1) v' Hv'). lra.
                ** cbn [M_Opt.loop] in E. apply bind_ok in E.
                   destruct E as (c & EC' & E). destruct c as [f |].
                   --- injection E as <-. unfold finish. cbn [o_fun]. auto.
                   --- exfalso. apply bind_ok in E. destruct E as (st2 & ES2 & E).
                       destruct (step_good n (S k) st' I' F) as (st2' & ES2' & I2 & _).
                       rewrite ES2 in ES2'. injection ES2' as <-.
                       apply loop_nit in E. lia.
        * destruct (gl_nit _ _ _ _ _ G) as [L | ->]; [left; lia |].
          destruct (gl_steps _ _ _ _ _ G) as [(_ & L) | (_ & L)]; [left; lia |].
          injection E as <-. left. unfold finish. cbn [o_nit]. lia.
        * destruct (gl_steps _ _ _ _ _ G) as [(L & L') | (L & L')]; [left | right]; lia.
        * intros m M NZ. pose proof (gl_calls _ _ _ _ _ G m M NZ).
          pose proof (check_calls st m EC M NZ). lia.
        * pose proof (gl_total _ _ _ _ _ G). lia.
        * apply G.
        * apply G.
  Qed.

  Lemma init_inv points : points <> [] -> inv (length points) (init_state func g ndim points).
  Proof.
    intros NE. unfold inv, init_state. cbn [s_f s_x s_pts s_bi].
    rewrite !map_length. repeat split. destruct points; [congruence | simpl; lia].
  Qed.

  Lemma assert_length_true o n : assert_length o n = true <->
    (forall th, o = Some th -> length th = n).
  Proof.
    unfold assert_length. destruct o as [l |]; split.
    - intros E th H. injection H as <-. apply Nat.eqb_eq. exact E.
    - intros H. apply Nat.eqb_eq. auto.
    - discriminate.
    - reflexivity.
  Qed.

  Lemma opt_accepted points : accepted g ndim (length points) ->
    spherical_opt func argsort rnd g ndim points =
    loop (g_max_iter g + 1) 0 (init_state func g ndim points).
  Proof.
    intros (M & C & S). unfold spherical_opt.
    apply assert_length_true in C. apply assert_length_true in S. rewrite C, S.
    cbn [negb orb].
    destruct M as [(M & B & N) | (M & B & N)]; rewrite M.
    - assert (X : Nat.ltb 1 (g_batch g) = false) by (apply Nat.ltb_ge; lia).
      rewrite X. cbn [andb]. rewrite N, Nat.eqb_refl. reflexivity.
    - rewrite andb_false_r.
      rewrite (proj2 (Nat.ltb_lt _ _) B), (proj2 (Nat.leb_le _ _) N). reflexivity.
  Qed.

  Lemma opt_ok points o : spherical_opt func argsort rnd g ndim points = Ok o ->
    accepted g ndim (length points).
  Proof.
    unfold spherical_opt, accepted. intros E.
    assert (X : forall c s l (r : result outcome),
      (if negb (assert_length (g_cstd g) c) || negb (assert_length (g_sstd g) s)
       then Err l else r) = Ok o ->
      (forall th, g_cstd g = Some th -> length th = c) /\
      (forall th, g_sstd g = Some th -> length th = s)).
    { intros c s l r H.
      destruct (assert_length (g_cstd g) c) eqn:C; [| discriminate].
      destruct (assert_length (g_sstd g) s) eqn:S; [| discriminate].
      split; apply assert_length_true; assumption. }
    destruct (g_method g); [| | discriminate].
    - destruct (Nat.ltb_spec 1 (g_batch g)) as [B | B]; [discriminate |].
      cbn [andb] in E.
      destruct (Nat.eqb_spec (length points) (ndim + 1)) as [N | N]; [| discriminate].
      cbn [negb] in E. split; [left; auto | eapply X; exact E].
    - rewrite andb_false_r in E.
      destruct (Nat.ltb_spec ndim (length points)) as [B | B]; [| discriminate].
      destruct (Nat.leb_spec (g_batch g * ndim) (length points - 1)) as [N | N];
        [| discriminate].
      cbn [negb orb] in E. split; [right; auto | eapply X; exact E].
  Qed.

  Lemma accepted_fits n : accepted g ndim n -> (0 < ndim)%nat -> fits n.
  Proof.
    intros (M & _) D. destruct M as [(M & B & N) | (M & B & N)];
      [left | right]; (split; [exact M |]).
    - lia.
    - split; [lia |]. nia.
  Qed.

  (** ** Termination without an error *)

  Lemma spher_loop_all_positive th sd ns i c : (forall t, In t th -> 0 < t) ->
    spher_loop th sd ns i c = Ok (c && forallb (fun t => Rltb sd t) th).
  Proof.
    revert c. induction th as [| t th IH]; intros c H; simpl.
    - rewrite andb_true_r. reflexivity.
    - rewrite (proj2 (Rltb_true _ _)) by (apply H; left; reflexivity).
      rewrite IH by (intros u Hu; apply H; right; exact Hu).
      rewrite andb_assoc. reflexivity.
  Qed.

  Lemma some_positive_true l : some_positive l = true <-> exists t, In t l /\ 0 < t.
  Proof.
    unfold some_positive. rewrite existsb_exists. split.
    - intros (t & I & P). exists t. split; [exact I |].
      exact (proj1 (Rltb_true _ _) P).
    - intros (t & I & P). exists t. split; [exact I |].
      exact (proj2 (Rltb_true _ _) P).
  Qed.

  Lemma check_total st : all_directions_checked g -> exists c, check g st = Ok c.
  Proof.
    intros A. unfold check.
    destruct (limit (g_max_calls g) _); [eexists; reflexivity |].
    destruct (limit (g_max_noimp g) _); [eexists; reflexivity |].
    destruct (Rltb _ _); [eexists; reflexivity |].
    assert (X : active (g_sstd g) = None \/ exists th, active (g_sstd g) = Some th /\
                (forall t, In t th -> 0 < t)).
    { unfold active, all_directions_checked in *. destruct (g_sstd g) as [th |]; [| auto].
      destruct (some_positive th) eqn:SP; [| auto]. right. exists th.
      split; [reflexivity |]. destruct A as [A | A]; [exact A |].
      apply some_positive_true in SP. destruct SP as (t & I & P).
      specialize (A t I). lra. }
    destruct X as [-> | (th & -> & P)]; destruct (active (g_cstd g));
      try (eexists; reflexivity); cbn [bind];
      rewrite spher_loop_all_positive by exact P; eexists; reflexivity.
  Qed.

  Lemma loop_total n fuel : forall k st, inv n st -> fits n ->
    all_directions_checked g -> exists o, loop fuel k st = Ok o.
  Proof.
    induction fuel as [| fuel IH]; intros k st I F A; [eexists; reflexivity |].
    cbn [M_Opt.loop]. destruct (check_total st A) as (c & ->). cbn [bind].
    destruct c; [eexists; reflexivity |].
    destruct (step_good n k st I F) as (st' & -> & I' & _). apply IH; assumption.
  Qed.

  Lemma loop_more n fuel : forall j k st o1 o2, inv n st -> fits n ->
    loop fuel k st = Ok o1 -> loop (fuel + j) k st = Ok o2 ->
    no_worse (o_fvals o1) (o_fvals o2).
  Proof.
    induction fuel as [| fuel IH]; intros j k st o1 o2 I F E1 E2.
    - injection E1 as <-. exact (gl_worse _ _ _ _ _ (loop_good n j k st o2 I F E2)).
    - cbn [M_Opt.loop plus] in E1, E2. apply bind_ok in E1. destruct E1 as (c & C & E1).
      rewrite C in E2. cbn [bind] in E2. destruct c as [f |].
      + injection E1 as <-. injection E2 as <-. apply no_worse_refl.
      + apply bind_ok in E1. destruct E1 as (st' & ES & E1). rewrite ES in E2.
        cbn [bind] in E2.
        destruct (step_good n k st I F) as (st'' & S' & I' & _).
        rewrite ES in S'. injection S' as <-. exact (IH j (S k) st' o1 o2 I' F E1 E2).
  Qed.

  (** ** Points and their parts *)

  Definition packed (st : state) : Prop := s_x st = map make (s_pts st).

  Lemma apply_reps_packed reps pts new_f st calls :
    (forall p, In p reps -> (snd p < length pts)%nat) -> packed st ->
    packed (apply_reps g ndim reps pts new_f st calls).
  Proof.
    unfold packed, apply_reps. cbn [s_x s_pts]. intros H ->.
    apply replace_all_map. exact H.
  Qed.

  Lemma put_packed i p st calls : packed st -> packed (put i p st calls).
  Proof.
    unfold packed, M_Opt.put. cbn [s_x s_pts]. intros ->. apply set_nth_map.
  Qed.

  Lemma shrink_packed best l : forall st, packed st ->
    packed (fold_left (shrink_one func g ndim best) l st).
  Proof.
    induction l as [| a l IH]; intros st P; [exact P |]. cbn [fold_left]. apply IH.
    unfold shrink_one. destruct (Nat.eqb a best); [exact P | apply put_packed; exact P].
  Qed.

  Lemma step_nm_packed so st : packed st -> packed (step_nm func g ndim so st).
  Proof.
    intros P. unfold step_nm. cbv zeta.
    repeat match goal with
    | |- packed (if ?c then _ else _) => destruct c
    end; try (apply put_packed; exact P); apply shrink_packed; exact P.
  Qed.

  Lemma reps_in_range old new so reps : (length (argsort new) <= length so)%nat ->
    find_replacements old new so (argsort new) = Ok reps ->
    forall p, In p reps -> (snd p < length new)%nat.
  Proof.
    intros L E (i, j) Hp. cbn [snd].
    destruct (find_shape old new so (argsort new) L) as (k & K & E' & _).
    rewrite E in E'. injection E' as ->.
    apply in_combine_r in Hp. apply in_firstn in Hp.
    destruct (sort_facts new) as ((_ & R & _) & _). apply R. exact Hp.
  Qed.

  Lemma step_crs_packed n d st st' : inv n st -> (g_batch g <= n)%nat ->
    length (d_choice d) = g_batch g -> packed st ->
    step_crs func argsort g ndim d (argsort (s_f st)) st = Ok st' -> packed st'.
  Proof.
    intros I HN HB P. pose proof I as (IF & IL & IP & IB). unfold step_crs.
    set (refl := reflections d st). set (new_f := map _ refl).
    assert (LF : length new_f = g_batch g)
      by (unfold new_f, refl, reflections; rewrite !map_length; exact HB).
    assert (LR : length refl = g_batch g)
      by (unfold refl, reflections; rewrite !map_length; exact HB).
    destruct (sort_facts new_f) as (_ & LN). destruct (sort_facts (s_f st)) as (_ & LO).
    intros E. apply bind_ok in E. destruct E as (reps & ER & E).
    assert (LE : (length (argsort new_f) <= length (argsort (s_f st)))%nat) by lia.
    assert (RNG := reps_in_range _ _ _ _ LE ER).
    assert (P1 : packed (apply_reps g ndim reps refl new_f st (s_calls st + g_batch g))).
    { apply apply_reps_packed; [| exact P]. intros p Hp. specialize (RNG p Hp). lia. }
    set (st1 := apply_reps _ _ _ _ _ _ _) in *.
    destruct (Nat.eqb (length reps) (g_batch g)); [injection E as <-; exact P1 |].
    set (mutated := zipw _ _ _) in E. set (new_f2 := map _ mutated) in E.
    apply bind_ok in E. destruct E as (reps2 & ER2 & E). injection E as <-.
    assert (LM : (length mutated <= g_batch g - length reps)%nat).
    { unfold mutated. rewrite zipw_length, skipn_length. lia. }
    assert (LF2 : length new_f2 = length mutated) by (apply map_length).
    destruct (sort_facts new_f2) as (_ & LN2).
    assert (K : (length reps <= length (argsort (s_f st)))%nat).
    { destruct (find_shape (s_f st) new_f (argsort (s_f st)) (argsort new_f)
                  ltac:(lia)) as (k & Hk & E' & _).
      rewrite ER in E'. injection E' as ->.
      rewrite combine_length, firstn_length. lia. }
    assert (LE2 : (length (argsort new_f2) <=
      length (firstn (length (argsort (s_f st)) - length reps) (argsort (s_f st))))%nat)
      by (rewrite firstn_length_le; lia).
    assert (RNG2 := reps_in_range _ _ _ _ LE2 ER2).
    change (packed (apply_reps g ndim reps2 mutated new_f2 st1
              (s_calls st1 + length (skipn (length reps) (argsort new_f))))).
    apply apply_reps_packed; [| exact P1]. intros p Hp. specialize (RNG2 p Hp). lia.
  Qed.

  Lemma step_packed n k st st' : inv n st -> fits n -> packed st ->
    step k st = Ok st' -> packed st'.
  Proof.
    intros I F P. unfold M_Opt.step.
    assert (N : (0 < n)%nat) by (destruct F as [(_ & F) | (_ & F & _)]; lia).
    pose proof (note_best_inv n st I N) as NB.
    assert (PK : packed (snd (note_best argsort st))).
    { unfold note_best. cbv zeta. cbn [snd]. destruct (Rltb _ _); exact P. }
    destruct (note_best argsort st) as (so, st1). cbn [snd] in PK.
    destruct NB as (-> & I1 & EF & EC & EB).
    destruct F as [(M & F) | (M & F1 & F2)]; rewrite M.
    - intros E. injection E as <-. apply step_nm_packed. exact PK.
    - intros E. eapply step_crs_packed; eauto.
  Qed.

  Lemma loop_converged n fuel : forall k st o, inv n st -> fits n -> packed st ->
    loop fuel k st = Ok o -> o_flag o = 3%Z ->
    exists st', packed st' /\ o_xs o = s_x st' /\
      check g st' = Ok (Some 3%Z).
  Proof.
    induction fuel as [| fuel IH]; intros k st o I F P E FL.
    - injection E as <-. discriminate.
    - cbn [M_Opt.loop] in E. apply bind_ok in E. destruct E as (c & C & E).
      destruct c as [f |].
      + injection E as <-. cbn [o_flag finish] in FL. subst f.
        exists st. auto.
      + apply bind_ok in E. destruct E as (st' & S & E).
        destruct (step_good n k st I F) as (st'' & S' & I' & _).
        rewrite S in S'. injection S' as <-.
        apply (IH (Datatypes.S k) st' o I' F (step_packed n k st st' I F P S) E FL).
  Qed.
End Opt.

Lemma last_pos_spec i l : forall k j, last_pos k i l = Some j ->
  (k <= j)%nat /\ (j - k < length l)%nat /\ nth (j - k) l 0%nat = i.
Proof.
  induction l as [| a l IH]; intros k j E; [discriminate |]. simpl in E.
  destruct (last_pos (S k) i l) as [j' |] eqn:E'.
  - injection E as <-. destruct (IH _ _ E') as (A & B & C). simpl.
    split; [lia |]. split; [lia |]. replace (j' - k)%nat with (S (j' - S k)) by lia.
    exact C.
  - destruct (Nat.eqb_spec a i) as [-> | N]; [| discriminate]. injection E as <-.
    simpl. rewrite Nat.sub_diag. repeat split; lia.
Qed.

Lemma last_pos_none i l : forall k, last_pos k i l = None -> ~ In i l.
Proof.
  induction l as [| a l IH]; intros k E; [intros [] |]. simpl in E.
  destruct (last_pos (S k) i l) eqn:E'; [discriminate |].
  destruct (Nat.eqb_spec a i) as [-> | N]; [discriminate |].
  intros [-> | H]; [congruence |]. exact (IH _ E' H).
Qed.

Lemma in_cartesians ndim sph i : In i (cartesians ndim sph) <->
  (i < ndim)%nat /\ ~ In i (azimuths sph) /\ ~ In i (zeniths sph).
Proof.
  unfold cartesians. rewrite filter_In, in_seq.
  assert (X : existsb (Nat.eqb i) (concat (map (fun p => [fst p; snd p]) sph)) = true <->
              In i (azimuths sph) \/ In i (zeniths sph)).
  { unfold azimuths, zeniths. induction sph as [| (a, b) sph IH]; simpl.
    - split; [discriminate | intros [[] | []]].
    - rewrite !orb_true_iff, !Nat.eqb_eq, IH. intuition auto. }
  destruct (existsb _ _); simpl; split.
  - intros (_ & H). discriminate.
  - intros (_ & A & B). exfalso. tauto.
  - intros ((_ & H) & _). assert (false <> true) by congruence.
    split; [lia |]. tauto.
  - intros (H & _). split; [lia | reflexivity].
Qed.

Lemma insert_perm vals i l : Permutation (i :: l) (insert_idx vals i l).
Proof.
  induction l as [| j l IH]; simpl; [apply Permutation_refl |].
  destruct (Rleb _ _); [apply Permutation_refl |].
  eapply perm_trans; [apply perm_swap | apply perm_skip; exact IH].
Qed.

Lemma insert_sorted vals i l :
  StronglySorted (fun a b => nth a vals 0 <= nth b vals 0) l ->
  StronglySorted (fun a b => nth a vals 0 <= nth b vals 0) (insert_idx vals i l).
Proof.
  induction 1 as [| j l S IH F]; simpl; [repeat constructor |].
  destruct (Rleb _ _) eqn:E.
  - apply (proj1 (Rleb_true _ _)) in E. constructor; [constructor; assumption |].
    constructor; [exact E |]. rewrite Forall_forall in *. intros x Hx.
    specialize (F x Hx). lra.
  - apply (proj1 (Rleb_false _ _)) in E. constructor; [exact IH |].
    rewrite Forall_forall in *. intros x Hx.
    apply (Permutation_in x (Permutation_sym (insert_perm vals i l))) in Hx.
    destruct Hx as [<- | Hx]; [lra | auto].
Qed.

Lemma isort_ok vals : is_argsort vals (isort vals).
Proof.
  assert (P : forall l, Permutation l (fold_right (insert_idx vals) [] l)).
  { induction l as [| a l IH]; [constructor |]. simpl.
    eapply perm_trans; [apply perm_skip; exact IH | apply insert_perm]. }
  assert (Q : forall l, StronglySorted (fun a b => nth a vals 0 <= nth b vals 0)
                          (fold_right (insert_idx vals) [] l)).
  { induction l as [| a l IH]; [constructor | apply insert_sorted, IH]. }
  unfold is_argsort, isort. specialize (P (seq 0 (length vals))). split; [split; [| split] |].
  - apply (Permutation_NoDup P). apply seq_NoDup.
  - intros i Hi. apply (Permutation_in i (Permutation_sym P)), in_seq in Hi. lia.
  - apply Q.
  - rewrite <- (Permutation_length P). apply seq_length.
Qed.

Lemma truncate_lt s th k : 0 <= s -> IZR k - 1 < th <= IZR k ->
  (truncate s < th <-> s < IZR k).
Proof.
  intros P (A & B). unfold truncate. destruct (base_Int_part s) as (C & D). split.
  - intros H. assert (IP : (Int_part s < k)%Z) by (apply lt_IZR; lra).
    assert (IZR (Int_part s) <= IZR (k - 1)) by (apply IZR_le; lia).
    rewrite minus_IZR in H0. lra.
  - intros H. assert (IP : (Int_part s < k)%Z) by (apply lt_IZR; lra).
    assert (IZR (Int_part s) <= IZR (k - 1)) by (apply IZR_le; lia).
    rewrite minus_IZR in H0. lra.
Qed.

Lemma std_nonneg l : 0 <= std l.
Proof. apply sqrt_pos. Qed.

Lemma nth_map_in {A B} (f : A -> B) l i d d' : (i < length l)%nat ->
  nth i (map f l) d = f (nth i l d').
Proof.
  intros H. rewrite (nth_indep _ d (f d')) by (rewrite map_length; exact H).
  apply map_nth.
Qed.

Lemma create_split ndim sph x : length x = ndim ->
  create_x ndim sph (split_point ndim sph x) = x.
Proof.
  intros L. apply nth_ext with (d := 0) (d' := 0).
  { unfold create_x. rewrite map_length, seq_length. auto. }
  intros i Hi. unfold create_x in *. rewrite map_length, seq_length in Hi.
  rewrite (nth_map_in _ _ _ _ 0%nat) by (rewrite seq_length; exact Hi).
  rewrite seq_nth by exact Hi. rewrite Nat.add_0_l. unfold split_point. cbn [ps pc].
  assert (M : forall A (f : nat * nat -> A) (h : A) k j,
    (k < length sph)%nat -> j = nth k sph (0%nat, 0%nat) ->
    nth k (map f sph) h = f j).
  { intros A f h k j Hk ->. apply nth_map_in. exact Hk. }
  destruct (last_pos 0 i (zeniths sph)) as [k |] eqn:Z.
  { destruct (last_pos_spec _ _ _ _ Z) as (_ & B & C). rewrite Nat.sub_0_r in B, C.
    unfold zeniths in B, C. rewrite map_length in B.
    rewrite (M _ _ _ k _ B eq_refl).
    rewrite (M _ snd 0%nat k _ B eq_refl) in C. cbn. rewrite C. reflexivity. }
  destruct (last_pos 0 i (azimuths sph)) as [k |] eqn:Z'.
  { destruct (last_pos_spec _ _ _ _ Z') as (_ & B & C). rewrite Nat.sub_0_r in B, C.
    unfold azimuths in B, C. rewrite map_length in B.
    rewrite (M _ _ _ k _ B eq_refl).
    rewrite (M _ fst 0%nat k _ B eq_refl) in C. cbn. rewrite C. reflexivity. }
  destruct (last_pos 0 i (cartesians ndim sph)) as [k |] eqn:Z''.
  { destruct (last_pos_spec _ _ _ _ Z'') as (_ & B & C). rewrite Nat.sub_0_r in B, C.
    rewrite (nth_map_in _ _ _ _ 0%nat) by exact B. rewrite C. reflexivity. }
  exfalso. apply (last_pos_none _ _ _ Z''). apply in_cartesians.
  split; [exact Hi |]. split; [exact (last_pos_none _ _ _ Z') | exact (last_pos_none _ _ _ Z)].
Qed.

Lemma cartesians_nodup ndim sph : NoDup (cartesians ndim sph).
Proof. apply NoDup_filter, seq_NoDup. Qed.

Lemma last_pos_nodup l : forall b k, NoDup l -> (k < length l)%nat ->
  last_pos b (nth k l 0%nat) l = Some (b + k)%nat.
Proof.
  induction l as [| a l IH]; intros b k N H; [simpl in H; lia |].
  inversion N as [| ? ? NI N']; subst. destruct k as [| k]; simpl.
  - assert (X : last_pos (S b) a l = None).
    { destruct (last_pos (S b) a l) as [j |] eqn:E; [| reflexivity].
      destruct (last_pos_spec _ _ _ _ E) as (_ & B & C).
      exfalso. apply NI. rewrite <- C. apply nth_In. exact B. }
    rewrite X, Nat.eqb_refl. f_equal. lia.
  - rewrite IH by (assumption || (simpl in H; lia)). f_equal. lia.
Qed.

Lemma create_cartesian ndim sph p k : (k < length (cartesians ndim sph))%nat ->
  nth (nth k (cartesians ndim sph) 0%nat) (create_x ndim sph p) 0 = nth k (pc p) 0.
Proof.
  intros H. pose proof (nth_In _ 0%nat H) as I. apply in_cartesians in I.
  set (i := nth k _ 0%nat) in *. destruct I as (L & NA & NZ). unfold create_x.
  rewrite (nth_map_in _ _ _ _ 0%nat) by (rewrite seq_length; exact L).
  rewrite seq_nth by exact L. rewrite Nat.add_0_l.
  destruct (last_pos 0 i (zeniths sph)) as [j |] eqn:E.
  { destruct (last_pos_spec _ _ _ _ E) as (_ & B & C). exfalso. apply NZ.
    rewrite <- C. apply nth_In. exact B. }
  destruct (last_pos 0 i (azimuths sph)) as [j |] eqn:E'.
  { destruct (last_pos_spec _ _ _ _ E') as (_ & B & C). exfalso. apply NA.
    rewrite <- C. apply nth_In. exact B. }
  unfold i. rewrite last_pos_nodup by (apply cartesians_nodup || exact H). reflexivity.
Qed.

Lemma positions_unique a b : StronglySorted lt a -> StronglySorted lt b ->
  (forall i, In i a <-> In i b) -> a = b.
Proof.
  intros SA. revert b. induction SA as [| x a SA IH FA]; intros b SB E.
  - destruct b as [| y b]; [reflexivity |]. destruct (proj2 (E y)). left; reflexivity.
  - destruct SB as [| y b SB FB]; [destruct (proj1 (E x)); left; reflexivity |].
    rewrite Forall_forall in FA, FB.
    assert (x = y).
    { destruct (proj1 (E x) (or_introl eq_refl)) as [H | H]; [auto |].
      destruct (proj2 (E y) (or_introl eq_refl)) as [K | K]; [auto |].
      specialize (FA y K). specialize (FB x H). lia. }
    subst y. f_equal. apply IH; [exact SB |]. intros i. split; intros H.
    + destruct (proj1 (E i) (or_intror H)) as [K | K]; [| exact K].
      specialize (FA i H). lia.
    + destruct (proj2 (E i) (or_intror H)) as [K | K]; [| exact K].
      specialize (FB i H). lia.
Qed.

Lemma cartesians_sorted ndim sph : StronglySorted lt (cartesians ndim sph).
Proof.
  unfold cartesians. assert (S : forall n a, StronglySorted lt (seq a n)).
  { induction n as [| n IH]; intros a; simpl; constructor; [apply IH |].
    rewrite Forall_forall. intros x Hx. apply in_seq in Hx. lia. }
  assert (F : forall l f, StronglySorted lt l -> StronglySorted lt (filter f l)).
  { intros l f H. induction H as [| a l H IH FA]; simpl; [constructor |].
    destruct (f a); [| exact IH]. constructor; [exact IH |].
    rewrite Forall_forall in *. intros x Hx. apply filter_In in Hx.
    apply FA. apply Hx. }
  apply F, S.
Qed.

Lemma positions_cartesians ndim sph c : cartesian_positions ndim sph c ->
  c = cartesians ndim sph.
Proof.
  intros (S & I). apply positions_unique; [exact S | apply cartesians_sorted |].
  intros i. rewrite I, in_cartesians. unfold azimuths, zeniths. split.
  - intros (L & H). split; [exact L |]. split; intros K; apply in_map_iff in K;
      destruct K as (p & E & K); destruct (H p K); congruence.
  - intros (L & A & Z). split; [exact L |]. intros p Hp. split; intros ->.
    + apply A. apply in_map. exact Hp.
    + apply Z. apply in_map. exact Hp.
Qed.
