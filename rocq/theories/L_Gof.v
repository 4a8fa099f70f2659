(** Lemmas for the goodness-of-fit module. *)
From Coq Require Import ZArith Reals Psatz Lia Sorting.Permutation Sorting.Sorted.
From Verif Require Import Py RList M_Trafo M_Reco M_Basis M_Gof S_Gof.
Open Scope R_scope.

(** ** Sorting and searching *)

Lemma insert_perm x l : Permutation (insert x l) (x :: l).
Proof.
  induction l as [| y l IH]; [reflexivity |]. cbn [insert].
  destruct (Rleb x y); [reflexivity |]. rewrite IH. apply perm_swap.
Qed.

Lemma sort_perm l : Permutation (sort l) l.
Proof.
  induction l as [| x l IH]; [reflexivity |]. cbn [sort fold_right].
  rewrite insert_perm. constructor. exact IH.
Qed.

Lemma insert_sorted x l : StronglySorted Rle l -> StronglySorted Rle (insert x l).
Proof.
  induction 1 as [| y l H IH F]; cbn [insert].
  - constructor; constructor.
  - destruct (Rleb x y) eqn:C.
    + apply Rleb_true in C. constructor; [constructor; assumption |].
      constructor; [exact C |]. rewrite Forall_forall in *. intros z Z. specialize (F z Z). lra.
    + apply Rleb_false in C. constructor; [exact IH |].
      rewrite Forall_forall in *. intros z Z.
      apply (Permutation_in _ (insert_perm x l)) in Z. destruct Z as [<- | Z]; [lra | auto].
Qed.

Lemma sort_sorted l : StronglySorted Rle (sort l).
Proof. induction l; [constructor | apply insert_sorted; assumption]. Qed.

Lemma sorted_nth l : StronglySorted Rle l -> forall i j, (i <= j < length l)%nat -> nth i l 0 <= nth j l 0.
Proof.
  induction 1 as [| y l H IH F]; intros i j L; simpl in L; [lia |].
  destruct i, j; try lia; simpl.
  - lra.
  - rewrite Forall_forall in F. apply F, nth_In. lia.
  - apply IH. lia.
Qed.

Lemma nth_sorted l : (forall i j, (i <= j < length l)%nat -> nth i l 0 <= nth j l 0) -> StronglySorted Rle l.
Proof.
  induction l as [| x l IH]; intros H; constructor.
  - apply IH. intros i j L. apply (H (S i) (S j)). simpl. lia.
  - rewrite Forall_forall. intros y Y. apply (In_nth _ _ 0) in Y as (k & K & <-).
    apply (H 0%nat (S k)). simpl. lia.
Qed.

Lemma bisect_spec l v : (forall i j, (i <= j < length l)%nat -> nth i l 0 <= nth j l 0) ->
  forall fuel lo hi, (lo <= hi <= length l)%nat -> (hi - lo <= fuel)%nat ->
  (forall i, (i < lo)%nat -> nth i l 0 < v) ->
  (forall i, (hi <= i < length l)%nat -> v <= nth i l 0) ->
  let k := bisect fuel l v lo hi in
  (k <= length l)%nat /\ (forall i, (i < k)%nat -> nth i l 0 < v) /\
  (forall i, (k <= i < length l)%nat -> v <= nth i l 0).
Proof.
  intros S fuel. induction fuel as [| fuel IH]; intros lo hi L F A B; cbn [bisect].
  - assert (lo = hi) by lia. subst hi. cbv zeta. repeat split; [lia | exact A | exact B].
  - destruct (Nat.ltb lo hi) eqn:C.
    2:{ apply Nat.ltb_ge in C. assert (lo = hi) by lia. subst hi. cbv zeta.
        repeat split; [lia | exact A | exact B]. }
    apply Nat.ltb_lt in C. set (mid := (lo + (hi - lo) / 2)%nat).
    assert (MB : (lo <= mid < hi)%nat).
    { assert (D : ((hi - lo) / 2 < hi - lo)%nat) by (apply Nat.div_lt; lia). unfold mid. lia. }
    clearbody mid. cbv zeta. destruct (Rltb (nth mid l 0) v) eqn:Q.
    + apply Rltb_true in Q. apply IH; [lia | lia | | exact B].
      intros i I. apply Rle_lt_trans with (nth mid l 0); [apply S; lia | exact Q].
    + apply Rltb_false in Q. apply IH; [lia | lia | exact A |].
      intros i I. apply Rle_trans with (nth mid l 0); [exact Q | apply S; lia].
Qed.

Lemma searchsorted_spec l v : StronglySorted Rle l ->
  (searchsorted l v <= length l)%nat /\
  (forall i, (i < searchsorted l v)%nat -> nth i l 0 < v) /\
  (forall i, (searchsorted l v <= i < length l)%nat -> v <= nth i l 0).
Proof.
  intros S. apply (bisect_spec l v (sorted_nth l S)); try lia; intros; lia.
Qed.

Lemma below_split l v : (below l v + not_below l v)%nat = length l.
Proof.
  unfold below, not_below. induction l as [| x l IH]; [reflexivity |]. simpl.
  destruct (Rltb x v); simpl; lia.
Qed.

Lemma filter_all {A} (f : A -> bool) l : (forall x, In x l -> f x = true) -> filter f l = l.
Proof.
  induction l as [| x l IH]; intros H; [reflexivity |]. simpl. rewrite (H x (or_introl eq_refl)).
  f_equal. apply IH. intros y Y. apply H. right. exact Y.
Qed.

Lemma filter_none {A} (f : A -> bool) l : (forall x, In x l -> f x = false) -> filter f l = [].
Proof.
  induction l as [| x l IH]; intros H; [reflexivity |]. simpl. rewrite (H x (or_introl eq_refl)).
  apply IH. intros y Y. apply H. right. exact Y.
Qed.

Lemma searchsorted_below l v : StronglySorted Rle l -> searchsorted l v = below l v.
Proof.
  intros S. destruct (searchsorted_spec l v S) as (K & A & B). set (k := searchsorted l v) in *.
  unfold below. rewrite <- (firstn_skipn k l), filter_app, app_length.
  rewrite filter_all.
  - rewrite filter_none.
    + rewrite firstn_length. simpl. lia.
    + intros x X. apply (In_nth _ _ 0) in X as (i & I & <-). rewrite skipn_length in I.
      rewrite <- (firstn_skipn k l) in B. specialize (B (k + i)%nat).
      rewrite app_nth2 in B by (rewrite firstn_length; lia). rewrite firstn_length in B.
      replace (k + i - Nat.min k (length l))%nat with i in B by lia. apply Rltb_false, B.
      rewrite app_length, firstn_length, skipn_length. lia.
  - intros x X. apply (In_nth _ _ 0) in X as (i & I & <-). rewrite firstn_length in I.
    rewrite <- (firstn_skipn k l) in A. specialize (A i).
    rewrite app_nth1 in A by (rewrite firstn_length; lia). apply Rltb_true, A. lia.
Qed.

Lemma filter_perm {A} (f : A -> bool) l l' : Permutation l l' -> Permutation (filter f l) (filter f l').
Proof.
  induction 1 as [| x l l' P IH | x y l | l l' l'' P1 IH1 P2 IH2]; simpl.
  - constructor.
  - destruct (f x); [constructor; exact IH | exact IH].
  - destruct (f x), (f y); try reflexivity. apply perm_swap.
  - etransitivity; eassumption.
Qed.

Lemma below_perm l l' v : Permutation l l' -> below l v = below l' v.
Proof. intros P. apply Permutation_length, filter_perm, P. Qed.

Lemma compute_below l v : l <> [] ->
  compute_p_value l v = Ok ((Rlen l - INR (below l v)) / Rlen l,
    (Rlen l / 2 - Rabs (Rlen l / 2 - INR (below l v))) / (Rlen l / 2)).
Proof.
  intros N. unfold compute_p_value. rewrite searchsorted_below by apply sort_sorted.
  rewrite (below_perm _ _ v (sort_perm l)). pose proof (Rlen_pos l N).
  rewrite (proj2 (Reqb_false (Rlen l) 0)) by lra. reflexivity.
Qed.

(** ** Cumulative sums *)

Lemma cumsum_from_length a l : length (cumsum_from a l) = length l.
Proof. revert a. induction l; intros a0; simpl; [reflexivity | f_equal; apply IHl]. Qed.

Lemma cumsum_from_nth a l k : (k < length l)%nat ->
  nth k (cumsum_from a l) 0 = a + Rsum (firstn (S k) l).
Proof.
  revert a k. induction l as [| x l IH]; intros a k K; simpl in K; [lia |].
  destruct k as [| k]; cbn [cumsum_from nth].
  - cbn [firstn Rsum fold_right]. ring.
  - rewrite IH by lia. cbn [firstn]. rewrite Rsum_cons. simpl. ring.
Qed.

Lemma cumsum_nth l k : (k < length l)%nat -> nth k (cumsum l) 0 = Rsum (firstn (S k) l).
Proof. intros K. unfold cumsum. rewrite cumsum_from_nth by exact K. ring. Qed.

Lemma set_last_app v l x : set_last v (l ++ [x]) = l ++ [v].
Proof.
  induction l as [| y l IH]; [reflexivity |]. cbn [app set_last].
  destruct (l ++ [x]) eqn:E; [destruct l; discriminate |]. rewrite IH. reflexivity.
Qed.

Lemma set_last_length v l : length (set_last v l) = length l.
Proof.
  induction l as [| x l IH]; [reflexivity |]. cbn [set_last]. destruct l; [reflexivity |].
  cbn [length] in *. f_equal. exact IH.
Qed.

Lemma set_last_nth v l k : (k < length l)%nat ->
  nth k (set_last v l) 0 = if Nat.eqb (S k) (length l) then v else nth k l 0.
Proof.
  revert k. induction l as [| x l IH]; intros k K; simpl in K; [lia |].
  cbn [set_last]. destruct l as [| y l].
  - simpl in K. assert (k = 0)%nat by lia. subst k. reflexivity.
  - destruct k as [| k]; [reflexivity |].
    change (nth (S k) (x :: set_last v (y :: l)) 0) with (nth k (set_last v (y :: l)) 0).
    rewrite IH by (simpl in *; lia). reflexivity.
Qed.

Lemma cum_scale_length l : length (cum_scale l) = length l.
Proof. unfold cum_scale. rewrite set_last_length. apply cumsum_from_length. Qed.

Lemma cum_scale_nth l k : (k < length l)%nat ->
  nth k (cum_scale l) 0 =
  if Nat.eqb (S k) (length l) then 1 + 1 / 100000000 else Rsum (firstn (S k) l).
Proof.
  intros K. unfold cum_scale. rewrite set_last_nth by (unfold cumsum; rewrite cumsum_from_length; exact K).
  unfold cumsum at 1. rewrite cumsum_from_length. rewrite cumsum_nth by exact K. reflexivity.
Qed.

Lemma firstn_sum_mono l i j : Forall (fun x => 0 <= x) l -> (i <= j)%nat ->
  Rsum (firstn i l) <= Rsum (firstn j l).
Proof.
  intros F. revert i j. induction F as [| x l X F IH]; intros i j L.
  - rewrite !firstn_nil. lra.
  - destruct i as [| i].
    + cbn [firstn]. change (Rsum []) with 0. apply Rsum_nonneg. rewrite Forall_forall.
      intros y Y. pose proof (Forall_forall (fun x => 0 <= x) (x :: l)) as (FF & _).
      apply FF; [constructor; assumption |].
      rewrite <- (firstn_skipn j (x :: l)). apply in_or_app. left. exact Y.
    + destruct j as [| j]; [lia |]. cbn [firstn]. rewrite !Rsum_cons. specialize (IH i j ltac:(lia)). lra.
Qed.

(** Scales that add up to one, up to the last one *)
Lemma cum_scale_sorted l : Forall (fun x => 0 <= x) l -> Rsum l <= 1 -> StronglySorted Rle (cum_scale l).
Proof.
  intros F T. apply nth_sorted. intros i j (I & J). rewrite cum_scale_length in J.
  rewrite !cum_scale_nth by lia.
  assert (B : forall k, Rsum (firstn k l) <= 1).
  { intros k. apply Rle_trans with (Rsum (firstn (Nat.max k (length l)) l)).
    - apply firstn_sum_mono; [exact F | lia].
    - rewrite firstn_all2 by lia. exact T. }
  destruct (Nat.eqb (S i) (length l)) eqn:EI, (Nat.eqb (S j) (length l)) eqn:EJ.
  - lra.
  - apply Nat.eqb_eq in EI. apply Nat.eqb_neq in EJ. lia.
  - specialize (B (S i)). lra.
  - apply firstn_sum_mono; [exact F | lia].
Qed.

(** ** Pulses of a DOM *)

Lemma pulse_times_length cum mu sigma r erfinv t0 us ts :
  pulse_times erfinv cum mu sigma r t0 us = Ok ts -> length ts = length us.
Proof.
  revert ts. induction us as [| u us IH]; intros ts; cbn [pulse_times].
  - intros [= <-]. reflexivity.
  - destruct (pulse_time _ _ _ _ _ _ u); [| discriminate]. cbn [bind].
    destruct (pulse_times _ _ _ _ _ _ us); [| discriminate]. cbn [bind]. intros [= <-].
    simpl. f_equal. apply IH. reflexivity.
Qed.

Lemma map_nth_all (l : list R) : map (fun k => nth k l 0) (seq 0 (length l)) = l.
Proof.
  induction l as [| x l IH]; [reflexivity |].
  change (seq 0 (length (x :: l))) with (0%nat :: seq 1 (length l)).
  rewrite <- seq_shift, map_cons, map_map. f_equal. exact IH.
Qed.

Lemma map_nth_perm (l : list R) idx : Permutation idx (seq 0 (length l)) ->
  Permutation (map (fun k => nth k l 0) idx) l.
Proof.
  intros P. apply (Permutation_map (fun k => nth k l 0)) in P. rewrite map_nth_all in P. exact P.
Qed.

Lemma map_nth_sorted (l : list R) idx : StronglySorted (fun i j => nth i l 0 <= nth j l 0) idx ->
  StronglySorted Rle (map (fun k => nth k l 0) idx).
Proof.
  induction 1 as [| i idx H IH F]; simpl; constructor; [exact IH |].
  rewrite Forall_map. exact F.
Qed.

Lemma combine_fst {A B} (a : list A) (b : list B) : length a = length b -> map fst (combine a b) = a.
Proof. revert b. induction a; intros [| y b] H; simpl in *; try lia; [reflexivity | f_equal; apply IHa; lia]. Qed.
Lemma combine_snd {A B} (a : list A) (b : list B) : length a = length b -> map snd (combine a b) = b.
Proof. revert b. induction a; intros [| y b] H; simpl in *; try lia; [reflexivity | f_equal; apply IHa; lia]. Qed.

Lemma map_const_eq {A B C} (c : C) (a : list A) (b : list B) : length a = length b ->
  map (fun _ => c) a = map (fun _ => c) b.
Proof. revert b. induction a; intros [| y b] H; simpl in *; try lia; [reflexivity | f_equal; apply IHa; lia]. Qed.

Definition thirds (rows : list prow) : list (option R) := map M_Pulse.r_third rows.

Lemma dom_pulses_spec dc du erfinv argsort n cum mu sigma r t0 s o (q : bool) rows ids :
  IsArgsort argsort -> UniformCharges dc -> UniformPairs du ->
  dom_pulses dc du erfinv argsort n cum mu sigma r t0 s o q = Ok (rows, ids) ->
  length rows = n /\ ids = repeat (0%Z, Z.of_nat s, Z.of_nat o) n /\
  Rsum (charges rows) = INR n /\ Forall (fun c => 0 < c) (charges rows) /\
  StronglySorted Rle (times rows) /\
  thirds rows = if q then map (fun c => Some (c / INR n)) (cumsum (charges rows))
                else map (fun _ => None) rows.
Proof.
  intros IA UC UP. unfold dom_pulses. destruct (Nat.eqb n 0) eqn:N.
  { apply Nat.eqb_eq in N. subst n. intros [= <- <-]. repeat split; try constructor.
    destruct q; reflexivity. }
  apply Nat.eqb_neq in N. destruct (UC s o n) as (LC & FC). destruct (UP s o n) as (LU & FU).
  set (drawn := dc s o n) in *.
  destruct (pulse_times _ _ _ _ _ _ _) as [ts |] eqn:PT; [| discriminate]. cbn [bind]. cbv zeta.
  apply pulse_times_length in PT. rewrite LU in PT.
  destruct (IA ts) as (P & SS). rewrite PT in P.
  set (idx := argsort ts) in *.
  set (raw := map (fun c => c * (INR n / Rsum drawn)) drawn).
  assert (LR : length raw = n) by (unfold raw; rewrite map_length; exact LC).
  assert (LI : length idx = n) by (rewrite (Permutation_length P); apply seq_length).
  set (cs := map (fun k => nth k raw 0) idx). set (tt := map (fun k => nth k ts 0) idx).
  assert (LCS : length cs = n) by (unfold cs; rewrite map_length; exact LI).
  assert (LTT : length tt = n) by (unfold tt; rewrite map_length; exact LI).
  assert (SP : 0 < Rsum drawn).
  { destruct drawn as [| d0 drawn']; [simpl in LC; lia |]. inversion FC as [| ? ? X Y].
    rewrite Rsum_cons. assert (0 <= Rsum drawn').
    { apply Rsum_nonneg. rewrite Forall_forall in *. intros z Z. specialize (Y z Z). simpl in Y. lra. }
    lra. }
  assert (NP : 0 < INR n) by (apply lt_0_INR; lia).
  assert (PCS : Permutation cs raw) by (unfold cs; apply map_nth_perm; rewrite LR; exact P).
  assert (RS : Rsum raw = INR n).
  { unfold raw. rewrite (Rsum_map_ext _ (fun c => INR n / Rsum drawn * c)) by (intros; ring).
    rewrite Rsum_map_scal, map_id. field. lra. }
  assert (RC : Rsum cs = INR n) by (rewrite (Rsum_perm _ _ PCS); exact RS).
  set (th := if q then map (fun c => Some (c / Rsum cs)) (cumsum cs) else map (fun _ => None) cs).
  assert (LTH : length th = n).
  { unfold th. destruct q; rewrite map_length; [unfold cumsum; rewrite cumsum_from_length |]; exact LCS. }
  intros [= <- <-].
  assert (L1 : length (combine cs tt) = n) by (rewrite combine_length; lia).
  assert (L2 : length (combine (combine cs tt) th) = n) by (rewrite combine_length; lia).
  set (rows := map _ (combine (combine cs tt) th)).
  assert (EC : charges rows = cs).
  { unfold charges, rows. rewrite map_map. simpl.
    rewrite <- (map_map fst fst (combine (combine cs tt) th)).
    rewrite combine_fst by lia. apply combine_fst. lia. }
  assert (ET : times rows = tt).
  { unfold times, rows. rewrite map_map. simpl.
    rewrite <- (map_map fst snd (combine (combine cs tt) th)).
    rewrite combine_fst by lia. apply combine_snd. lia. }
  assert (EH : thirds rows = th).
  { unfold thirds, rows. rewrite map_map. simpl. apply combine_snd. lia. }
  assert (LW : length rows = n) by (unfold rows; rewrite map_length; exact L2).
  rewrite EC, ET, EH. split; [exact LW |]. split; [reflexivity |]. split; [exact RC |].
  split.
  - apply (Permutation_Forall (Permutation_sym PCS)). unfold raw. rewrite Forall_map.
    rewrite Forall_forall in *. intros c C. specialize (FC c C).
    apply Rmult_lt_0_compat; [lra | apply Rdiv_lt_0_compat; assumption].
  - split; [apply map_nth_sorted; exact SS |].
    unfold th. destruct q; [rewrite RC; reflexivity |].
    apply map_const_eq. lia.
Qed.

(** ** Pulses of all DOMs *)

Lemma combine_app {A B} (a a' : list A) (b b' : list B) : length a = length b ->
  combine (a ++ a') (b ++ b') = combine a b ++ combine a' b'.
Proof.
  revert b. induction a; intros [| y b] H; simpl in *; try lia; [reflexivity | f_equal; apply IHa; lia].
Qed.

Lemma pulses_of_app s o ids ids' rows rows' : length ids = length rows ->
  pulses_of s o (ids ++ ids') (rows ++ rows') = pulses_of s o ids rows ++ pulses_of s o ids' rows'.
Proof. intros L. unfold pulses_of. rewrite combine_app by exact L. rewrite filter_app. apply map_app. Qed.

Lemma pulses_of_repeat s o s' o' n rows : length rows = n ->
  pulses_of s o (repeat (0%Z, Z.of_nat s', Z.of_nat o') n) rows =
  if Nat.eqb s' s && Nat.eqb o' o then rows else [].
Proof.
  intros <-. unfold pulses_of. destruct (Nat.eqb s' s && Nat.eqb o' o)%bool eqn:C.
  - apply andb_prop in C as (C1 & C2). apply Nat.eqb_eq in C1, C2. subst s' o'.
    rewrite filter_all.
    + apply combine_snd. apply repeat_length.
    + intros (i & w) I. apply in_combine_l in I. apply repeat_spec in I. subst i. simpl.
      rewrite !Z.eqb_refl. reflexivity.
  - rewrite filter_none; [reflexivity |]. intros (i & w) I. apply in_combine_l in I.
    apply repeat_spec in I. subst i. simpl.
    destruct (Z.eqb_spec (Z.of_nat s') (Z.of_nat s)) as [E1 |]; [| reflexivity].
    destruct (Z.eqb_spec (Z.of_nat o') (Z.of_nat o)) as [E2 |]; [| reflexivity].
    apply Nat2Z.inj in E1, E2. subst. rewrite !Nat.eqb_refl in C. discriminate.
Qed.

Lemma pulses_of_none s o ids rows :
  ~ In (0%Z, Z.of_nat s, Z.of_nat o) ids -> pulses_of s o ids rows = [].
Proof.
  intros N. unfold pulses_of. rewrite filter_none; [reflexivity |].
  intros (((e & s') & o') & w) I. apply in_combine_l in I. simpl.
  destruct (Z.eqb_spec e 0) as [-> |]; [| reflexivity].
  destruct (Z.eqb_spec s' (Z.of_nat s)) as [-> |]; [| reflexivity].
  destruct (Z.eqb_spec o' (Z.of_nat o)) as [-> |]; [| reflexivity]. contradiction.
Qed.

Lemma all_pulses_spec dc du erfinv argsort num_pe l t0 (q : bool) :
  IsArgsort argsort -> UniformCharges dc -> UniformPairs du ->
  forall ds rows ids, NoDup ds ->
  all_pulses dc du erfinv argsort ds num_pe l t0 q = Ok (rows, ids) ->
  length rows = length ids /\
  (forall i, In i ids -> exists s o, In (s, o) ds /\ i = (0%Z, Z.of_nat s, Z.of_nat o) /\
                                     (0 < num_pe s o)%nat) /\
  forall s o, In (s, o) ds -> exists ids',
    dom_pulses dc du erfinv argsort (num_pe s o) (cum_scale (l_scale l s o)) (l_mu l s o)
      (l_sigma l s o) (l_r l s o) t0 s o q = Ok (pulses_of s o ids rows, ids').
Proof.
  intros IA UC UP. induction ds as [| (s0 & o0) ds IH]; intros rows ids ND; cbn [all_pulses].
  - intros [= <- <-]. split; [reflexivity |]. split; intros ? F; contradiction.
  - destruct (dom_pulses _ _ _ _ _ _ _ _ _ _ _ _ _) as [(rows1 & ids1) |] eqn:D; [| discriminate].
    cbn [bind]. destruct (all_pulses _ _ _ _ ds _ _ _ _) as [(rows2 & ids2) |] eqn:AP; [| discriminate].
    cbn [bind]. intros [= <- <-]. inversion ND as [| ? ? NI ND']. subst.
    destruct (IH rows2 ids2 ND' eq_refl) as (L2 & I2 & P2).
    destruct (dom_pulses_spec _ _ _ _ _ _ _ _ _ _ _ _ _ _ _ IA UC UP D) as (L1 & E1 & _).
    assert (L1' : length ids1 = length rows1) by (rewrite E1, repeat_length; symmetry; exact L1).
    split; [rewrite !app_length; lia |]. split.
    + intros i I. apply in_app_or in I as [I | I].
      * exists s0, o0. rewrite E1 in I. split; [left; reflexivity |].
        split; [apply repeat_spec in I; exact I |].
        destruct (num_pe s0 o0); [simpl in I; contradiction | lia].
      * destruct (I2 i I) as (s & o & A & B & C). exists s, o. split; [right; exact A |]. split; assumption.
    + intros s o I. rewrite pulses_of_app by exact L1'. rewrite E1, pulses_of_repeat by exact L1.
      destruct I as [[= <- <-] | I].
      * rewrite !Nat.eqb_refl. cbn [andb]. rewrite pulses_of_none.
        -- rewrite app_nil_r. exists ids1. exact D.
        -- intros J. destruct (I2 _ J) as (s & o & A & B & _). injection B as B1 B2.
           apply Nat2Z.inj in B1, B2. subst. contradiction.
      * destruct (Nat.eqb s0 s && Nat.eqb o0 o)%bool eqn:C.
        { apply andb_prop in C as (C1 & C2). apply Nat.eqb_eq in C1, C2. subst. contradiction. }
        simpl. apply P2. exact I.
Qed.

Lemma doms_in s o : In (s, o) doms <-> (s < 86)%nat /\ (o < 60)%nat.
Proof. unfold doms. rewrite in_prod_iff, !in_seq. lia. Qed.

Lemma NoDup_app_intro {A} (a b : list A) :
  NoDup a -> NoDup b -> (forall x, In x a -> In x b -> False) -> NoDup (a ++ b).
Proof.
  intros NA NB D. induction NA as [| x a NI NA IH]; [exact NB |]. simpl. constructor.
  - rewrite in_app_iff. intros [I | I]; [contradiction | apply (D x); [left; reflexivity | exact I]].
  - apply IH. intros y I J. apply (D y); [right; exact I | exact J].
Qed.

Lemma doms_nodup : NoDup doms.
Proof.
  unfold doms. generalize (seq_NoDup 86 0) (seq_NoDup 60 0). generalize (seq 0 86) (seq 0 60).
  intros a b NA NB. induction NA as [| x a NI NA IH]; [constructor |]. simpl.
  apply NoDup_app_intro; [| exact IH |].
  - clear - NB. induction NB as [| y b N1 N2 IH]; simpl; constructor; [| exact IH].
    rewrite in_map_iff. intros (z & E & Z). assert (z = y) by congruence. subst z. contradiction.
  - intros w I J. apply in_map_iff in I as (z & <- & Z).
    apply in_prod_iff in J as (J & _). contradiction.
Qed.

Lemma set_item_ok {A} i (v : A) l l' : set_item i v l = Ok l' ->
  (i < length l)%nat /\ length l' = length l /\
  forall k, nth_error l' k = if Nat.eqb k i then Some v else nth_error l k.
Proof.
  revert i l'. induction l as [| x l IH]; intros i l'; (destruct i as [| i]; cbn [set_item]); try discriminate.
  - intros [= <-]. split; [simpl; lia |]. split; [reflexivity |]. intros [| k]; reflexivity.
  - destruct (set_item i v l) as [l'' |] eqn:E; [| discriminate]. cbn [bind]. intros [= <-].
    destruct (IH i l'' E) as (A1 & A2 & A3). split; [simpl; lia |]. split; [simpl; lia |].
    intros [| k]; [reflexivity |]. simpl. apply A3.
Qed.

Lemma set_item_total {A} i (v : A) l : (i < length l)%nat -> exists l', set_item i v l = Ok l'.
Proof.
  revert i. induction l as [| x l IH]; intros i L; simpl in L; [lia |]. destruct i as [| i].
  - eexists. reflexivity.
  - destruct (IH i ltac:(lia)) as (l' & E). cbn [set_item]. rewrite E. eexists. reflexivity.
Qed.
