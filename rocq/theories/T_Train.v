(** Properties of training: C28, C29, C56, C57, C60 and C66. *)
From Coq Require Import Sorting.Sorted Reals Lra Decimal.
From Verif Require Import Py PyFacts PyStr RList M_Checkpoint S_Checkpoint L_Checkpoint L_Crash T_Checkpoint M_Train S_Train L_Train.
Open Scope nat_scope.

Section Loop.
Variable B : Type.
Variable nan : nat -> bool.
Implicit Types (s : list B * list B) (tr : list (event B)).

(** A run over [n] iterations that succeeds does [n] updates and ends with a
    protected save that records [n - 1] steps.  The other saves are those at the
    positive multiples of the frequency below [n]; a save that records [c] steps
    comes after [c + 1] updates. *)
Theorem C28_saves o n s tr s' : train nan o n s = (tr, Ok s') ->
  updates tr = n /\ increments tr = n /\
  (exists p, tr = p ++ [Save (n - 1) true] /\ ~ In (Save (n - 1) true) p) /\
  (forall c, In (Save c false) tr <-> 0 < c < n /\ exists j, c = j * o_save o) /\
  (forall c, In (Save c true) tr <-> c = n - 1) /\
  forall p c fin q, tr = p ++ Save c fin :: q -> updates p = S c.
Proof.
  intros H. destruct (train_annot B nan o n s tr s' H) as (HA & HU & HI & _ & _ & Hz).
  destruct (train_ok B nan o n s tr s' H) as (m & parts & -> & Etr & HF & _).
  assert (HIN : forall c f v, In (c, f, v) (annot B 0 tr) <->
    (0 < c < S m /\ (exists j, c = j * o_save o) /\ f = false /\ v = S c) \/ (c = m /\ f = true /\ v = S m)).
  { intros c f v. rewrite HA, in_app_iff, in_flat_map. cbn [Nat.sub In]. rewrite Nat.sub_0_r. split.
    - intros [(x & Hx & HX)|[HX|[]]]; [|injection HX as <- <- <-; right; auto]. left. apply in_seq in Hx.
      destruct (saves o x) eqn:E; [|destruct HX]. destruct HX as [HX|[]]. injection HX as <- <- <-. apply (saves_iff o x Hz) in E. split; [lia|]. tauto.
    - intros [(H1 & H2 & -> & ->)|(-> & -> & ->)]; [|right; auto]. left. exists c. split; [apply in_seq; lia|].
      rewrite (proj2 (saves_iff o c Hz)) by (split; [lia|exact H2]). left. reflexivity. }
  assert (HSV : forall c f, In (Save c f) tr <-> exists v, In (c, f, v) (annot B 0 tr)).
  { intros c f. split.
    - intros HX. apply in_split in HX. destruct HX as (p & q & E). exists (0 + updates p). eapply annot_in. exact E.
    - intros (v & HX). apply annot_save in HX. destruct HX as (p & q & -> & _). apply in_elt. }
  split; [exact HU|]. split; [exact HI|]. split.
  - exists (Start :: concat parts). cbn [Nat.sub]. rewrite Nat.sub_0_r. split; [exact Etr|]. intros HX.
    apply in_split in HX. destruct HX as (p & q & E).
    assert (HX : In (m, true, 0 + updates p) (annot B 0 (Start :: concat parts))) by (eapply annot_in; exact E).
    cbn [annot] in HX. rewrite (parts_annot B o _ _ _ HF) in HX. apply in_flat_map in HX. destruct HX as (x & _ & HX).
    destruct (saves o x); [destruct HX as [HX|[]]; discriminate|destruct HX].
  - split; [|split].
    + intros c. rewrite HSV. split.
      * intros (v & HX). apply HIN in HX. destruct HX as [HX|(_ & HX & _)]; [tauto|discriminate].
      * intros [H1 H2]. exists (S c). apply HIN. left. auto.
    + intros c. rewrite HSV. cbn [Nat.sub]. rewrite Nat.sub_0_r. split.
      * intros (v & HX). apply HIN in HX. destruct HX as [(_ & _ & HX & _)|(HX & _)]; [discriminate|exact HX].
      * intros ->. exists (S m). apply HIN. right. auto.
    + intros p c fin q E. pose proof (annot_in B tr p c fin q 0 E) as HX. apply HIN in HX.
      destruct HX as [(_ & _ & _ & HX)|(-> & _ & HX)]; exact HX.
Qed.

(** A run succeeds iff there is an iteration, the frequencies are positive, the
    losses are finite where they are checked and the datasets are long enough:
    every check uses one more batch of training data, every call of the
    evaluation module another one. *)
Theorem C28_success o n s : (exists tr s', train nan o n s = (tr, Ok s')) <->
  (n <> 0 /\ o_val o <> 0 /\ o_eval o <> 0 /\ o_save o <> 0 /\
   n + ceil_div n (o_val o) + (if o_module o then ceil_div n (o_eval o) else 0) <= length (fst s) /\
   ceil_div n (o_val o) <= length (snd s) /\
   (forall k, k < n -> k mod o_val o = 0 -> nan k = false)).
Proof. apply train_runs. Qed.

(** Without an iteration the run fails after the first checkpoint. *)
Theorem C28_no_iteration o s : train nan o 0 s = ([Start], Err UnboundLocalError).
Proof. reflexivity. Qed.

Lemma loop_app o ks ks' : forall s, loop nan o (ks ++ ks') s = andthen (loop nan o ks s) (loop nan o ks').
Proof.
  induction ks as [|k ks IH]; intros s; cbn [app loop].
  - cbn [andthen]. destruct (loop nan o ks' s); reflexivity.
  - destruct (body nan o k s) as [t1 [s1|]]; cbn [andthen]; [|reflexivity]. rewrite IH.
    destruct (loop nan o ks s1) as [t2 [s2|]]; cbn [andthen]; [|reflexivity].
    destruct (loop nan o ks' s2) as [t3 r]. rewrite app_assoc. reflexivity.
Qed.

(** If a run over [k] iterations uses up the training data, any longer run does
    the same and then raises StopIteration, after counting a step it did not
    do. *)
Theorem C28_exhausted o k n s tr v : train nan o k s = (tr ++ [Save (k - 1) true], Ok ([], v)) -> k < n ->
  train nan o n s = (tr ++ [Inc], Err StopIteration) /\ increments (tr ++ [Inc]) = S k /\ updates (tr ++ [Inc]) = k.
Proof.
  intros H Hn. destruct (C28_saves _ _ _ _ _ H) as (HU & HI & _). split.
  - unfold train in *. cbn [andthen] in *. destruct k as [|k].
    { cbn [loop seq andthen] in H. discriminate. }
    destruct (loop nan o (seq 0 (S k)) s) as [t1 [s1|]] eqn:E; cbn [andthen] in H; [|discriminate].
    injection H as H1 H2. subst s1.
    replace n with (S k + (n - S k)) at 1 by lia. rewrite seq_app, loop_app, E. cbn [andthen Nat.add].
    destruct (n - S k) as [|m] eqn:Em; [lia|]. cbn [seq loop].
    unfold body. unfold do_update. cbn [fst next andthen]. 
    assert (HT : Start :: t1 = tr).
    { change (Start :: t1 ++ [Save k true]) with ((Start :: t1) ++ [Save k true]) in H1. replace (S k - 1) with k in H1 by lia.
      apply app_inj_tail in H1. apply H1. }
    rewrite <- HT. reflexivity.
  - unfold increments, updates in *. rewrite !filter_app, !app_length in *. cbn [filter length] in *. lia.
Qed.

(** Which data is used: validation losses use up the validation data in order;
    updates, training losses and the evaluation module together use up the
    training data in order, whether or not the run fails. *)
Theorem C66_data o n s : let tr := fst (train nan o n s) in
  exists t v, fst s = other_batches tr ++ t /\ snd s = val_batches tr ++ v /\
    forall s', snd (train nan o n s) = Ok s' -> s' = (t, v).
Proof.
  cbv zeta. destruct (consumes_train B nan o n s) as (t & v & H1 & H2 & H3). exists t, v. split; [exact H1|]. split; [exact H2|].
  intros s' E. rewrite E in H3. exact H3.
Qed.

(** In particular the evaluation module never sees validation data. *)
Theorem C66_evaluation o n s b : In b (eval_batches (fst (train nan o n s))) -> In b (fst s).
Proof.
  destruct (consumes_train B nan o n s) as (t & v & -> & _). intros H. apply in_or_app. left.
  unfold eval_batches in H. apply in_flat_map in H. destruct H as (e & He & Hb). apply in_flat_map. exists e. split; [exact He|].
  destruct e; cbn in Hb |- *; tauto.
Qed.

Variable W : Type.
Variable df : nat -> bool.
Variable w : nat -> W.

(** The directory of a model after a successful run that starts from any
    directory with complete saves: the run is the newest training step, recorded
    with one step less than done, and loading gives the values after all
    updates. *)
Theorem C28_recorded o n s tr s' h k d cs : train nan o n s = (tr, Ok s') ->
  Hist df h d -> THist df k d -> (forall c, In c cs -> snd c = None) ->
  exists d' t, execute df w cs tr d = Ok (d', n) /\ d_train d' = Some (Some t) /\ t_latest t = S k /\
    nget (S k) (t_steps t) = Some (n - 1) /\ load_weights d' None = Ok (w n).
Proof.
  intros H HH HT HC. destruct (train_annot B nan o n s tr s' H) as (_ & HU & _).
  destruct (train_ok B nan o n s tr s' H) as (m & parts & -> & -> & HF & _).
  unfold execute. cbn [fold_left].
  destruct (execute_start B W df w h d k cs HH HT HC) as (h1 & d1 & -> & HH1 & HT1).
  rewrite fold_left_app. cbn [fold_left].
  assert (HN : Forall (no_start B) (concat parts)).
  { clear -HF nan. induction HF as [|x p ks ps HP HF IH]; [constructor|]. cbn [concat]. apply Forall_app. split; [eapply part_no_start; [exact nan|exact HP]|exact IH]. }
  destruct (execute_ok B W df w cs (concat parts) HN h1 d1 (S k) 0 HH1 HT1) as (h2 & d2 & -> & HH2 & HT2); [lia|].
  rewrite (parts_updates B o _ _ HF), seq_length. cbn [Nat.add].
  destruct (execute_save B W df w h2 d2 (S k) m true (S m) cs HH2 HT2) as (d3 & e & t & -> & HH3 & _ & EW & EP & _ & ET & EL & EN); [lia|].
  exists d3, t. split; [reflexivity|]. split; [exact ET|]. split; [exact EL|]. cbn [Nat.sub]. rewrite Nat.sub_0_r. split; [exact EN|].
  rewrite <- EW. eapply C25_latest; [exact HH3|]. left. exact EP.
Qed.

End Loop.

(** ** Learning rate *)
Section Rate.
Variable L : Type.

(** Every step lies in an interval. *)
Theorem C29_interval (b : list Z) step : exists i start, InInterval b i start step.
Proof. apply interval_exists. Qed.

(** If every pass of the loop has its own variables, the rate is that of the
    schedule of the interval. *)
Theorem C29_own_variables b (sch : list (Z -> L)) i start step s : lr_init b sch = Ok (b, sch) -> 2 <= length sch -> StronglySorted Z.lt b ->
  InInterval b i start step -> nth_error sch i = Some s -> lr_call false (b, sch) step = Ok (s (step - start)%Z).
Proof.
  intros HI Hl HS HIn Hs. unfold lr_init in HI. destruct (Nat.eqb_spec (length b) (length sch - 1)) as [El|]; [|discriminate].
  assert (Hb : b <> []) by (destruct b; [cbn in El; lia|discriminate]).
  rewrite (lr_call_eq L false b sch s i start step) by (assumption || lia). rewrite (nth_error_nth _ _ _ Hs), orb_true_r. reflexivity.
Qed.

(** Up to three schedules this holds in any case. *)
Theorem C29_three late b (sch : list (Z -> L)) i start step s : lr_init b sch = Ok (b, sch) -> 2 <= length sch <= 3 -> StronglySorted Z.lt b ->
  InInterval b i start step -> nth_error sch i = Some s -> lr_call late (b, sch) step = Ok (s (step - start)%Z).
Proof.
  intros HI Hl HS HIn Hs. unfold lr_init in HI. destruct (Nat.eqb_spec (length b) (length sch - 1)) as [El|]; [|discriminate].
  assert (Hb : b <> []) by (destruct b; [cbn in El; lia|discriminate]).
  rewrite (lr_call_eq L late b sch s i start step) by (assumption || lia). rewrite (nth_error_nth _ _ _ Hs).
  destruct late; [|rewrite orb_true_r; reflexivity]. rewrite orb_false_r.
  destruct (Nat.eqb_spec i 0) as [->|H0]; [reflexivity|]. destruct (Nat.eqb_spec i (length b)) as [->|H1]; [reflexivity|]. cbn [orb].
  pose proof (interval_pred b i start step HS Hb HIn) as (_ & _ & _ & Hi). destruct HIn as [HIn _].
  assert (i = 1) by lia. subst i. destruct HIn as [HIn _]. assert (El2 : length b = 2) by lia. rewrite El2. cbn [Nat.sub].
  rewrite (nth_error_nth _ _ _ Hs), (nth_error_nth _ _ _ HIn). reflexivity.
Qed.

(** With late binding and any number of schedules it is right in the first and
    the last interval, while all intervals between use the schedule and the start
    of the last of these. *)
Theorem C29_late b (sch : list (Z -> L)) i start step s sl bl : lr_init b sch = Ok (b, sch) -> 2 <= length sch -> StronglySorted Z.lt b ->
  InInterval b i start step -> nth_error sch i = Some s ->
  nth_error sch (length sch - 2) = Some sl -> (2 < length sch -> nth_error b (length sch - 3) = Some bl) ->
  lr_call true (b, sch) step = Ok (if Nat.eqb i 0 || Nat.eqb i (length b) then s (step - start)%Z else sl (step - bl)%Z).
Proof.
  intros HI Hl HS HIn Hs Hsl Hbl. unfold lr_init in HI. destruct (Nat.eqb_spec (length b) (length sch - 1)) as [El|]; [|discriminate].
  assert (Hb : b <> []) by (destruct b; [cbn in El; lia|discriminate]).
  rewrite (lr_call_eq L true b sch s i start step) by (assumption || lia). rewrite (nth_error_nth _ _ _ Hs), orb_false_r.
  destruct (Nat.eqb_spec i 0) as [->|H0]; [reflexivity|]. destruct (Nat.eqb_spec i (length b)) as [->|H1]; [reflexivity|]. cbn [orb].
  pose proof (interval_pred b i start step HS Hb HIn) as (_ & _ & _ & Hi).
  replace (length b - 1) with (length sch - 2) by lia. replace (length b - 2) with (length sch - 3) by lia.
  rewrite (nth_error_nth _ _ _ Hsl), (nth_error_nth b (length sch - 3) 0%Z (Hbl ltac:(lia))). reflexivity.
Qed.

(** A single schedule is accepted, but cannot be evaluated. *)
Theorem C29_single late (s : Z -> L) step : lr_init [] [s] = Ok ([], [s]) /\ lr_call late ([], [s]) step = Err IndexError.
Proof. split; reflexivity. Qed.
End Rate.

(** With late binding and four schedules the rate is not that of the interval. *)
Theorem C29_four_refuted : exists b (sch : list (Z -> Z)) i start step s, lr_init b sch = Ok (b, sch) /\ StronglySorted Z.lt b /\
  InInterval b i start step /\ nth_error sch i = Some s /\ lr_call true (b, sch) step <> Ok (s (step - start)%Z).
Proof.
  exists [10; 20; 30]%Z, [fun x => x; fun x => 100 + x; fun x => 200 + x; fun x => 300 + x]%Z, 1, 10%Z, 15%Z, (fun x => 100 + x)%Z.
  split; [reflexivity|]. split; [repeat constructor|]. split; [split; cbn; [split; [reflexivity|lia]|lia]|]. split; [reflexivity|].
  vm_compute. discriminate.
Qed.

Example rate_ex : let sch := [fun x => x; fun x => 100 + x; fun x => 200 + x]%Z in
  lr_init [10; 20]%Z sch = Ok ([10; 20]%Z, sch) /\ StronglySorted Z.lt [10; 20]%Z /\
  InInterval [10; 20]%Z 1 10 15 /\ map (lr_call true ([10; 20]%Z, sch)) [10; 11; 20; 21]%Z = [Ok 10; Ok 101; Ok 110; Ok 201]%Z.
Proof. cbv zeta. split; [reflexivity|]. split; [repeat constructor|]. split; [split; cbn; [split; [reflexivity|lia]|lia]|]. vm_compute. reflexivity. Qed.

(** ** Gradients *)
Section Gradients.
Variables G V : Type.
Variables (clean : G -> G) (has_is_nan : bool) (clip : list (option G) -> G -> G) (finite : G -> bool).
Let step := training_step (V := V) clean has_is_nan clip finite.

(** All gradients defined: gradient number [j], after cleaning and clipping, is
    applied to variable number [j]. *)
Theorem C56_complete rm cl gs vs pairs j g v : step rm cl (map Some gs) vs = Ok pairs ->
  nth_error gs j = Some g -> nth_error vs j = Some v ->
  exists f, nth_error pairs j = Some (f (if rm then clean g else g), v) /\
    f = if cl then clip (map Some (if rm then map clean gs else gs)) else fun g => g.
Proof.
  intros H Hg Hv. apply training_step_pairs in H. destruct H as [_ ->]. eexists. split; [|reflexivity].
  apply combine_nth_error; [|exact Hv]. rewrite values_some. rewrite nth_error_map, Hg. cbn [option_map]. do 2 f_equal.
  assert (E : map (option_map clean) (filter is_some (map Some gs)) = map Some (map clean gs)).
  { clear. induction gs as [|g gs IH]; cbn; [reflexivity|]. rewrite IH. reflexivity. }
  rewrite E. destruct rm, cl; reflexivity.
Qed.

(** Removal with missing gradients: gradient number [j] is applied to the
    variable that is as many places earlier as gradients before it are missing,
    which is another one if there are any. *)
Theorem C56_shifted cl gs vs pairs j g v : step true cl gs vs = Ok pairs -> nth_error gs j = Some (Some g) ->
  nth_error vs (j - missing gs j) = Some v ->
  (exists g', nth_error pairs (j - missing gs j) = Some (g', v) /\
     g' = (if cl then clip (map (option_map clean) (filter is_some gs)) else fun g => g) (clean g)) /\
  (NoDup vs -> 0 < missing gs j -> j < length vs -> nth_error vs j <> Some v).
Proof.
  intros H Hg Hv. apply training_step_pairs in H. destruct H as [_ ->]. destruct (values_nth G gs j g Hg) as [HV HM]. split.
  - eexists. split; [|reflexivity]. apply combine_nth_error; [|exact Hv]. rewrite nth_error_map, HV. reflexivity.
  - intros HN Hm Hj E. assert (j = j - missing gs j); [|lia].
    apply (proj1 (NoDup_nth_error vs) HN); [exact Hj|congruence].
Qed.

(** Without removal a missing gradient is an error. *)
Theorem C56_not_removed cl gs vs : In None gs -> step false cl gs vs = Err ValueError.
Proof. apply training_step_missing. Qed.

(** The removal itself fails where TensorFlow lacks the function used. *)
Theorem C56_no_function cl gs vs g : has_is_nan = false -> In (Some g) gs -> step true cl gs vs = Err AttributeError.
Proof.
  intros Hh Hg. unfold step, training_step. rewrite Hh.
  assert (E : existsb (is_some (A := G)) gs = true) by (apply existsb_exists; exists (Some g); auto). rewrite E. reflexivity.
Qed.

(** It can succeed. *)
Theorem C56_success rm cl gs vs : has_is_nan = true -> (rm = true \/ ~ In None gs) -> (exists g, In (Some g) gs) -> vs <> [] ->
  (forall g, finite g = true) -> exists pairs, step rm cl gs vs = Ok pairs.
Proof.
  intros Hh Hr (g & Hg) Hv Hf. apply training_step_ok; try assumption. intros HE.
  assert (HX : In g (values G gs)) by (apply in_flat_map; exists (Some g); split; [exact Hg|left; reflexivity]). rewrite HE in HX. destruct HX.
Qed.
End Gradients.

Example gradients_ex : training_step (V := string) (fun g : nat => g) true (fun _ g => g) (fun _ => true) true false
  [None; Some 1; None; Some 2; Some 3] ["a"; "b"; "c"; "d"; "e"] = Ok [(1, "a"); (2, "b"); (3, "c")] /\
  missing [None; Some 1; None; Some 2; Some 3] 4 = 2.
Proof. split; reflexivity. Qed.

(** ** Ensemble *)
Section Members.
Variable M : Type.

(** Up to ten thousand members are returned in the order given. *)
Theorem C57_order (h : M) ms : ms <> [] -> length ms <= Nat.of_num_uint 10000%uint ->
  models_of (sub_components h ms) = Some ms.
Proof.
  intros Hm Hl. rewrite (models_eq M h ms Hm), ssort_sorted by (apply names_sorted; exact Hl). rewrite getm_names. reflexivity.
Qed.

(** With more (different) members the order is another one. *)
Theorem C57_too_many (h : M) ms : NoDup ms -> Nat.of_num_uint 10000%uint < length ms ->
  exists l, models_of (sub_components h ms) = Some l /\ l <> ms.
Proof.
  intros HN Hl. assert (Hm : ms <> []) by (destruct ms; [inversion Hl|discriminate]).
  exists (flat_map (getm M h ms) (ssort (names (length ms)))). split; [apply models_eq; exact Hm|]. intros HE.
  rewrite <- (getm_names M h ms) in HE at 3.
  apply (getm_inj M h ms HN) in HE.
  - pose proof (ssort_is_sorted (names (length ms))) as HS. rewrite HE in HS.
    pose proof wrong_order as HO. pose proof wrong_pair as HP. revert HO HP Hl.
    generalize (Nat.of_num_uint 10000%uint) (Nat.of_num_uint 1001%uint). intros N K HO HP Hl.
    apply (sorted_pair _ K N (model_name K) (model_name N) HS HO); [| |exact HP];
      unfold names; rewrite nth_error_map, (nth_error_nth' (seq 0 (length ms)) 0) by (rewrite seq_length; lia); rewrite seq_nth by lia; reflexivity.
  - intros x [Hx|Hx]; [exact (proj1 (ssort_in _ _) Hx)|exact Hx].
  - apply ssort_length.
Qed.

(** An empty ensemble has no list of members. *)
Theorem C57_empty (h : M) : models_of (sub_components h []) = None.
Proof. reflexivity. Qed.
End Members.

Example members_ex : models_of (sub_components 0 [11; 12; 13; 14; 15; 16; 17; 18; 19; 20; 21; 22]) =
  Some [11; 12; 13; 14; 15; 16; 17; 18; 19; 20; 21; 22].
Proof. vm_compute. reflexivity. Qed.

Example too_many_ex : let ms := seq 0 (Nat.of_num_uint 10001%uint) in NoDup ms /\ Nat.of_num_uint 10000%uint < length ms.
Proof. cbv zeta. split; [apply seq_NoDup|]. rewrite seq_length. apply Nat.ltb_lt. vm_compute. reflexivity. Qed.

(** ** Regularisation *)
Section Regularisation.
Local Open Scope R_scope.

(** Only the signs of the strengths matter. *)
Theorem C60_signs l1 l2 m1 m2 vars : (0 < l1 <-> 0 < m1) -> (0 < l2 <-> 0 < m2) ->
  regularization_loss l1 l2 vars = regularization_loss m1 m2 vars.
Proof.
  intros H1 H2. unfold regularization_loss.
  assert (E1 : Rltb 0 l1 = Rltb 0 m1).
  { destruct (Rltb 0 l1) eqn:A, (Rltb 0 m1) eqn:C; try reflexivity; rewrite ?Rltb_true, ?Rltb_false in *; lra. }
  assert (E2 : Rltb 0 l2 = Rltb 0 m2).
  { destruct (Rltb 0 l2) eqn:A, (Rltb 0 m2) eqn:C; try reflexivity; rewrite ?Rltb_true, ?Rltb_false in *; lra. }
  rewrite E1, E2. reflexivity.
Qed.

(** The value, with all entries of all variables in one list. *)
Theorem C60_value l1 l2 vars : vars <> [] -> regularization_loss l1 l2 vars =
  Ok ((if Rlt_dec 0 l1 then Rsum (map Rabs (concat vars)) else 0) + (if Rlt_dec 0 l2 then Rsum (map (fun x => x ^ 2) (concat vars)) else 0)).
Proof.
  intros Hv.
  assert (HS : forall f, Rsum (map (fun v => Rsum (map f v)) vars) = Rsum (map f (concat vars))).
  { intros f. clear Hv. induction vars as [|v vs IH]; [reflexivity|]. cbn [map concat]. rewrite map_app, Rsum_app, Rsum_cons, IH. reflexivity. }
  assert (HA : forall l : list R, l <> [] -> add_n l = Ok (Rsum l)) by (intros [|x l] H; [congruence|reflexivity]).
  assert (HE : Rsum (map (fun x => x * x) (concat vars)) = Rsum (map (fun x => x ^ 2) (concat vars))) by (apply Rsum_map_ext; intros x _; ring).
  unfold regularization_loss, Rltb. rewrite !HA by (destruct vars; [congruence|discriminate]). rewrite !HS, HE.
  destruct (Rlt_dec 0 l1), (Rlt_dec 0 l2); reflexivity.
Qed.

(** A regularisation without variables is an error. *)
Theorem C60_no_variables l1 l2 : 0 < l1 \/ 0 < l2 -> regularization_loss l1 l2 [] = Err ValueError.
Proof.
  intros H. unfold regularization_loss. cbn [map add_n]. destruct (Rltb 0 l1) eqn:E1; [reflexivity|]. destruct (Rltb 0 l2) eqn:E2; [reflexivity|].
  apply Rltb_false in E1. apply Rltb_false in E2. lra.
Qed.

(** So the loss is not proportional to the strength. *)
Theorem C60_proportional_refuted : exists l vars r, 0 < l /\ regularization_loss 1 0 vars = Ok r /\ regularization_loss l 0 vars <> Ok (l * r).
Proof.
  exists 2, [[1]], 1. split; [lra|].
  assert (HV : forall l, 0 < l -> regularization_loss l 0 [[1]] = Ok 1).
  { intros l Hl. rewrite C60_value by discriminate. destruct (Rlt_dec 0 l); [|lra]. destruct (Rlt_dec 0 0); [lra|]. cbn. rewrite Rabs_R1. f_equal. lra. }
  split; [apply HV; lra|]. rewrite (HV 2) by lra. intros H. injection H. lra.
Qed.
End Regularisation.

(** Three iterations with saves after every second one. *)
Definition ex_opt := {| o_val := 2; o_eval := 3; o_save := 2; o_module := true |}.
Example train_ex : train (fun _ => false) ex_opt 4 ([1; 2; 3; 4; 5; 6; 7; 8; 9], [101; 102; 103]) =
  ([Start; Inc; Update 1; LossTrain 2; LossVal 101; Evaluate 3 0; Inc; Update 4; Inc; Update 5; LossTrain 6; LossVal 102; Save 2 false;
    Inc; Update 7; Evaluate 8 3; Save 3 true], Ok ([9], [103])).
Proof. reflexivity. Qed.

Example exhausted_ex : exists tr v,
  train (fun _ => false) ex_opt 4 ([1; 2; 3; 4; 5; 6; 7; 8], [101; 102; 103]) = (tr ++ [Save 3 true], Ok ([], v)) /\
  train (fun _ => false) ex_opt 9 ([1; 2; 3; 4; 5; 6; 7; 8], [101; 102; 103]) = (tr ++ [Inc], Err StopIteration).
Proof.
  exists [Start; Inc; Update 1; LossTrain 2; LossVal 101; Evaluate 3 0; Inc; Update 4; Inc; Update 5; LossTrain 6;
          LossVal 102; Save 2 false; Inc; Update 7; Evaluate 8 3], [103]. split; reflexivity.
Qed.

Example recorded_ex : exists d', execute (fun _ => true) (fun k => 10 * k) [("loss_module", None)]
  (fst (train (fun _ => false) ex_opt 4 ([1; 2; 3; 4; 5; 6; 7; 8; 9], [101; 102; 103]))) empty_dir = Ok (d', 4) /\
  load_weights d' None = Ok 40 /\ load_weights d' (Some 2) = Ok 30 /\ load_weights d' (Some 1) = Ok 0 /\
  d_train d' = Some (Some {| t_latest := 1; t_steps := [(1, 3)] |}).
Proof. eexists. split; [vm_compute; reflexivity|]. vm_compute. auto. Qed.

Print Assumptions C28_saves.
Print Assumptions C28_success.
Print Assumptions C28_no_iteration.
Print Assumptions C28_exhausted.
Print Assumptions C28_recorded.
Print Assumptions C66_data.
Print Assumptions C66_evaluation.
Print Assumptions C29_interval.
Print Assumptions C29_three.
Print Assumptions C29_own_variables.
Print Assumptions C29_late.
Print Assumptions C29_single.
Print Assumptions C29_four_refuted.
Print Assumptions C56_complete.
Print Assumptions C56_shifted.
Print Assumptions C56_not_removed.
Print Assumptions C56_no_function.
Print Assumptions C56_success.
Print Assumptions C57_order.
Print Assumptions C57_too_many.
Print Assumptions C57_empty.
Print Assumptions C60_signs.
Print Assumptions C60_value.
Print Assumptions C60_no_variables.
Print Assumptions C60_proportional_refuted.
