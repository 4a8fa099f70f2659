(** Properties of the reconstruction: selection of the best result (C48),
    covariance (C49), held parameters (C51), the reported losses (C81), bounds
    (C82), and the interfaces to the minimisers (C83, C84, C85), outer products
    of gradients (C86). *)
From Coq Require Import Psatz.
From Verif Require Import RList PyFacts M_Trafo S_Trafo L_Trafo T_Trafo M_Opt S_Opt T_Opt
  M_Reco S_Reco L_Reco.

(** ** C48: the selection returns the last result *)

Lemma select_loop_last V number results : forall names ml mr lr out,
  select_loop V number names results ml mr lr = Ok out ->
  snd out = match names with [] => lr | _ => dget (last names "") results end.
Proof.
  induction names as [| n names IH]; intros ml mr lr out H; cbn [select_loop] in H;
    [injection H as <-; reflexivity |].
  destruct (dget n results) as [r |] eqn:E; [| discriminate].
  destruct (dget "loss_reco" r) as [v |]; [| discriminate].
  apply bind_ok in H. destruct H as (x & _ & H).
  assert (X : snd out = match names with [] => Some r | _ => dget (last names "") results end)
    by (destruct (match x, ml with Some l, Some m => Rltb l m | Some _, None => true
                  | None, _ => false end); apply IH in H; exact H).
  rewrite X. destruct names; [symmetry; exact E | reflexivity].
Qed.

Lemma dget_filter_other {A} k k' (d : dict A) : k <> k' ->
  dget k (filter (fun e => negb (String.eqb (fst e) k')) d) = dget k d.
Proof.
  intros N. induction d as [| (a, v) d IH]; [reflexivity |]. cbn [filter fst].
  destruct (String.eqb_spec a k') as [-> | NA]; cbn [negb dget].
  - rewrite IH. destruct (String.eqb_spec k k'); [contradiction | reflexivity].
  - rewrite IH. reflexivity.
Qed.

Lemma dget_filter_same {A} k (d : dict A) :
  dget k (filter (fun e => negb (String.eqb (fst e) k)) d) = None.
Proof.
  induction d as [| (a, v) d IH]; [reflexivity |]. cbn [filter fst].
  destruct (String.eqb_spec a k) as [-> | NA]; cbn [negb]; [exact IH |].
  cbn [dget]. destruct (String.eqb_spec k a); [congruence | exact IH].
Qed.

(** Whatever the losses are, the result is the one of the last name, with the
    running time renamed. *)
Theorem C48_last V number names results r :
  select_best V number names results = Ok r ->
  exists m, dget (last names "") results = Some m /\
    dget "reco_runtime" r = dget "runtime" m /\ dget "runtime" r = None /\
    forall k, k <> "runtime" -> k <> "reco_runtime" -> dget k r = dget k m.
Proof.
  unfold select_best. intros H. apply bind_ok in H. destruct H as ((a, lr) & E & H).
  apply select_loop_last in E. cbn [snd] in E. destruct lr as [m |]; [| discriminate].
  destruct (dget "runtime" m) as [t |] eqn:ET; [| discriminate]. injection H as <-.
  exists m. split; [destruct names; [discriminate | symmetry; exact E] |].
  unfold dremove. split; [rewrite dget_dset_same, ET; reflexivity |]. split.
  - rewrite dget_dset_other by discriminate. apply dget_filter_same.
  - intros k N1 N2. rewrite dget_dset_other by exact N2. apply dget_filter_other. exact N1.
Qed.

(** It succeeds exactly if all names have results with a number as loss and
    the last has a running time. *)
Theorem C48_succeeds V number names results :
  (exists r, select_best V number names results = Ok r) <->
  names <> [] /\
  (forall n, In n names -> exists m v x, dget n results = Some m /\
     dget "loss_reco" m = Some v /\ number v = Ok x) /\
  exists m t, dget (last names "") results = Some m /\ dget "runtime" m = Some t.
Proof.
  assert (L : forall names ml mr lr, (exists out, select_loop V number names results ml mr lr = Ok out) <->
    forall n, In n names -> exists m v x, dget n results = Some m /\
     dget "loss_reco" m = Some v /\ number v = Ok x).
  { clear names. induction names as [| n names IH]; intros ml mr lr; cbn [select_loop].
    - split; [intros _ n [] | intros _; eexists; reflexivity].
    - split.
      + intros (out & H) n' [<- | I].
        * destruct (dget n results) as [m |]; [| discriminate].
          destruct (dget "loss_reco" m) as [v |] eqn:EL; [| discriminate].
          apply bind_ok in H. destruct H as (x & N & _). exists m, v, x. auto.
        * destruct (dget n results) as [m |]; [| discriminate].
          destruct (dget "loss_reco" m) as [v |] eqn:EL; [| discriminate].
          apply bind_ok in H. destruct H as (x & N & H). revert n' I.
          destruct (match x, ml with Some l, Some m => Rltb l m | Some _, None => true
                  | None, _ => false end); (eapply IH; eexists; exact H).
      + intros H. destruct (H n (or_introl eq_refl)) as (m & v & x & -> & -> & ->).
        cbn [bind].
        destruct (match x, ml with Some l, Some m => Rltb l m | Some _, None => true
                  | None, _ => false end); apply IH; intros n' I; apply H; right; exact I. }
  unfold select_best. split.
  - intros (r & H). apply bind_ok in H. destruct H as ((a, lr) & E & H).
    pose proof (select_loop_last _ _ _ _ _ _ _ _ E) as X. cbn [snd] in X.
    destruct lr as [m |]; [| discriminate].
    destruct (dget "runtime" m) as [t |] eqn:ET; [| discriminate].
    split; [intros ->; discriminate |].
    split; [apply (L names None None None); eexists; exact E |].
    exists m, t. split; [destruct names; [discriminate | symmetry; exact X] | exact ET].
  - intros (NE & A & m & t & EL & ET). apply (L names None None None) in A.
    destruct A as ((a, lr) & E). rewrite E. cbn [bind].
    apply select_loop_last in E. cbn [snd] in E. destruct names; [congruence |].
    rewrite E, EL, ET. eexists. reflexivity.
Qed.

(** Without names a local variable is used before it is set. *)
Theorem C48_no_names V number results :
  select_best V number [] results = Err UnboundLocalError.
Proof. reflexivity. Qed.

(** The selected result need not have the smallest loss: it never does if the
    last one is worse than another one. *)
Theorem C48_best_refuted :
  exists names (results : dict (dict R)) r n m v w,
    select_best R (fun x => Ok (Some x)) names results = Ok r /\
    In n names /\ dget n results = Some m /\ dget "loss_reco" m = Some v /\
    dget "loss_reco" r = Some w /\ v < w.
Proof.
  exists ["a"; "b"],
    [("a", [("loss_reco", 1); ("runtime", 5)]); ("b", [("loss_reco", 2); ("runtime", 6)])].
  eexists. exists "a". eexists. exists 1, 2. split.
  - unfold select_best. cbn [select_loop dget String.eqb Ascii.eqb Bool.eqb bind].
    destruct (Rltb 2 1); reflexivity.
  - repeat split; try (left; reflexivity). lra.
Qed.

(** ** C49: covariance *)

(** Only fits of all parameters are accepted. *)
Theorem C49_all_parameters fit :
  covariance_init fit = Ok tt <-> forall i, (i < length fit)%nat -> Fitted fit i.
Proof.
  unfold covariance_init. destruct (all_fitted fit) eqn:E.
  - split; [| reflexivity]. intros _ i Hi. unfold Fitted.
    unfold all_fitted in E. rewrite forallb_forall in E.
    rewrite (nth_error_nth' _ false) by exact Hi. f_equal. apply E, nth_In, Hi.
  - split; [discriminate |]. intros H. destruct (not_all_fitted fit E) as (i & X).
    pose proof (proj1 (held_nth fit i X)) as Hi. specialize (H i Hi).
    unfold Fitted, Held in *. congruence.
Qed.

(** After a fit in the original space the module always raises. *)
Theorem C49_original_space tr name n inv nans hessian opg hess_inv :
  execute_covariance tr name n inv nans false hessian opg hess_inv = Err UnboundLocalError.
Proof. reflexivity. Qed.

Lemma matmul_ext n A A' B B' i j :
  (forall k, (k < n)%nat -> A i k = A' i k) -> (forall k, (k < n)%nat -> B k j = B' k j) ->
  matmul n A B i j = matmul n A' B' i j.
Proof.
  intros HA HB. unfold matmul. f_equal. apply map_ext_in. intros k I. apply in_seq in I.
  rewrite HA, HB by lia. reflexivity.
Qed.

(** Quadratic form of an outer product. *)
Lemma quad_outer n g v :
  quad n (fun i j => g i * g j) v = (Rsum (map (fun i => v i * g i) (seq 0 n))) ^ 2.
Proof.
  unfold quad. set (T := Rsum (map (fun i => v i * g i) (seq 0 n))).
  transitivity (Rsum (map (fun i => T * (v i * g i)) (seq 0 n))).
  - f_equal. apply map_ext. intros i. unfold T.
    rewrite (Rmult_comm _ (v i * g i)), <- Rsum_map_scal. f_equal. apply map_ext.
    intros j. ring.
  - rewrite Rsum_map_scal. fold T. ring.
Qed.

Lemma quad_plus n A B v : quad n (fun i j => A i j + B i j) v = quad n A v + quad n B v.
Proof.
  unfold quad. rewrite <- Rsum_map_plus. f_equal. apply map_ext. intros i.
  rewrite <- Rsum_map_plus. f_equal. apply map_ext. intros j. ring.
Qed.

(** ** C86: the outer product estimate is symmetric and positive
    semi-definite, also in the sandwich *)
Theorem C86_outer_product n grads : Sym n (opg_estimate grads) /\ Psd n (opg_estimate grads).
Proof.
  split.
  - intros i j _ _. unfold opg_estimate. f_equal. apply map_ext. intros g. ring.
  - intros v. induction grads as [| g grads IH].
    + unfold quad, opg_estimate. cbn [map Rsum].
      rewrite (Rsum_map_ext _ (fun _ => 0)); [rewrite Rsum_map_const; lra |].
      intros i _. rewrite (Rsum_map_ext _ (fun _ => 0)); [rewrite Rsum_map_const; lra |].
      intros j _. unfold Rsum. cbn. ring.
    + replace (quad n (opg_estimate (g :: grads)) v)
        with (quad n (fun i j => g i * g j) v + quad n (opg_estimate grads) v).
      * rewrite quad_outer. pose proof (pow2_ge_0 (Rsum (map (fun i => v i * g i) (seq 0 n)))).
        lra.
      * rewrite <- quad_plus. reflexivity.
Qed.

Lemma quad_sandwich n C O v : Sym n C ->
  quad n (sandwich n C O) v =
  quad n O (fun k => Rsum (map (fun i => C k i * v i) (seq 0 n))).
Proof.
  intros SC. unfold quad, sandwich, matmul. set (l := seq 0 n).
  assert (SL : forall i j, In i l -> In j l -> C i j = C j i).
  { intros i j Hi Hj. apply in_seq in Hi, Hj. apply SC; lia. }
  (* both sides are the sum of v i C i k O k m C m j v j *)
  transitivity (Rsum (map (fun i => Rsum (map (fun j => Rsum (map (fun m => Rsum (map (fun k =>
      v i * C i k * O k m * C m j * v j) l)) l)) l)) l)).
  { apply Rsum_map_ext. intros i Hi. apply Rsum_map_ext. intros j Hj.
    replace (v i * Rsum (map (fun m => Rsum (map (fun k => C i k * O k m) l) * C m j) l) * v j)
      with (v i * v j * Rsum (map (fun m => Rsum (map (fun k => C i k * O k m) l) * C m j) l))
      by ring.
    rewrite <- Rsum_map_scal. apply Rsum_map_ext. intros m Hm.
    replace (v i * v j * (Rsum (map (fun k => C i k * O k m) l) * C m j))
      with (v i * v j * C m j * Rsum (map (fun k => C i k * O k m) l)) by ring.
    rewrite <- Rsum_map_scal. apply Rsum_map_ext. intros k Hk. ring. }
  transitivity (Rsum (map (fun k => Rsum (map (fun m => Rsum (map (fun i => Rsum (map (fun j =>
      v i * C i k * O k m * C m j * v j) l)) l)) l)) l)).
  2:{ apply Rsum_map_ext. intros k Hk. apply Rsum_map_ext. intros m Hm.
      replace (Rsum (map (fun i => C k i * v i) l) * O k m * Rsum (map (fun i => C m i * v i) l))
        with (O k m * Rsum (map (fun j => C m j * v j) l) * Rsum (map (fun i => C k i * v i) l))
        by ring.
      rewrite <- Rsum_map_scal. apply Rsum_map_ext. intros i Hi.
      replace (O k m * Rsum (map (fun j => C m j * v j) l) * (C k i * v i))
        with (O k m * (C k i * v i) * Rsum (map (fun j => C m j * v j) l)) by ring.
      rewrite <- Rsum_map_scal. apply Rsum_map_ext. intros j Hj.
      rewrite (SL i k Hi Hk). ring. }
  (* reorder i j m k to k m i j *)
  transitivity (Rsum (map (fun i => Rsum (map (fun k => Rsum (map (fun m => Rsum (map (fun j =>
      v i * C i k * O k m * C m j * v j) l)) l)) l)) l)).
  - apply Rsum_map_ext. intros i Hi.
    transitivity (Rsum (map (fun j => Rsum (map (fun k => Rsum (map (fun m =>
      v i * C i k * O k m * C m j * v j) l)) l)) l)).
    { apply Rsum_map_ext. intros j Hj. apply (Rsum_swap (fun m k => v i * C i k * O k m * C m j * v j)). }
    rewrite (Rsum_swap (fun j k => Rsum (map (fun m => v i * C i k * O k m * C m j * v j) l))).
    apply Rsum_map_ext. intros k Hk.
    apply (Rsum_swap (fun j m => v i * C i k * O k m * C m j * v j)).
  - rewrite (Rsum_swap (fun i k => Rsum (map (fun m => Rsum (map (fun j =>
      v i * C i k * O k m * C m j * v j) l)) l))).
    apply Rsum_map_ext. intros k Hk.
    apply (Rsum_swap (fun i m => Rsum (map (fun j => v i * C i k * O k m * C m j * v j) l))).
Qed.

Theorem C86_sandwich n C grads : Sym n C ->
  Sym n (sandwich n C (opg_estimate grads)) /\ Psd n (sandwich n C (opg_estimate grads)).
Proof.
  intros SC. destruct (C86_outer_product n grads) as (SO & PO). split.
  - intros i j Hi Hj. unfold sandwich, matmul.
    transitivity (Rsum (map (fun m => Rsum (map (fun k =>
        C i k * opg_estimate grads k m * C m j) (seq 0 n))) (seq 0 n))).
    { apply Rsum_map_ext. intros m _. rewrite (Rmult_comm _ (C m j)), <- Rsum_map_scal.
      apply Rsum_map_ext. intros k _. ring. }
    rewrite (Rsum_swap (fun m k => C i k * opg_estimate grads k m * C m j)).
    apply Rsum_map_ext. intros k Hk. apply in_seq in Hk.
    rewrite (Rmult_comm _ (C k i)), <- Rsum_map_scal. apply Rsum_map_ext. intros m Hm.
    apply in_seq in Hm. rewrite (SO k m), (SC i k), (SC m j) by lia. ring.
  - intros v. rewrite quad_sandwich by exact SC. apply PO.
Qed.

(** All covariances the module returns for a fit in the transformed space are
    symmetric and positive semi-definite if the inverse Hessian (for the
    first) or the matrix of the minimiser (for those with "fit") is
    symmetric, and for the ones which are not sandwiches positive
    semi-definite. *)
Theorem C86_covariances tr name n inv nans hessian grads hess_inv s res c :
  Built tr -> dget name (tr_data tr) = Some s ->
  execute_covariance (Some tr) name n inv nans true hessian (opg_estimate grads) hess_inv
    = Ok res ->
  inv hessian = Some c -> Sym n c ->
  (exists M, dget "cov_sand" res = Some M /\ Sym n M /\ Psd n M) /\
  (exists M, dget "cov" res = Some M /\ Sym n M /\ (Psd n c -> Psd n M)) /\
  (forall h, hess_inv = Some h -> Sym n h ->
    (exists M, dget "cov_sand_fit" res = Some M /\ Sym n M /\ Psd n M) /\
    (exists M, dget "cov_fit" res = Some M /\ Sym n M /\ (Psd n h -> Psd n M))).
Proof.
  intros B HS H EI SC. unfold execute_covariance in H. rewrite EI in H.
  apply bind_ok in H. destruct H as (cov & E1 & H). apply bind_ok in H.
  destruct H as (cs & E2 & H).
  assert (C24 : forall M M', inverse_transform_cov (Some tr) n n M name = Ok M' ->
    (Sym n M -> Sym n M') /\ (Psd n M -> Psd n M')).
  { intros M M' E. destruct (C24_covariance tr n n M M' name s B HS E) as (_ & _ & R). exact R. }
  destruct (C86_sandwich n c grads SC) as (S1 & P1).
  destruct hess_inv as [h |].
  - apply bind_ok in H. destruct H as (csf & E3 & H). apply bind_ok in H.
    destruct H as (cf & E4 & H). injection H as <-.
    split; [exists cs; split; [reflexivity | split; apply (C24 _ _ E2); assumption] |].
    split; [exists cov; split; [reflexivity | split; apply (C24 _ _ E1); assumption] |].
    intros h' [= <-] SH. destruct (C86_sandwich n h grads SH) as (S2 & P2).
    split; [exists csf; split; [reflexivity | split; apply (C24 _ _ E3); assumption] |].
    exists cf; split; [reflexivity | split; apply (C24 _ _ E4); assumption].
  - injection H as <-.
    split; [exists cs; split; [reflexivity | split; apply (C24 _ _ E2); assumption] |].
    split; [exists cov; split; [reflexivity | split; apply (C24 _ _ E1); assumption] |].
    discriminate.
Qed.

(** After a fit in the transformed space the entries are scaled back by the
    deviations of both parameters. *)
Theorem C49_transformed_space tr name n inv nans hessian opg hess_inv s res c :
  Built tr -> dget name (tr_data tr) = Some s ->
  execute_covariance (Some tr) name n inv nans true hessian opg hess_inv = Ok res ->
  inv hessian = Some c ->
  dget "cov_trafo" res = Some c /\
  exists cov, dget "cov" res = Some cov /\
    forall i j, (i < n)%nat -> (j < n)%nat ->
      cov i j = (tr_norm tr + nth i (st_std s) 0) * c i j * (tr_norm tr + nth j (st_std s) 0).
Proof.
  intros B HS H EI. unfold execute_covariance in H. rewrite EI in H.
  apply bind_ok in H. destruct H as (cov & E1 & H). apply bind_ok in H.
  destruct H as (cs & E2 & H).
  assert (R : dget "cov_trafo" res = Some c /\ dget "cov" res = Some cov).
  { destruct hess_inv as [h |].
    - apply bind_ok in H. destruct H as (csf & E3 & H). apply bind_ok in H.
      destruct H as (cf & E4 & H). injection H as <-. split; reflexivity.
    - injection H as <-. split; reflexivity. }
  split; [apply R |]. exists cov. split; [apply R |]. intros i j Hi Hj.
  destruct (C24_covariance tr n n c cov name s B HS E1) as (_ & A & _).
  destruct (built_stats tr name s B HS) as (t & ET & _ & _ & L & _).
  assert (LS : length (st_std s) = n).
  { rewrite L. unfold inverse_transform_cov, check_settings in E1. rewrite ET in E1.
    cbn [ar_shape] in E1. destruct (list_eqb Nat.eqb [n] (ti_shape t)) eqn:Q; [| discriminate].
    apply list_eqb_nat in Q. rewrite <- Q. simpl. lia. }
  apply A; try assumption; apply nth_error_nth'; lia.
Qed.

(** ** C51: held parameters *)

(** A transformation made from data which knows the parameter tensor with its
    [n] parameters. *)
Definition Ready (tr : trafo) (name : string) (t : tinfo) (n : nat) : Prop :=
  Built tr /\ dget name (tr_tensors tr) = Some t /\ ti_shape t = [n].

(** What is needed of the space of the minimisation. *)
Definition Space (tr : option trafo) (name : string) (in_trafo : bool) (n : nat)
  (P : tinfo -> Prop) : Prop :=
  in_trafo = true -> exists tr0 t, tr = Some tr0 /\ Ready tr0 name t n /\ P t.

Lemma transform_known tr name a a' : transform (Some tr) a name true = Ok a' ->
  exists s, dget name (tr_data tr) = Some s.
Proof. intros H. apply transform_ok in H. destruct H as (t & s & _ & E & _). exists s. exact E. Qed.

Lemma held_not_all fit i : Held fit i -> all_fitted fit = false.
Proof.
  intros H. destruct (all_fitted fit) eqn:E; [| reflexivity]. exfalso.
  unfold all_fitted in E. rewrite forallb_forall in E.
  specialize (E false (nth_error_In _ _ H)). discriminate.
Qed.

(** The merge puts fitted and held values at their positions, for all numbers
    of parameters and events. *)
Theorem C51_merge fit p s b : Table p (num_fitted fit) b -> Table s (length fit) b ->
  fit <> [] -> exists a, merge fit p s = Ok a /\ Combined fit p s a b.
Proof.
  intros TP TS NE. destruct (merge_ok fit p s b TP TS) as (a & M). exists a. split; [exact M |].
  destruct (all_fitted fit) eqn:AF.
  - (* all fitted: the columns of [p] *)
    unfold merge in M. apply bind_ok in M. destruct M as (cs & M & H).
    apply merge_columns_spec in M. destruct M as (L & A).
    unfold stack_columns in H. destruct (forallb _ cs) eqn:FA; [| discriminate].
    injection H as <-. rewrite forallb_forall in FA.
    assert (ALL : forall i, (i < length fit)%nat -> nth i fit false = true).
    { intros i Hi. unfold all_fitted in AF. rewrite forallb_forall in AF. apply AF, nth_In, Hi. }
    assert (LB : length (hd [] cs) = b).
    { destruct fit as [| f fit]; [congruence |]. destruct cs as [| c cs]; [discriminate |].
      specialize (A 0%nat ltac:(simpl; lia)). rewrite (ALL 0%nat) in A by (simpl; lia).
      exact (proj1 (get_column_cell p _ _ _ b TP A)). }
    rewrite LB. split.
    + unfold table, Table. cbn [ar_shape ar_rows]. rewrite map_length, seq_length, L.
      repeat split. rewrite Forall_forall. intros r I. apply in_map_iff in I.
      destruct I as (j & <- & _). rewrite map_length. exact L.
    + intros j i Hj. split; intros E.
      * apply fitted_nth in E. destruct E as (Hi & E). specialize (A i Hi). rewrite E in A.
        destruct (get_column_cell p _ _ _ b TP A) as (_ & G). specialize (G j Hj).
        cbn [Nat.add] in G. rewrite <- G.
        unfold cell, table. cbn [ar_rows].
        rewrite (nth_indep _ [] (map (fun c => nth 0%nat c 0) cs))
          by (rewrite map_length, seq_length; exact Hj).
        rewrite (map_nth (fun k => map (fun c => nth k c 0) cs)), seq_nth by exact Hj.
        cbn [Nat.add]. rewrite (nth_indep _ 0 (nth j [] 0)) by (rewrite map_length; lia).
        apply (map_nth (fun c => nth j c 0)).
      * apply held_nth in E. destruct E as (Hi & E). rewrite (ALL i Hi) in E. discriminate.
  - exact (proj1 (merge_spec fit p s a _ _ b b AF TP TS M)).
Qed.

(** A held parameter has in the result of every event exactly its value in the
    seed. *)
Theorem C51_held tr name is_tf rt seed fit in_trafo r m b b' :
  Table seed (length fit) b -> Table rt m b' ->
  Space tr name in_trafo (length fit) (fun t => LogDomain t seed) ->
  get_reco_result_batch tr name is_tf rt seed fit in_trafo = Ok r ->
  forall k i, (k < b)%nat -> Held fit i -> cell r k i = cell seed k i.
Proof.
  intros TS TR SP H k i Hk Hi. pose proof (held_not_all fit i Hi) as NA.
  unfold get_reco_result_batch in H. rewrite NA, andb_false_r in H.
  apply bind_ok in H. destruct H as (st & E1 & H). apply bind_ok in H.
  destruct H as (full & M & H). destruct in_trafo.
  - destruct (SP eq_refl) as (tr0 & t & -> & (B & HT & SH) & D).
    destruct (transform_known _ _ _ _ E1) as (s & HS).
    destruct (transform_cells tr0 name t s _ B HT HS SH seed st b TS E1) as (TT & C1).
    destruct (merge_spec fit rt st full m _ b b' NA TR TT M) as ((TF & CM) & _).
    destruct (inverse_cells tr0 name t s _ B HT HS SH false full r b TF H) as (_ & C2).
    pose proof (proj1 (held_nth fit i Hi)) as Li.
    rewrite (C2 k i Hk Li), (proj2 (CM k i Hk) Hi), (C1 k i Hk Li).
    rewrite (round_cell tr0 name t s (length fit) B HT HS SH i _ Li).
    apply exp_log; [| discriminate]. intros LG.
    destruct (cell_at seed _ b k i TS Hk Li) as (N & I).
    apply (D _ i _ I N). apply (logged_spec t (length fit) i SH Li). exact LG.
  - injection E1 as <-. injection H as <-.
    destruct (merge_spec fit rt seed full m _ b b' NA TR TS M) as ((_ & CM) & _).
    apply (CM k i Hk). exact Hi.
Qed.

(** A fitted parameter has the value found by the minimiser: directly in the
    original space, after the transformation otherwise. *)
Theorem C51_fitted tr name rt seed fit in_trafo r b :
  Table seed (length fit) b -> Table rt (num_fitted fit) b ->
  Space tr name in_trafo (length fit) (fun _ => True) ->
  get_reco_result_batch tr name false rt seed fit in_trafo = Ok r ->
  exists r', (if in_trafo then transform tr r name true else Ok r) = Ok r' /\
  forall k i, (k < b)%nat -> Fitted fit i -> cell r' k i = cell rt k (fitted_before fit i).
Proof.
  intros TS TR SP H. unfold get_reco_result_batch in H. cbn [andb] in H.
  apply bind_ok in H. destruct H as (st & E1 & H). apply bind_ok in H.
  destruct H as (full & M & H).
  assert (CF : forall st, Table st (length fit) b ->
    (if all_fitted fit then Ok rt else merge fit rt st) = Ok full ->
    Table full (length fit) b /\ forall k i, (k < b)%nat -> Fitted fit i ->
      cell full k i = cell rt k (fitted_before fit i)).
  { clear st E1 M H. intros st TT M. destruct (all_fitted fit) eqn:AF.
    - injection M as <-. rewrite <- (all_fitted_num fit AF). split; [exact TR |].
      intros k i Hk Hi.
      destruct (fitted_columns_spec fit rt b rt) as (_ & C & _);
        [rewrite <- (all_fitted_num fit AF); exact TR | unfold fitted_columns; rewrite AF;
         reflexivity |]. symmetry. apply C; assumption.
    - destruct (merge_spec fit rt st full _ _ b b AF TR TT M) as ((TF & CM) & _).
      split; [exact TF |]. intros k i Hk Hi. apply (CM k i Hk). exact Hi. }
  destruct in_trafo.
  - destruct (SP eq_refl) as (tr0 & t & -> & (B & HT & SH) & _).
    destruct (transform_known _ _ _ _ E1) as (s & HS).
    destruct (transform_cells tr0 name t s _ B HT HS SH seed st b TS E1) as (TT & _).
    destruct (CF st TT M) as (TF & CM).
    destruct (inverse_cells tr0 name t s _ B HT HS SH false full r b TF H) as (TRR & C2).
    destruct (transform_success tr0 name seed r st E1) as ((r' & E') & _).
    { destruct TRR as (-> & _). destruct TS as (-> & _). reflexivity. }
    exists r'. split; [exact E' |]. intros k i Hk Hi.
    destruct (transform_cells tr0 name t s _ B HT HS SH r r' b TRR E') as (_ & C3).
    pose proof (proj1 (fitted_nth fit i Hi)) as Li.
    rewrite (C3 k i Hk Li), (C2 k i Hk Li), <- (CM k i Hk Hi).
    pose proof (dev_pos tr0 name t s (length fit) B HT HS SH i Li) as DP.
    assert (LE : forall y, log_in t i (exp_out t false i y) = y).
    { intros y. unfold log_in, exp_out. destruct (logged t i); [| reflexivity]. cbn [andb].
      replace (1 + (exp y - 1)) with (exp y) by ring. apply ln_exp. }
    rewrite LE. field. lra.
  - injection E1 as <-. injection H as <-. exists full. split; [reflexivity |].
    apply (CF seed TS M).
Qed.

(** The parameters at which the loss is evaluated at the best fit are those of
    the result, unless TensorFlow clips an exponent. *)
Theorem C51_point tr name rt seed fit (in_trafo : bool) r b :
  Table seed (length fit) b -> Table rt (num_fitted fit) b ->
  get_reco_result_batch tr name false rt seed fit in_trafo = Ok r ->
  Space tr name in_trafo (length fit) (fun t => Unclipped t r) ->
  loss_parameters tr name fit in_trafo rt seed = Ok r.
Proof.
  intros TS TR H SP. unfold get_reco_result_batch in H. cbn [andb] in H.
  apply bind_ok in H. destruct H as (st & E1 & H). apply bind_ok in H.
  destruct H as (full & M & H). unfold loss_parameters.
  assert (X : (if all_fitted fit then Ok rt
               else bind (if in_trafo then transform tr seed name true else Ok seed)
                      (merge fit rt)) = Ok full).
  { destruct (all_fitted fit); [exact M |]. rewrite E1. exact M. }
  rewrite X. cbn [bind]. destruct in_trafo; [| exact H].
  destruct (SP eq_refl) as (tr0 & t & -> & (B & HT & SH) & U).
  destruct (transform_known _ _ _ _ E1) as (s & HS).
  destruct (transform_cells tr0 name t s _ B HT HS SH seed st b TS E1) as (TT & _).
  assert (TF : Table full (length fit) b).
  { destruct (all_fitted fit) eqn:AF.
    - injection M as <-. rewrite <- (all_fitted_num fit AF). exact TR.
    - exact (proj1 (proj1 (merge_spec fit rt st full _ _ b b AF TR TT M))). }
  destruct (inverse_cells tr0 name t s _ B HT HS SH false full r b TF H) as (TRR & C2).
  destruct (inverse_success tr0 name false full full r H eq_refl) as (_ & Y).
  destruct (Y true) as (r2 & E2). rewrite E2. f_equal.
  destruct (inverse_cells tr0 name t s _ B HT HS SH true full r2 b TF E2) as (TR2 & C3).
  apply (table_ext r2 r _ b TR2 TRR). intros k i Hk Hi.
  rewrite (C3 k i Hk Hi). pose proof (C2 k i Hk Hi) as C. revert C.
  set (y := cell full k i * dev_at tr0 s i + mean_at s i). unfold exp_out.
  destruct (logged t i) eqn:LG; [| intros ->; reflexivity]. cbn [andb]. intros C.
  destruct (mixed t) eqn:MX; [| symmetry; exact C].
  rewrite C. f_equal. f_equal. apply clip_id.
  destruct (cell_at r _ b k i TRR Hk Hi) as (N & I).
  assert (LN : ln (1 + cell r k i) = y).
  { rewrite C. replace (1 + (exp y - 1)) with (exp y) by ring. apply ln_exp. }
  rewrite <- LN. apply (U (proj1 (mixed_spec t) MX) _ i _ I N).
  apply (logged_spec t (length fit) i SH Hi). exact LG.
Qed.

(** The minimisation starts from the seed. *)
Theorem C51_start tr name seed fit (in_trafo : bool) st x0 b :
  Table seed (length fit) b ->
  (if in_trafo then transform tr seed name true else Ok seed) = Ok st ->
  fitted_columns false fit st = Ok x0 ->
  Space tr name in_trafo (length fit) (fun t => LogDomain t seed /\ Unclipped t seed) ->
  loss_parameters tr name fit in_trafo x0 seed = Ok seed.
Proof.
  intros TS E1 F SP. unfold loss_parameters. rewrite E1.
  assert (TT : Table st (length fit) b).
  { destruct in_trafo; [| injection E1 as <-; exact TS].
    destruct (SP eq_refl) as (tr0 & t & -> & (B & HT & SH) & _).
    destruct (transform_known _ _ _ _ E1) as (s & HS).
    exact (proj1 (transform_cells tr0 name t s _ B HT HS SH seed st b TS E1)). }
  assert (X : (if all_fitted fit then Ok x0 else bind (Ok st) (merge fit x0)) = Ok st).
  { destruct (all_fitted fit) eqn:AF.
    - f_equal. apply (fitted_columns_spec fit st b x0 TT F). exact AF.
    - cbn [bind]. exact (merge_selected fit st x0 b TT AF F). }
  rewrite X. cbn [bind]. destruct in_trafo; [| symmetry; exact E1].
  destruct (SP eq_refl) as (tr0 & t & -> & (B & HT & SH) & D & U).
  destruct (transform_known _ _ _ _ E1) as (s & HS).
  destruct (transform_cells tr0 name t s _ B HT HS SH seed st b TS E1) as (_ & C1).
  destruct (transform_success tr0 name seed st st E1) as (_ & Y).
  { destruct TT as (-> & _). destruct TS as (-> & _). reflexivity. }
  destruct (Y true) as (r & E2). rewrite E2. f_equal.
  destruct (inverse_cells tr0 name t s _ B HT HS SH true st r b TT E2) as (TRR & C2).
  apply (table_ext r seed _ b TRR TS). intros k i Hk Hi.
  rewrite (C2 k i Hk Hi), (C1 k i Hk Hi).
  rewrite (round_cell tr0 name t s (length fit) B HT HS SH i _ Hi).
  destruct (cell_at seed _ b k i TS Hk Hi) as (N & I).
  pose proof (logged_spec t (length fit) i SH Hi) as LS.
  apply exp_log.
  - intros LG. apply (D _ i _ I N), LS, LG.
  - cbn [andb]. intros MX LG. apply (U (proj1 (mixed_spec t) MX) _ i _ I N), LS, LG.
Qed.

(** Without fitted parameters the result has no columns, which the scipy
    interface cannot reshape to. *)
Theorem C51_none_fitted tr name nparams losses minimise fit (in_trafo : bool) seed bounds :
  (forall i, ~ Fitted fit i) ->
  forall r, reconstruct_events tr name nparams losses minimise fit in_trafo seed bounds <> Ok r.
Proof.
  intros NF r H. assert (Z : num_fitted fit = 0%nat).
  { destruct (Nat.eq_dec (num_fitted fit) 0) as [E | E]; [exact E |].
    destruct (some_fitted fit) as (i & F); [lia | destruct (NF i F)]. }
  unfold reconstruct_events in H. rewrite Z in H.
  destruct (negb _); [discriminate |]. apply bind_ok in H. destruct H as (bs & _ & H).
  apply bind_ok in H. destruct H as (x0 & _ & H). apply bind_ok in H.
  destruct H as (x & _ & H). discriminate.
Qed.

(** ** C81: the reported losses *)

Lemma full_loss_eq tr name n losses a : full_loss tr name n losses a = total_loss losses a.
Proof.
  unfold full_loss, parameter_loss, loss_parameters.
  assert (A : all_fitted (repeat true n) = true).
  { unfold all_fitted. apply forallb_forall. intros x I. apply repeat_spec in I. exact I. }
  rewrite A. reflexivity.
Qed.

Lemma objective_at tr name losses fit (in_trafo : bool) seed b xa x :
  (0 < length fit)%nat -> Table seed (length fit) b ->
  reshape (num_fitted fit) x = Ok xa ->
  objective tr name losses fit in_trafo seed x = parameter_loss tr name losses fit in_trafo xa seed.
Proof.
  intros P TS E. unfold objective. rewrite E. cbn [bind].
  rewrite (reshape_concat _ seed b P TS). reflexivity.
Qed.

(** With a minimiser that never returns a worse point than it starts from the
    loss of the result is not above the loss of the seed. *)
Theorem C81_descends tr name nparams losses minimise fit (in_trafo : bool) seed bounds b res :
  Descends minimise -> KeepsLength minimise -> Table seed nparams b -> (0 < nparams)%nat ->
  execute_reconstruction tr name nparams losses
    (fun s => reconstruct_events tr name nparams losses minimise fit in_trafo s bounds)
    false fit in_trafo seed = Ok res ->
  Space tr name in_trafo nparams (fun t => LogDomain t seed /\ Unclipped t seed /\
    Unclipped t (r_result res)) ->
  r_loss_reco res <= r_loss_seed res.
Proof.
  intros DS KL TS P H SP. unfold execute_reconstruction in H.
  apply bind_ok in H. destruct H as (rt & HM & H). apply bind_ok in H. destruct H as (r & HG & H).
  apply bind_ok in H. destruct H as (ls & LS & H). apply bind_ok in H. destruct H as (lr & LR & H).
  injection H as <-. cbn [r_loss_reco r_loss_seed r_trafo r_result] in *.
  rewrite full_loss_eq in LS, LR.
  unfold reconstruct_events in HM.
  destruct (Nat.eqb_spec (length fit) nparams) as [<- |]; cbn [negb] in HM; [| discriminate].
  apply bind_ok in HM. destruct HM as ((bd, st) & E1 & HM). apply bind_ok in HM.
  destruct HM as (x0 & F & HM). cbn [fst snd] in *. apply bind_ok in HM. destruct HM as (x & MI & RS).
  assert (ES : (if in_trafo then transform tr seed name true else Ok seed) = Ok st).
  { destruct in_trafo; [| congruence]. apply bind_ok in E1. destruct E1 as (b' & _ & E1).
    apply bind_ok in E1. destruct E1 as (s' & E1 & E2). congruence. }
  assert (MI' : minimise (objective tr name losses fit in_trafo seed) (concat (ar_rows x0)) bd = Ok x).
  { unfold scipy_minimize in MI. destruct bd as [bd |]; [| exact MI].
    destruct (Nat.eqb _ _); [exact MI | discriminate]. }
  assert (TT : Table st (length fit) b).
  { destruct in_trafo; [| injection ES as <-; exact TS].
    destruct (SP eq_refl) as (tr0 & t & -> & (B & HT & SH) & _).
    destruct (transform_known _ _ _ _ ES) as (s & HS).
    exact (proj1 (transform_cells tr0 name t s _ B HT HS SH seed st b TS ES)). }
  destruct (fitted_columns_spec fit st b x0 TT F) as (T0 & _).
  assert (PF : (0 < num_fitted fit)%nat) by (apply (reshape_table _ _ _ RS)).
  assert (TX : Table rt (num_fitted fit) b).
  { destruct (reshape_table _ _ _ RS) as (_ & _ & TX). pose proof T0 as (_ & L0 & F0).
    rewrite (KL _ _ _ _ MI'), (concat_length_rows _ _ F0), Nat.div_mul in TX by lia.
    cut (length (ar_rows x0) = b); [intros <-; exact TX | exact L0]. }
  pose proof (objective_at tr name losses fit in_trafo seed b x0 _ P TS
                (reshape_concat _ x0 b PF T0)) as O0.
  pose proof (objective_at tr name losses fit in_trafo seed b rt x P TS RS) as O1.
  unfold parameter_loss in O0, O1.
  rewrite (C51_start tr name seed fit in_trafo st x0 b TS ES F) in O0
    by (intros Q; destruct (SP Q) as (tr0 & t & ? & ? & ? & ? & ?); exists tr0, t; auto).
  rewrite (C51_point tr name rt seed fit in_trafo r b TS TX HG) in O1
    by (intros Q; destruct (SP Q) as (tr0 & t & ? & ? & ? & ? & ?); exists tr0, t; auto).
  cbn [bind] in O0, O1. rewrite LS in O0. rewrite LR in O1.
  destruct (DS _ _ _ _ _ MI' O0) as (v & V & LE). rewrite O1 in V. injection V as <-. exact LE.
Qed.

Lemma total_loss_sum losses params v : total_loss losses params = Ok v ->
  losses <> [] /\
  exists vs, Forall2 (fun m x => m params = Ok x) losses vs /\ v = Rsum vs.
Proof.
  unfold total_loss. destruct losses as [| l ls]; [discriminate |]. intros H. split; [discriminate |].
  assert (G : forall ls acc v, fold_left (fun acc m => bind acc (fun a =>
      bind (m params) (fun b => Ok (a + b)))) ls acc = Ok v ->
    exists a vs, acc = Ok a /\ Forall2 (fun m x => m params = Ok x) ls vs /\ v = a + Rsum vs).
  { clear. induction ls as [| m ls IH]; intros acc v H; cbn [fold_left] in H.
    - exists v, []. split; [exact H |]. split; [constructor | cbn; ring].
    - destruct (IH _ _ H) as (a & vs & E & F & ->). apply bind_ok in E.
      destruct E as (a0 & E0 & E). apply bind_ok in E. destruct E as (b & E1 & E).
      injection E as <-. exists a0, (b :: vs). split; [exact E0 |].
      split; [constructor; assumption | cbn [Rsum fold_right]; unfold Rsum; cbn; ring]. }
  destruct (G _ _ _ H) as (a & vs & E & F & ->). exists (a :: vs).
  split; [constructor; assumption | reflexivity].
Qed.

(** The reported losses are the sums of the losses of all models, at the seed
    and at the reported result; without models nothing is reported. *)
Theorem C81_all_models tr name nparams losses method is_tf fit (in_trafo : bool) seed res :
  execute_reconstruction tr name nparams losses method is_tf fit in_trafo seed = Ok res ->
  losses <> [] /\
  (exists vs, Forall2 (fun m v => m seed = Ok v) losses vs /\ r_loss_seed res = Rsum vs) /\
  (exists vs, Forall2 (fun m v => m (r_result res) = Ok v) losses vs /\ r_loss_reco res = Rsum vs).
Proof.
  intros H. unfold execute_reconstruction in H.
  apply bind_ok in H. destruct H as (rt & HM & H). apply bind_ok in H. destruct H as (r & HG & H).
  apply bind_ok in H. destruct H as (ls & LS & H). apply bind_ok in H. destruct H as (lr & LR & H).
  injection H as <-. cbn [r_loss_reco r_loss_seed r_trafo r_result].
  assert (AF : all_fitted (repeat true nparams) = true).
  { unfold all_fitted. apply forallb_forall. intros x I. apply repeat_spec in I. exact I. }
  unfold full_loss, parameter_loss, loss_parameters in LS, LR. rewrite AF in LS, LR.
  cbn [bind] in LS, LR.
  apply total_loss_sum in LS. apply total_loss_sum in LR.
  split; [exact (proj1 LS) |]. split; [exact (proj2 LS) | exact (proj2 LR)].
Qed.

(** ** C82: bounds *)

Lemma log_flag_logged tr name t n i : dget name (tr_tensors tr) = Some t -> ti_shape t = [n] ->
  (i < n)%nat -> log_flag (Some tr) name i = logged t i.
Proof.
  intros HT SH Hi. unfold log_flag, logged. rewrite HT. destruct (ti_log t) as [f |]; [| reflexivity].
  unfold flag_at, all_fitted. rewrite SH. cbn [last]. rewrite Nat.mod_small by exact Hi. reflexivity.
Qed.

Lemma nth_map_seq {A} (f : nat -> A) n k d : (k < n)%nat -> nth k (map f (seq 0 n)) d = f k.
Proof.
  intros H. rewrite (nth_indep _ d (f 0%nat)) by (rewrite map_length, seq_length; exact H).
  rewrite map_nth, seq_nth by exact H. reflexivity.
Qed.

(** In the transformed space a point lies within the transformed bounds
    exactly if its parameters lie within the given ones. *)
Theorem C82_bounds tr name t n s bounds bounds' k x :
  Ready tr name t n -> dget name (tr_data tr) = Some s -> length bounds = n ->
  transform_bounds (Some tr) name bounds = Ok bounds' -> (k < n)%nat ->
  (Logged t k -> -1 < x /\ forall h, snd (nth k bounds (None, None)) = Some h -> -1 < h) ->
  length bounds' = n /\
  (Within (fst (nth k bounds (None, None))) (snd (nth k bounds (None, None))) x <->
   Within (fst (nth k bounds' (None, None))) (snd (nth k bounds' (None, None)))
     ((log_in t k x - mean_at s k) / dev_at tr s k)).
Proof.
  intros (B & HT & SH) HS LB H Hk D. unfold transform_bounds in H.
  apply bind_ok in H. destruct H as (a & E & H). injection H as <-.
  rewrite map_length, seq_length. split; [exact LB |].
  set (fill := fun b : bound => match b with Some x => x | None => 0 end) in *.
  match type of E with transform _ ?T _ _ = _ => set (rows := T) in * end.
  assert (TB : Table rows n 2).
  { unfold rows, table, Table. cbn [ar_shape ar_rows]. rewrite LB. repeat split.
    repeat constructor; rewrite map_length; exact LB. }
  destruct (transform_cells tr name t s n B HT HS SH rows a 2 TB E) as (_ & C).
  rewrite nth_map_seq by lia. cbn [fst snd].
  pose proof (C 0%nat k ltac:(lia) Hk) as C0. pose proof (C 1%nat k ltac:(lia) Hk) as C1.
  unfold cell in C0, C1. rewrite C0, C1. clear C0 C1 C.
  assert (R0 : nth k (nth 0 (ar_rows rows) []) 0 = fill (fst (nth k bounds (None, None)))).
  { unfold rows, table. cbn [ar_rows nth].
    rewrite (nth_indep _ 0 (fill (fst (None : bound, None : bound))))
      by (rewrite map_length; rewrite <- LB in Hk; exact Hk).
    apply (map_nth (fun b : bound * bound => fill (fst b))). }
  assert (R1 : nth k (nth 1 (ar_rows rows) []) 0 = fill (snd (nth k bounds (None, None)))).
  { unfold rows, table. cbn [ar_rows nth].
    rewrite (nth_indep _ 0 (fill (snd (None : bound, None : bound))))
      by (rewrite map_length; rewrite <- LB in Hk; exact Hk).
    apply (map_nth (fun b : bound * bound => fill (snd b))). }
  rewrite R0, R1. clear R0 R1. destruct (nth k bounds (None, None)) as (lo, hi).
  cbn [fst snd] in *.
  pose proof (dev_pos tr name t s n B HT HS SH k Hk) as DP.
  assert (MON : forall u v, (u - mean_at s k) / dev_at tr s k <= (v - mean_at s k) / dev_at tr s k
                            <-> u <= v).
  { intros u v. unfold Rdiv. pose proof (Rinv_0_lt_compat _ DP) as IP. split; intros Q.
    - apply Rmult_le_reg_r in Q; [lra | exact IP].
    - apply Rmult_le_compat_r; lra. }
  assert (LMON : forall u v, (logged t k = true -> -1 < u /\ -1 < v) ->
    (log_in t k u <= log_in t k v <-> u <= v)).
  { intros u v Q. unfold log_in. destruct (logged t k); [| reflexivity].
    destruct (Q eq_refl) as (U & V). split; intros LE.
    - destruct (Rle_lt_dec u v) as [|LT]; [assumption |].
      pose proof (ln_increasing (1 + v) (1 + u)). lra.
    - destruct (Req_dec u v) as [-> | NE]; [lra |]. left. apply ln_increasing; lra. }
  pose proof (logged_spec t n k SH Hk) as LG.
  unfold finite_bound. rewrite (log_flag_logged tr name t n k HT SH Hk).
  unfold Within. split; intros (WL & WH); split.
  - intros l EL. destruct lo as [lo |]; [| discriminate].
    destruct (logged t k && Rleb (1 + lo) 0) eqn:Q; [discriminate |]. injection EL as <-.
    cbn [fill]. apply MON, LMON; [| apply WL; reflexivity].
    intros T. rewrite T in Q. cbn [andb] in Q. apply Rleb_false in Q.
    split; [lra | exact (proj1 (D (proj1 LG T)))].
  - intros h EH. destruct hi as [hi |]; [| discriminate].
    destruct (logged t k && Rleb (1 + hi) 0) eqn:Q; [discriminate |]. injection EH as <-.
    cbn [fill]. apply MON, LMON; [| apply WH; reflexivity].
    intros T. split; [exact (proj1 (D (proj1 LG T))) | exact (proj2 (D (proj1 LG T)) _ eq_refl)].
  - intros l ->. destruct (logged t k && Rleb (1 + l) 0) eqn:Q.
    + apply andb_true_iff in Q. destruct Q as (Q1 & Q2). apply Rleb_true in Q2.
      apply LG, D in Q1. lra.
    + specialize (WL _ eq_refl). cbn [fill] in WL. apply (proj1 (MON _ _)) in WL.
      apply LMON; [| exact WL].
      intros T. rewrite T in Q. cbn [andb] in Q. apply Rleb_false in Q.
      split; [lra | exact (proj1 (D (proj1 LG T)))].
  - intros h ->. destruct (logged t k && Rleb (1 + h) 0) eqn:Q.
    + apply andb_true_iff in Q. destruct Q as (Q1 & Q2). apply Rleb_true in Q2.
      apply LG, D in Q1. destruct Q1 as (_ & Q1). specialize (Q1 _ eq_refl). lra.
    + specialize (WH _ eq_refl). cbn [fill] in WH. apply (proj1 (MON _ _)) in WH.
      apply LMON; [| exact WH].
      intros T. split; [exact (proj1 (D (proj1 LG T))) | exact (proj2 (D (proj1 LG T)) _ eq_refl)].
Qed.

(** An upper bound of minus one or less of a parameter with logarithm does not
    restrict the fit, although no point satisfies it. *)
Theorem C82_dropped tr name t n bounds bounds' k h :
  Ready tr name t n -> length bounds = n ->
  transform_bounds (Some tr) name bounds = Ok bounds' -> (k < n)%nat -> Logged t k ->
  snd (nth k bounds (None, None)) = Some h -> h <= -1 ->
  snd (nth k bounds' (None, None)) = None.
Proof.
  intros (B & HT & SH) LB H Hk LG EH HL. unfold transform_bounds in H.
  apply bind_ok in H. destruct H as (a & E & H). injection H as <-.
  rewrite nth_map_seq by lia. cbn [fst snd]. rewrite EH. unfold finite_bound.
  rewrite (log_flag_logged tr name t n k HT SH Hk).
  rewrite (proj2 (logged_spec t n k SH Hk) LG). cbn [andb].
  rewrite (proj2 (Rleb_true _ _)) by lra. reflexivity.
Qed.

Lemma num_fitted_le fit : (num_fitted fit <= length fit)%nat.
Proof.
  unfold num_fitted. induction fit as [| f fit IH]; [simpl; lia |].
  cbn [filter length]. destruct f; cbn [length]; lia.
Qed.

Lemma some_held_count fit i : Held fit i -> (num_fitted fit < length fit)%nat.
Proof.
  unfold Held, num_fitted. revert i. induction fit as [| f fit IH]; intros [| i] H; try discriminate.
  - injection H as ->. cbn [filter length]. pose proof (num_fitted_le fit) as L. unfold num_fitted in L. lia.
  - specialize (IH i H). cbn [filter length]. destruct f; cbn [length]; lia.
Qed.

(** Bounds and a held parameter exclude each other for one event in the
    transformed space: the transformation wants an interval for every
    parameter, the minimiser for every fitted one. *)
Theorem C82_held tr name t nparams losses minimise fit seed b :
  Ready tr name t nparams -> Table seed nparams 1 -> (exists i, Held fit i) ->
  forall r, reconstruct_events (Some tr) name nparams losses minimise fit true seed (Some b) <> Ok r.
Proof.
  intros (B & HT & SH) TS (i & HI) r H. unfold reconstruct_events in H.
  destruct (Nat.eqb_spec (length fit) nparams) as [<- |]; cbn [negb] in H; [| discriminate].
  apply bind_ok in H. destruct H as ((bd, st) & E1 & H). apply bind_ok in H.
  destruct H as (x0 & F & H). cbn [fst snd] in *. apply bind_ok in H. destruct H as (x & MI & _).
  apply bind_ok in E1. destruct E1 as (ob & EB & E1). apply bind_ok in E1.
  destruct E1 as (s' & E1 & E2).
  assert (ob = bd) by congruence. assert (s' = st) by congruence. subst ob s'. clear E2.
  apply bind_ok in EB. destruct EB as (b' & EB & E2).
  assert (bd = Some b') by congruence. subst bd. clear E2.
  destruct (transform_known _ _ _ _ E1) as (s & HS).
  destruct (transform_cells tr name t s _ B HT HS SH seed st 1 TS E1) as (TT & _).
  destruct (fitted_columns_spec fit st 1 x0 TT F) as (T0 & _).
  unfold transform_bounds in EB. apply bind_ok in EB. destruct EB as (a & EA & EB).
  injection EB as <-. apply transform_ok in EA. destruct EA as (t' & s' & Q1 & _ & Q2 & _).
  assert (t' = t) by congruence. subst t'. cbn [table ar_shape] in Q2. rewrite SH in Q2.
  injection Q2 as Q2. unfold scipy_minimize in MI.
  rewrite map_length, seq_length in MI.
  destruct T0 as (_ & L0 & F0). rewrite (concat_length_rows _ _ F0) in MI.
  match type of MI with (if ?c then _ else _) = _ => destruct c eqn:Q end; [| discriminate].
  apply Nat.eqb_eq in Q.
  pose proof (some_held_count fit i HI) as N.
  assert (Q3 : length b = length fit) by exact Q2.
  cut (length b = num_fitted fit); [intros Q4; rewrite Q3 in Q4; lia |]. rewrite Q.
  transitivity (1 * num_fitted fit)%nat; [| lia]. f_equal. exact L0.
Qed.

(** ** C83: TensorFlow Probability and held parameters *)
Theorem C83_held tr name nparams losses optimise fit (in_trafo : bool) seed :
  (exists i, Held fit i) ->
  (forall r, tf_reconstruct_events tr name nparams losses optimise fit in_trafo seed <> Ok r) /\
  (forall st, length fit = nparams ->
     (if in_trafo then transform tr seed name true else Ok seed) = Ok st ->
     tf_reconstruct_events tr name nparams losses optimise fit in_trafo seed = Err TypeError).
Proof.
  intros (i & HI). apply held_not_all in HI. unfold tf_reconstruct_events, fitted_columns. rewrite HI.
  split.
  - intros r. destruct (negb _); [discriminate |].
    destruct (if in_trafo then _ else _); discriminate.
  - intros st <- E. rewrite Nat.eqb_refl. cbn [negb]. rewrite E. reflexivity.
Qed.

(** With all parameters it starts from the seed and the result of the
    optimiser is returned. *)
Theorem C83_all_fitted tr name nparams losses optimise fit (in_trafo : bool) seed st :
  (forall i, (i < length fit)%nat -> Fitted fit i) -> length fit = nparams ->
  (if in_trafo then transform tr seed name true else Ok seed) = Ok st ->
  tf_reconstruct_events tr name nparams losses optimise fit in_trafo seed =
  optimise (fun xa => parameter_loss tr name losses fit in_trafo xa seed) st.
Proof.
  intros A <- E. apply C49_all_parameters in A. unfold covariance_init in A.
  destruct (all_fitted fit) eqn:AF; [| discriminate].
  unfold tf_reconstruct_events, fitted_columns. rewrite Nat.eqb_refl, AF. cbn [negb].
  rewrite E. reflexivity.
Qed.

(** ** C84: the spherical optimiser *)

Lemma crs2_accepted sph : accepted (crs2_config sph) 7 20.
Proof.
  split; [| split; discriminate]. right. cbn [crs2_config g_method g_batch]. repeat split; lia.
Qed.

(** It only works for seven fitted parameters. *)
Theorem C84_seven tr name nparams obj argsort rnd noise az ze fit (in_trafo : bool) seed r :
  spherical_reconstruct_events tr name nparams obj argsort rnd noise az ze fit in_trafo seed = Ok r ->
  num_fitted fit = 7%nat.
Proof.
  unfold spherical_reconstruct_events. destruct (negb (Nat.eqb (length fit) nparams)); [discriminate |].
  intros H. apply bind_ok in H. destruct H as (st & _ & H). apply bind_ok in H.
  destruct H as (x0 & _ & H). apply bind_ok in H. destruct H as (sph & _ & H).
  destruct (Nat.eqb_spec (num_fitted fit) 7) as [E |]; [exact E | discriminate].
Qed.

(** The seed is one of the initial points and the result is never worse. *)
Theorem C84_never_worse tr name nparams obj argsort rnd noise az ze fit (in_trafo : bool) seed best o :
  (forall sph, numpy_sound argsort rnd (crs2_config sph)) ->
  spherical_reconstruct_events tr name nparams obj argsort rnd noise az ze fit in_trafo seed
    = Ok (best, o) ->
  exists st x0, (if in_trafo then transform tr seed name true else Ok seed) = Ok st /\
    fitted_columns false fit st = Ok x0 /\
    o_fun o = obj (o_x o) /\ o_fun o <= obj (hd [] (ar_rows x0)) /\
    concat (ar_rows best) = o_x o.
Proof.
  intros NS. unfold spherical_reconstruct_events.
  destruct (negb (Nat.eqb (length fit) nparams)); [discriminate |].
  intros H. apply bind_ok in H. destruct H as (st & E1 & H). apply bind_ok in H.
  destruct H as (x0 & E2 & H). apply bind_ok in H. destruct H as (sph & E3 & H).
  destruct (Nat.eqb_spec (num_fitted fit) 7) as [E |]; [cbn [negb] in H | discriminate].
  apply bind_ok in H. destruct H as (o' & EO & H). apply bind_ok in H.
  destruct H as (best' & RS & H). injection H as -> ->.
  assert (PF : (0 < num_fitted fit)%nat) by lia.
  exists st, x0. split; [exact E1 |]. split; [exact E2 |].
  pose proof (C43_values obj argsort rnd (crs2_config sph) (num_fitted fit) _ o (NS sph) PF EO)
    as (_ & _ & _ & V). split; [exact V |].
  set (pts := tile_seed noise (hd [] (ar_rows x0))) in *.
  assert (IN : In (hd [] (ar_rows x0)) pts) by (left; reflexivity).
  split.
  - destruct (Z.eq_dec (o_flag o) (-1)) as [F | F].
    + exact (C43_reported obj argsort rnd _ _ pts o (NS sph) PF EO (or_introl F) _ IN).
    + destruct (Nat.eq_dec (o_nit o) 0) as [N | N].
      * destruct (C43_stopped_at_once obj argsort rnd _ _ pts o (NS sph) PF EO F N) as (X & _).
        rewrite V, X. apply Rle_refl.
      * exact (C43_reported obj argsort rnd _ _ pts o (NS sph) PF EO
                 (or_intror (proj1 (Nat.neq_0_lt_0 _) N)) _ IN).
  - unfold reshape in RS. destruct (Nat.eqb _ 0); [discriminate |].
    destruct (Nat.eqb_spec (length (o_x o) mod num_fitted fit) 0) as [M |]; [| discriminate].
    injection RS as <-. cbn [table ar_rows].
    assert (G : forall m n l, length l = (m * n)%nat -> concat (chunks m n l) = l).
    { clear. induction m as [| m IH]; intros n l L; cbn [chunks concat].
      - destruct l; [reflexivity | discriminate].
      - rewrite IH; [apply firstn_skipn |]. rewrite skipn_length. simpl in L. lia. }
    apply G. rewrite Nat.mul_comm. apply Nat.div_exact; [lia | exact M].
Qed.

(** The search starts from twenty points, the seed and nineteen drawn around
    it, and treats azimuth and zenith as a direction exactly if all parameters
    are fitted in the original space. *)
Theorem C84_start tr name nparams obj argsort rnd noise az ze fit (in_trafo : bool) seed best o :
  spherical_reconstruct_events tr name nparams obj argsort rnd noise az ze fit in_trafo seed
    = Ok (best, o) ->
  exists st x0 g pts,
    (if in_trafo then transform tr seed name true else Ok seed) = Ok st /\
    fitted_columns false fit st = Ok x0 /\
    spherical_opt obj argsort rnd g 7 pts = Ok o /\
    length pts = 20%nat /\ hd [] pts = hd [] (ar_rows x0) /\
    (forall k, (1 <= k < 20)%nat -> nth k pts [] = noise k (hd [] (ar_rows x0))) /\
    g_method g = CRS2 /\ g_batch g = 1%nat /\ g_fstd g = 1 / 10 /\ g_cstd g = None /\
    g_sstd g = None /\
    (in_trafo = true \/ (exists i, Held fit i) -> g_spher g = []) /\
    (in_trafo = false -> (forall i, (i < length fit)%nat -> Fitted fit i) ->
       exists a z, az = Ok a /\ ze = Ok z /\ g_spher g = [(a, z)]).
Proof.
  unfold spherical_reconstruct_events.
  destruct (negb (Nat.eqb (length fit) nparams)); [discriminate |].
  intros H. apply bind_ok in H. destruct H as (st & E1 & H). apply bind_ok in H.
  destruct H as (x0 & E2 & H). apply bind_ok in H. destruct H as (sph & E3 & H).
  destruct (Nat.eqb_spec (num_fitted fit) 7) as [E |]; [cbn [negb] in H | discriminate].
  apply bind_ok in H. destruct H as (o' & EO & H). apply bind_ok in H.
  destruct H as (best' & RS & H). injection H as -> ->. rewrite E in EO.
  exists st, x0, (crs2_config sph), (tile_seed noise (hd [] (ar_rows x0))).
  split; [exact E1 |]. split; [exact E2 |]. split; [exact EO |].
  split; [unfold tile_seed; cbn [length]; rewrite map_length, seq_length; reflexivity |].
  split; [reflexivity |]. split.
  { intros k Hk. unfold tile_seed. destruct k as [| k]; [lia |]. cbn [nth].
    rewrite (nth_indep _ [] (noise 0%nat (hd [] (ar_rows x0)))) by (rewrite map_length, seq_length; lia).
    rewrite (map_nth (fun k => noise k (hd [] (ar_rows x0)))), seq_nth by lia. reflexivity. }
  split; [reflexivity |]. split; [reflexivity |]. split; [reflexivity |].
  split; [reflexivity |]. split; [reflexivity |]. cbn [crs2_config g_spher]. split.
  - intros [-> | (i & HI)]; [injection E3 as <-; reflexivity |].
    rewrite (held_not_all fit i HI), orb_true_r in E3. injection E3 as <-. reflexivity.
  - intros -> A. apply C49_all_parameters in A. unfold covariance_init in A.
    destruct (all_fitted fit); [| discriminate]. cbn [negb orb] in E3.
    apply bind_ok in E3. destruct E3 as (a & EA & E3). apply bind_ok in E3.
    destruct E3 as (z & EZ & E3). injection E3 as <-. exists a, z. repeat split; assumption.
Qed.

(** ** C85: the global scipy interface *)

(** Outside of the transformed space it always fails, before any search. *)
Theorem C85_original_space tr name nparams losses shgo fit seed :
  length fit = nparams ->
  shgo_reconstruct_events tr name nparams losses shgo fit false seed = Err AssertionError.
Proof.
  intros <-. unfold shgo_reconstruct_events. rewrite Nat.eqb_refl. reflexivity.
Qed.

(** With a held parameter the search has one interval for every parameter, and
    the objective function raises at every one of its points. *)
Theorem C85_held tr name t losses fit seed x :
  Ready tr name t (length fit) -> Table seed (length fit) 1 -> (exists i, Held fit i) ->
  length x = length fit ->
  forall v, objective (Some tr) name losses fit true seed x <> Ok v.
Proof.
  intros (B & HT & SH) TS (i & HI) LX v H. pose proof (some_held_count fit i HI) as LT.
  unfold objective in H. apply bind_ok in H. destruct H as (xa & EX & H).
  assert (PL : (0 < length fit)%nat) by lia.
  rewrite (reshape_concat _ seed 1 PL TS) in H. cbn [bind] in H.
  unfold parameter_loss in H. apply bind_ok in H. destruct H as (full & EL & _).
  unfold loss_parameters in EL. pose proof (held_not_all fit i HI) as NA. rewrite NA in EL.
  apply bind_ok in EL. destruct EL as (mg & EM & _). apply bind_ok in EM.
  destruct EM as (st & ET & EM). destruct (transform_known _ _ _ _ ET) as (s & HS).
  destruct (transform_cells tr name t s _ B HT HS SH seed st 1 TS ET) as (TT & _).
  destruct (reshape_table _ _ _ EX) as (P & M & TX).
  destruct (merge_spec fit xa st mg _ _ 1 _ NA TX TT EM) as (_ & X). specialize (X P).
  apply Nat.div_exact in M; [| lia]. rewrite X in M. lia.
Qed.

(** In the transformed space with all parameters the search has for one event
    the interval of one around every transformed value of the seed. *)
Theorem C85_box tr name nparams losses shgo fit seed r st :
  Table st nparams 1 -> transform tr seed name true = Ok st ->
  shgo_reconstruct_events tr name nparams losses shgo fit true seed = Ok r ->
  exists box x, shgo (objective tr name losses fit true seed) box = Ok x /\
    length box = nparams /\
    forall i, (i < nparams)%nat ->
      nth i box (0, 0) = (cell st 0 i - 1, cell st 0 i + 1).
Proof.
  intros (_ & L & F) E H. unfold shgo_reconstruct_events in H.
  destruct (negb _); [discriminate |]. rewrite E in H. cbn [bind negb] in H.
  destruct (ar_rows st) as [| row [|]] eqn:ER; try discriminate.
  apply bind_ok in H. destruct H as (x & HS & _). inversion F as [| ? ? LR _]; subst.
  eexists. exists x. split; [exact HS |]. split; [rewrite map_length; reflexivity |].
  intros i Hi. unfold cell. rewrite ER. cbn [nth].
  rewrite (nth_indep _ (0, 0) ((fun v => (v - 1, v + 1)) 0)) by (rewrite map_length; exact Hi).
  apply (map_nth (fun v => (v - 1, v + 1))).
Qed.

(** ** Examples *)

(** A selection with two results. *)
Example select_ex : exists r,
  select_best R (fun x => Ok (Some x)) ["a"; "b"]
    [("a", [("loss_reco", 1); ("runtime", 5)]); ("b", [("loss_reco", 2); ("runtime", 6)])]
    = Ok r.
Proof.
  unfold select_best. cbn [select_loop dget String.eqb Ascii.eqb Bool.eqb bind].
  destruct (Rltb 2 1); eexists; reflexivity.
Qed.

Definition ex_seed : array := table 2 [[0; 5]].
Definition ex_fit : list bool := [true; false].

Lemma ex_seed_table : Table ex_seed 2 1.
Proof. split; [reflexivity |]. split; [reflexivity |]. repeat constructor. Qed.

(** The transformation of [trafo_ex] with a seed of one event; the first
    parameter is logarithmic and fitted, the second is plain and held. *)
Example ready_ex : exists tr d, Ready tr "x" ex_t 2 /\ Mixed ex_t /\ LogDomain ex_t ex_seed /\
  Unclipped ex_t ex_seed /\ Fitted ex_fit 0 /\ Held ex_fit 1 /\
  (exists s, dget "x" (tr_data tr) = Some s) /\
  transform (Some tr) ex_seed "x" true = Ok d /\ Table d 2 1.
Proof.
  destruct trafo_ex as (tr & _ & B & _ & HT & _ & L0 & L1 & d & E).
  assert (SH : ti_shape ex_t = [2%nat]) by reflexivity.
  destruct (transform_known _ _ _ _ E) as (s & HS).
  destruct (transform_success tr "x" _ ex_seed d E eq_refl) as ((d' & E') & _).
  destruct (transform_cells tr "x" ex_t s 2 B HT HS SH ex_seed d' 1 ex_seed_table E') as (TD & _).
  exists tr, d'. split; [split; [exact B | split; [exact HT | reflexivity]] |].
  assert (V : forall e i x, In e (ar_rows ex_seed) -> nth_error e i = Some x -> Logged ex_t i -> x = 0).
  { intros e i x [<- | []] N L. destruct i as [| [| i]]; cbn in N;
      [congruence | contradiction | destruct i; discriminate]. }
  split; [exists [true; false]; split; [reflexivity | right; left; reflexivity] |].
  split; [intros e i x I N L; rewrite (V e i x I N L); lra |].
  split; [intros _ e i x I N L; rewrite (V e i x I N L), Rplus_0_r, ln_1; lra |].
  split; [reflexivity |]. split; [reflexivity |]. split; [exists s; exact HS |].
  split; assumption.
Qed.

(** A fit in the transformed space whose result is merged with the seed. *)
Example merge_ex : exists tr r, Ready tr "x" ex_t 2 /\
  get_reco_result_batch (Some tr) "x" false (table 1 [[3]]) ex_seed ex_fit true = Ok r.
Proof.
  destruct ready_ex as (tr & d & (B & HT & SH) & _ & _ & _ & _ & _ & (s & HS) & E & TD).
  assert (T1 : Table (table 1 [[3]]) (num_fitted ex_fit) 1)
    by (split; [reflexivity |]; split; [reflexivity | repeat constructor]).
  destruct (merge_ok ex_fit (table 1 [[3]]) d 1 T1 TD) as (m & M).
  assert (TM : Table m 2 1) by exact (proj1 (proj1 (merge_spec ex_fit _ d m _ _ 1 1 eq_refl T1 TD M))).
  destruct (transform_success tr "x" ex_seed m d E) as (_ & Y).
  { destruct TM as (-> & _). reflexivity. }
  destruct (Y false) as (r & ER). exists tr, r. split; [split; [exact B | split; assumption] |].
  unfold get_reco_result_batch. rewrite E. cbn [bind].
  change (all_fitted ex_fit) with false. cbv iota. rewrite M. exact ER.
Qed.

(** A minimiser that tries one step and keeps the better point. *)
Definition one_step (f : list R -> result R) (x0 : list R)
  (b : option (list (bound * bound))) : result (list R) :=
  let x1 := map (fun v => v - 1) x0 in
  match f x1, f x0 with
  | Ok v1, Ok v0 => if Rltb v1 v0 then Ok x1 else Ok x0
  | _, _ => Ok x0
  end.

Lemma one_step_descends : Descends one_step /\ KeepsLength one_step.
Proof.
  split.
  - intros f x0 b x v0 H E. unfold one_step in H. rewrite E in H.
    destruct (f (map (fun v => v - 1) x0)) as [v1 |] eqn:E1.
    + destruct (Rltb v1 v0) eqn:C; injection H as <-.
      * apply Rltb_true in C. exists v1. split; [exact E1 | lra].
      * exists v0. split; [exact E | lra].
    + injection H as <-. exists v0. split; [exact E | lra].
  - intros f x0 b x H. unfold one_step in H.
    destruct (f (map (fun v => v - 1) x0)) as [v1 |]; [destruct (f x0) as [v0 |];
      [destruct (Rltb v1 v0) |] |]; injection H as <-; rewrite ?map_length; reflexivity.
Qed.

(** A reconstruction of one event that reaches a smaller loss. *)
Example reco_ex : exists res,
  execute_reconstruction None "x" 2 [fun a => Ok (cell a 0 0)]
    (fun s => reconstruct_events None "x" 2 [fun a => Ok (cell a 0 0)] one_step ex_fit false s None)
    false ex_fit false ex_seed = Ok res /\
  r_loss_seed res = 0 /\ r_loss_reco res = 0 - 1 /\ r_result res = table 2 [[0 - 1; 5]].
Proof.
  assert (H : reconstruct_events None "x" 2 [fun a => Ok (cell a 0 0)] one_step ex_fit false ex_seed None
              = Ok (table 1 [[0 - 1]])).
  { cbv -[Rltb Rminus IZR]. rewrite (proj2 (Rltb_true (0 - 1) 0)) by lra. reflexivity. }
  eexists. unfold execute_reconstruction. rewrite H. cbn [bind].
  split; [reflexivity |]. split; [reflexivity |]. split; reflexivity.
Qed.

(** Bounds of both parameters in the transformed space. *)
Example bounds_ex : exists tr b, Ready tr "x" ex_t 2 /\
  transform_bounds (Some tr) "x" [(Some 0, None); (Some 1, Some 2)] = Ok b.
Proof.
  destruct ready_ex as (tr & d & R & _ & _ & _ & _ & _ & _ & E & _).
  destruct (transform_success tr "x" ex_seed (table 2 [[0; 1]; [0; 2]]) d E eq_refl)
    as ((d' & E') & _).
  exists tr. eexists. split; [exact R |]. unfold transform_bounds.
  cbn [length map fst snd]. rewrite E'. reflexivity.
Qed.

(** Seven parameters, all fitted. *)
Example seven_ex : num_fitted (repeat true 7) = 7%nat /\ accepted (crs2_config []) 7 20.
Proof. split; [reflexivity | apply crs2_accepted]. Qed.

(** A covariance after a fit in the transformed space. *)
Example covariance_ex : exists tr res, Built tr /\
  execute_covariance (Some tr) "x" 2 Some (fun _ _ => 0) true (fun i j => if Nat.eqb i j then 1 else 0)
    (opg_estimate [fun i => INR i]) None = Ok res.
Proof.
  destruct ready_ex as (tr & d & (B & HT & SH) & _ & _ & _ & _ & _ & (s & HS) & _).
  exists tr.
  assert (C : forall M, exists M', inverse_transform_cov (Some tr) 2 2 M "x" = Ok M').
  { intros M. destruct (C24_covariance_reduced tr 2 M "x" s ex_t B HS HT SH) as (X & _).
    specialize (X eq_refl). destruct (inverse_transform_cov (Some tr) 2 2 M "x") as [M' |];
      [exists M'; reflexivity | discriminate]. }
  unfold execute_covariance.
  match goal with |- context [inverse_transform_cov (Some tr) 2 2 (sandwich 2 ?a ?b)] =>
    destruct (C a) as (m1 & E1); destruct (C (sandwich 2 a b)) as (m2 & E2) end.
  cbv zeta iota. rewrite E1. cbn [bind]. rewrite E2. eexists. split; [exact B | reflexivity].
Qed.

Print Assumptions C48_last.
Print Assumptions C48_succeeds.
Print Assumptions C48_no_names.
Print Assumptions C48_best_refuted.
Print Assumptions C49_all_parameters.
Print Assumptions C49_original_space.
Print Assumptions C86_outer_product.
Print Assumptions C86_sandwich.
Print Assumptions C86_covariances.
Print Assumptions C49_transformed_space.
Print Assumptions C51_merge.
Print Assumptions C51_held.
Print Assumptions C51_fitted.
Print Assumptions C51_point.
Print Assumptions C51_start.
Print Assumptions C51_none_fitted.
Print Assumptions C81_descends.
Print Assumptions C82_bounds.
Print Assumptions C82_dropped.
Print Assumptions C82_held.
Print Assumptions C83_held.
Print Assumptions C83_all_fitted.
Print Assumptions C84_seven.
Print Assumptions C84_never_worse.
Print Assumptions C85_original_space.
Print Assumptions C85_held.
Print Assumptions C85_box.
Print Assumptions C81_all_models.
Print Assumptions C84_start.
