(** C193-C194: covariances of managers with several models, and of batches. *)
From Coq Require Import Reals Psatz List.
From Verif Require Import Py PyFacts RList M_Trafo S_Trafo L_Trafo T_Trafo M_Reco L_Reco T_Reco M_Ensemble S_Ensemble L_Ensemble.
Import ListNotations.
Open Scope R_scope.

(** C193: the outer products are those of sums over models: if all models have
    terms of the same shapes, the derivatives of each number are summed before the
    products are formed; the Hessian is the sum of all Hessians. *)
Theorem C193_sum first models : Forall (same_layout first) models ->
  exists terms, ensemble_terms (first :: models) = Ok terms /\ same_layout terms first /\
    ensemble_opg (first :: models) = Ok (opg_estimate (map j_grad (concat terms))) /\
    (forall p q i, j_grad (number terms p q) i = Rsum (map (fun m => j_grad (number m p q) i) (first :: models))) /\
    forall i j, ensemble_hessian (first :: models) i j =
      Rsum (map (fun m => Rsum (map (fun a => j_hess a i j) (concat m))) (first :: models)).
Proof.
  intros H. destruct (add_models_nth models first H) as (m & E & L & N). exists m. cbn [ensemble_terms]. split; [exact E|]. split; [exact L|].
  split; [unfold ensemble_opg; cbn [ensemble_terms]; rewrite E; reflexivity|]. split; [|apply hessian_sum].
  intros p q i. rewrite N. cbn [map]. rewrite Rsum_cons. reflexivity.
Qed.

(** C193: a later model with more terms than the first raises IndexError; the terms
    that a later model lacks are those of the models before. *)
Theorem C193_number_of_terms first second rest : same_layout first second ->
  (rest <> [] -> ensemble_opg [first; second ++ rest] = Err IndexError) /\
  exists out, ensemble_terms [first ++ rest; second] = Ok (out ++ rest) /\ same_layout out first.
Proof.
  intros H. split.
  - intros N. unfold ensemble_opg. cbn [ensemble_terms add_models].
    replace (add_terms first (second ++ rest)) with (@Err (list term) IndexError); [reflexivity|].
    revert second H. induction first as [|t m IH]; intros [|t' m'] H; try discriminate H.
    + destruct rest; [congruence|reflexivity].
    + injection H as H1 H2. destruct (term_add_nth t t' H1) as (x & E & _). cbn [app add_terms]. rewrite E. cbn [bind]. rewrite <- (IH m' H2). reflexivity.
  - cbn [ensemble_terms add_models]. revert second H. induction first as [|t m IH]; intros [|t' m'] H; try discriminate H.
    + exists []. destruct rest; split; reflexivity.
    + injection H as H1 H2. destruct (term_add_nth t t' H1) as (x & E & L & _). destruct (IH m' H2) as (out & Eo & Lo).
      exists (x :: out). cbn [app add_terms]. rewrite E. cbn [bind]. split.
      * destruct (add_terms (m ++ rest) m') as [y|]; cbn [bind] in *; [injection Eo as ->; reflexivity|discriminate].
      * unfold same_layout in *. cbn [map]. congruence.
Qed.

(** C193: with k copies of one model the covariances from the Hessian are those of
    the model divided by k, and the sandwich estimates are those of the model. *)
Theorem C193_copies tr name n inv nans model k s c1 ck res1 resk :
  (forall H C, inv H = Some C -> InverseOf n H C) -> Built tr -> dget name (tr_data tr) = Some s ->
  inv (ensemble_hessian [model]) = Some c1 -> inv (ensemble_hessian (repeat model (S k))) = Some ck ->
  execute_batch (Some tr) name n inv nans true 1 [model] None = Ok res1 ->
  execute_batch (Some tr) name n inv nans true 1 (repeat model (S k)) None = Ok resk ->
  forall key part, In (key, part) [("cov", INR (S k)); ("cov_trafo", INR (S k)); ("cov_sand", 1); ("cov_sand_trafo", 1)] ->
    exists a b, dget key res1 = Some a /\ dget key resk = Some b /\
      forall i j, (i < n)%nat -> (j < n)%nat -> b i j = a i j / part.
Proof.
  intros HI HB HS E1 Ek H1 Hk.
  assert (Hc : INR (S k) <> 0) by (apply not_0_INR; discriminate).
  assert (CC : forall i j, (i < n)%nat -> (j < n)%nat -> ck i j = c1 i j / INR (S k)).
  { intros i j Hi Hj. apply (inverse_unique n (ensemble_hessian (repeat model (S k))) ck (fun i j => c1 i j / INR (S k))); try assumption.
    - apply HI. exact Ek.
    - apply (inverse_scaled n (ensemble_hessian [model])); [exact Hc|intros; apply hessian_repeat|apply HI; exact E1]. }
  unfold execute_batch in H1, Hk. apply bind_ok in H1. destruct H1 as (sh & Es & H1). rewrite Es in Hk. cbn [bind] in Hk.
  rewrite ensemble_opg_one in H1. cbn [bind] in H1. destruct (ensemble_opg_repeat model k) as (o & Eo & Ho). rewrite Eo in Hk. cbn [bind] in Hk.
  destruct sh as [|x sh]; [discriminate|]. unfold execute_covariance in H1, Hk. rewrite E1 in H1. rewrite Ek in Hk.
  apply bind_ok in H1. destruct H1 as (cov1 & A1 & H1). apply bind_ok in H1. destruct H1 as (cs1 & B1 & H1). injection H1 as <-.
  apply bind_ok in Hk. destruct Hk as (covk & Ak & Hk). apply bind_ok in Hk. destruct Hk as (csk & Bk & Hk). injection Hk as <-.
  assert (SS := sandwich_ext n c1 ck _ o (INR (S k)) Hc CC Ho).
  assert (LS : length (st_std s) = n).
  { destruct (built_stats tr name s HB HS) as (t & ET & _ & _ & L & _). rewrite L. unfold inverse_transform_cov, check_settings in A1. rewrite ET in A1.
    cbn [ar_shape] in A1. destruct (list_eqb Nat.eqb [n] (ti_shape t)) eqn:Q; [|discriminate]. apply list_eqb_nat in Q. rewrite <- Q. simpl. lia. }
  assert (TR : forall M M' N N' d, inverse_transform_cov (Some tr) n n M name = Ok M' -> inverse_transform_cov (Some tr) n n N name = Ok N' -> d <> 0 ->
    (forall i j, (i < n)%nat -> (j < n)%nat -> N i j = M i j / d) -> forall i j, (i < n)%nat -> (j < n)%nat -> N' i j = M' i j / d).
  { intros M M' N N' d HM HN Hd HD i j Hi Hj. destruct (C24_covariance tr n n M M' name s HB HS HM) as (_ & FM & _). destruct (C24_covariance tr n n N N' name s HB HS HN) as (_ & FN & _).
    assert (Xi := nth_error_nth' (st_std s) 0 (n := i) ltac:(lia)). assert (Xj := nth_error_nth' (st_std s) 0 (n := j) ltac:(lia)).
    rewrite (FM i j _ _ Hi Hj Xi Xj), (FN i j _ _ Hi Hj Xi Xj), (HD i j Hi Hj). field. exact Hd. }
  intros key part HK. destruct HK as [[= <- <-]|[[= <- <-]|[[= <- <-]|[[= <- <-]|[]]]]]; do 2 eexists; (split; [reflexivity|split; [reflexivity|]]).
  - apply (TR _ _ _ _ _ A1 Ak Hc CC).
  - exact CC.
  - apply (TR _ _ _ _ _ B1 Bk R1_neq_R0). intros i j Hi Hj. rewrite (SS i j Hi Hj). field.
  - intros i j Hi Hj. rewrite (SS i j Hi Hj). field.
Qed.

(** C194: covariances are computed for batches of one event only, and not for
    models with a single parameter. *)
Theorem C194_shapes tr name n inv nans in_trafo batch models hess_inv :
  (batch <> 1%nat -> execute_batch tr name n inv nans in_trafo batch models hess_inv = Err ValueError) /\
  (forall first others, models = first :: others -> Forall (same_layout first) others ->
    execute_batch tr name 1 inv nans in_trafo 1 models hess_inv = Err ValueError /\
    (n <> 1%nat -> exists opg, ensemble_opg models = Ok opg /\
       execute_batch tr name n inv nans in_trafo 1 models hess_inv =
       execute_covariance tr name n inv nans in_trafo (ensemble_hessian models) opg hess_inv)).
Proof.
  split.
  - intros H. unfold execute_batch, hessian_shape. destruct (Nat.eqb_spec batch 1); [contradiction|reflexivity].
  - intros first others -> HL. destruct (C193_sum first others HL) as (terms & _ & _ & E & _). unfold execute_batch. rewrite E. cbn [bind]. split; [reflexivity|].
    intros H. eexists. split; [reflexivity|]. unfold hessian_shape. cbn [Nat.eqb bind filter negb]. destruct (Nat.eqb_spec n 1); [contradiction|]. reflexivity.
Qed.

(** ** Examples *)
Definition ex_jet (a b : R) : jet := {| j_grad := fun i => if Nat.eqb i 0 then a else b; j_hess := fun i j => if Nat.eqb i j then a + 1 else 0 |}.
Definition ex_model : list term := [[ex_jet 1 2; ex_jet 3 4]; [ex_jet 5 6]].
Example ex_layout : Forall (same_layout ex_model) [[[ex_jet 7 8; ex_jet 9 9]; [ex_jet 0 1]]; ex_model].
Proof. repeat constructor. Qed.
Example ex_inverse : InverseOf 2 (fun i j => if Nat.eqb i j then 2 else 0) (fun i j => if Nat.eqb i j then 1 / 2 else 0).
Proof. intros [|[|i]] [|[|j]] Hi Hj; try lia; unfold delta, Rsum; cbn; split; lra. Qed.
Example ex_hessian : forall i j, ensemble_hessian (repeat ex_model 3) i j = 3 * (if Nat.eqb i j then 12 else 0).
Proof. intros i j. rewrite hessian_repeat, hessian_sum. unfold Rsum. cbn. destruct (Nat.eqb i j); lra. Qed.
Example ex_more : ensemble_opg [ex_model; ex_model ++ [[ex_jet 1 1]]] = Err IndexError.
Proof. apply (C193_number_of_terms ex_model ex_model [[ex_jet 1 1]]); [reflexivity|discriminate]. Qed.
(** Inverse of diagonal 2 x 2 matrices *)
Definition ex_inv (h : mat) : option mat :=
  if Req_EM_T (h 0%nat 1%nat) 0 then if Req_EM_T (h 1%nat 0%nat) 0 then if Req_EM_T (h 0%nat 0%nat) 0 then None else if Req_EM_T (h 1%nat 1%nat) 0 then None
    else Some (fun i j => if Nat.eqb i j then / h i i else 0) else None else None.
Lemma ex_inv_ok H C : ex_inv H = Some C -> InverseOf 2 H C.
Proof.
  unfold ex_inv. destruct (Req_EM_T (H 0%nat 1%nat) 0) as [E1|]; [|discriminate]. destruct (Req_EM_T (H 1%nat 0%nat) 0) as [E2|]; [|discriminate].
  destruct (Req_EM_T (H 0%nat 0%nat) 0) as [|E3]; [discriminate|]. destruct (Req_EM_T (H 1%nat 1%nat) 0) as [|E4]; [discriminate|]. intros [= <-].
  intros [|[|i]] [|[|j]] Hi Hj; try lia; unfold delta, Rsum; cbn; rewrite ?E1, ?E2; split; field; assumption.
Qed.
Lemma ex_inv_some k : (0 < k)%nat -> exists c, ex_inv (ensemble_hessian (repeat ex_model k)) = Some c.
Proof.
  intros Hk. assert (E : forall i j, ensemble_hessian (repeat ex_model k) i j = INR k * (if Nat.eqb i j then 12 else 0)).
  { intros i j. rewrite hessian_repeat, hessian_sum. unfold Rsum. cbn. destruct (Nat.eqb i j); lra. }
  assert (P := lt_0_INR k Hk). unfold ex_inv. rewrite !E. cbn [Nat.eqb].
  destruct (Req_EM_T (INR k * 0) 0); [|lra]. destruct (Req_EM_T (INR k * 12) 0); [lra|]. eexists. reflexivity.
Qed.
Example ex_copies : exists tr s c1 c3 res1 res3, Built tr /\ dget "x" (tr_data tr) = Some s /\
  ex_inv (ensemble_hessian [ex_model]) = Some c1 /\ ex_inv (ensemble_hessian (repeat ex_model 3)) = Some c3 /\
  execute_batch (Some tr) "x" 2 ex_inv (fun _ _ => 0) true 1 [ex_model] None = Ok res1 /\
  execute_batch (Some tr) "x" 2 ex_inv (fun _ _ => 0) true 1 (repeat ex_model 3) None = Ok res3.
Proof.
  destruct ready_ex as (tr & d & (B & HT & SH) & _ & _ & _ & _ & _ & (s & HS) & _).
  destruct (ex_inv_some 1 ltac:(lia)) as (c1 & E1). destruct (ex_inv_some 3 ltac:(lia)) as (c3 & E3). cbn [repeat] in E1.
  assert (C : forall M, exists M', inverse_transform_cov (Some tr) 2 2 M "x" = Ok M').
  { intros M. destruct (C24_covariance_reduced tr 2 M "x" s ex_t B HS HT SH) as (X & _).
    specialize (X eq_refl). destruct (inverse_transform_cov (Some tr) 2 2 M "x") as [M' |]; [exists M'; reflexivity | discriminate]. }
  assert (R : forall models h c o, ensemble_opg models = Ok o -> h = ensemble_hessian models -> ex_inv h = Some c -> exists res,
    execute_batch (Some tr) "x" 2 ex_inv (fun _ _ => 0) true 1 models None = Ok res).
  { intros models h c o Eo -> Ec. unfold execute_batch. rewrite Eo. cbn [bind hessian_shape Nat.eqb filter negb]. unfold execute_covariance. rewrite Ec.
    destruct (C c) as (m1 & F1). destruct (C (sandwich 2 c o)) as (m2 & F2). rewrite F1. cbn [bind]. rewrite F2. eexists. reflexivity. }
  destruct (ensemble_opg_repeat ex_model 2) as (o & Eo & _).
  destruct (R [ex_model] _ c1 _ (ensemble_opg_one ex_model) eq_refl E1) as (res1 & R1). destruct (R (repeat ex_model 3) _ c3 o Eo eq_refl E3) as (res3 & R3).
  exists tr, s, c1, c3, res1, res3. repeat split; assumption.
Qed.

Print Assumptions C193_sum.
Print Assumptions C193_number_of_terms.
Print Assumptions C193_copies.
Print Assumptions C194_shapes.
