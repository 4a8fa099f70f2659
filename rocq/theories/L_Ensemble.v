(** Facts about the loss of several models. *)
From Coq Require Import Reals Psatz List.
From Verif Require Import Py RList M_Trafo M_Reco M_Ensemble S_Ensemble.
Import ListNotations.
Open Scope R_scope.

(** ** Scaled derivatives *)
Definition scaled (c : R) (a b : jet) : Prop := (forall i, j_grad b i = c * j_grad a i) /\ (forall i j, j_hess b i j = c * j_hess a i j).

Lemma term_add_scaled c t t1 : Forall2 (scaled c) t t1 -> exists t2, term_add t1 t = Ok t2 /\ Forall2 (scaled (c + 1)) t t2.
Proof.
  intros H. assert (L : length t1 = length t) by (symmetry; induction H; cbn; congruence). unfold term_add. rewrite L, Nat.eqb_refl. eexists. split; [reflexivity|].
  clear L. induction H as [|a b t t1 [Hg Hh] _ IH]; cbn; constructor; [|exact IH]. split; cbn; intros; [rewrite Hg|rewrite Hh]; ring.
Qed.
Lemma add_terms_scaled c m m1 : Forall2 (Forall2 (scaled c)) m m1 -> exists m2, add_terms m1 m = Ok m2 /\ Forall2 (Forall2 (scaled (c + 1))) m m2.
Proof.
  induction 1 as [|t t1 m m1 Ht _ (m2 & E & IH)]; [exists []; split; [reflexivity|constructor]|].
  destruct (term_add_scaled c t t1 Ht) as (t2 & Et & H2). exists (t2 :: m2). cbn [add_terms]. rewrite Et. cbn [bind]. rewrite E. cbn [bind]. split; [reflexivity|constructor; assumption].
Qed.
Lemma add_models_scaled m k : forall c m1, Forall2 (Forall2 (scaled c)) m m1 ->
  exists m2, add_models m1 (repeat m k) = Ok m2 /\ Forall2 (Forall2 (scaled (c + INR k))) m m2.
Proof.
  induction k as [|k IH]; intros c m1 H.
  - exists m1. split; [reflexivity|]. replace (c + INR 0) with c by (cbn; ring). exact H.
  - destruct (add_terms_scaled c m m1 H) as (m2 & E & H2). destruct (IH (c + 1) m2 H2) as (m3 & E3 & H3). exists m3. cbn [repeat add_models]. rewrite E. cbn [bind].
    split; [exact E3|]. rewrite S_INR. replace (c + (INR k + 1)) with (c + 1 + INR k) by ring. exact H3.
Qed.
Lemma scaled_one (m : list term) : Forall2 (Forall2 (scaled 1)) m m.
Proof. induction m as [|t m IH]; constructor; [|exact IH]. induction t; constructor; [|assumption]. split; intros; ring. Qed.

Lemma ensemble_repeat m k : exists m2, ensemble_terms (repeat m (S k)) = Ok m2 /\ Forall2 (Forall2 (scaled (INR (S k)))) m m2.
Proof.
  destruct (add_models_scaled m k 1 m (scaled_one m)) as (m2 & E & H). exists m2. split; [exact E|]. rewrite S_INR. replace (INR k + 1) with (1 + INR k) by ring. exact H.
Qed.

Lemma Forall2_concat {A B} (R : A -> B -> Prop) la lb : Forall2 (Forall2 R) la lb -> Forall2 R (concat la) (concat lb).
Proof. induction 1; cbn; [constructor|]. apply Forall2_app; assumption. Qed.

Lemma opg_scaled c (l l' : list jet) i j : Forall2 (scaled c) l l' ->
  opg_estimate (map j_grad l') i j = c * c * opg_estimate (map j_grad l) i j.
Proof.
  intros H. unfold opg_estimate. induction H as [|a b l l' [Hg _] _ IH]; [unfold Rsum; cbn; ring|]. cbn [map]. rewrite !Rsum_cons, IH, !Hg. ring.
Qed.
Lemma ensemble_opg_repeat m k : exists o, ensemble_opg (repeat m (S k)) = Ok o /\
  forall i j, o i j = INR (S k) * INR (S k) * opg_estimate (map j_grad (concat m)) i j.
Proof.
  destruct (ensemble_repeat m k) as (m2 & E & H). unfold ensemble_opg. rewrite E. cbn [bind]. eexists. split; [reflexivity|].
  intros i j. apply opg_scaled. apply Forall2_concat. exact H.
Qed.
Lemma ensemble_opg_one m : ensemble_opg [m] = Ok (opg_estimate (map j_grad (concat m))).
Proof. reflexivity. Qed.

Lemma jet_sum_hess l i j : j_hess (jet_sum l) i j = Rsum (map (fun a => j_hess a i j) l).
Proof.
  induction l as [|a l IH]; [reflexivity|]. change (jet_sum (a :: l)) with (jet_add a (jet_sum l)). cbn [jet_add j_hess map]. rewrite Rsum_cons, IH. reflexivity.
Qed.
Lemma hessian_sum models i j : ensemble_hessian models i j = Rsum (map (fun m => Rsum (map (fun a => j_hess a i j) (concat m))) models).
Proof. unfold ensemble_hessian. rewrite jet_sum_hess, map_map. f_equal. apply map_ext. intros m. apply jet_sum_hess. Qed.
Lemma hessian_repeat m k i j : ensemble_hessian (repeat m k) i j = INR k * ensemble_hessian [m] i j.
Proof.
  rewrite !hessian_sum. cbn [map]. unfold Rsum at 3. cbn [fold_right]. rewrite Rplus_0_r. induction k as [|k IH]; [unfold Rsum; cbn; ring|].
  cbn [repeat map]. rewrite Rsum_cons, IH, S_INR. ring.
Qed.

(** ** Inverses *)
Lemma Rsum_delta (f : nat -> R) n i : (i < n)%nat -> Rsum (map (fun k => delta i k * f k) (seq 0 n)) = f i.
Proof.
  assert (G : forall m a, (a <= i < a + m)%nat -> Rsum (map (fun k => delta i k * f k) (seq a m)) = f i).
  { assert (Z : forall m a, (i < a)%nat -> Rsum (map (fun k => delta i k * f k) (seq a m)) = 0).
    { induction m as [|m IH]; intros a H; [reflexivity|]. cbn [seq map]. rewrite Rsum_cons, IH by lia. unfold delta. destruct (Nat.eqb_spec i a); [lia|ring]. }
    induction m as [|m IH]; intros a H; [lia|]. cbn [seq map]. rewrite Rsum_cons. unfold delta at 1. destruct (Nat.eqb_spec i a) as [->|Hn].
    - rewrite Z by lia. ring.
    - rewrite IH by lia. ring. }
  intros H. apply G. lia.
Qed.
Lemma Rsum_delta_r (f : nat -> R) n i : (i < n)%nat -> Rsum (map (fun k => f k * delta k i) (seq 0 n)) = f i.
Proof.
  intros H. rewrite <- (Rsum_delta f n i H). apply Rsum_map_ext. intros k _. unfold delta. rewrite (Nat.eqb_sym k i). ring.
Qed.
Lemma inverse_unique n A B C i j : InverseOf n A B -> InverseOf n A C -> (i < n)%nat -> (j < n)%nat -> B i j = C i j.
Proof.
  intros HB HC Hi Hj. rewrite <- (Rsum_delta_r (fun k => B i k) n j Hj).
  transitivity (Rsum (map (fun k => B i k * Rsum (map (fun l => A k l * C l j) (seq 0 n))) (seq 0 n))).
  { apply Rsum_map_ext. intros k Hk. apply in_seq in Hk. rewrite (proj1 (HC k j ltac:(lia) Hj)). reflexivity. }
  transitivity (Rsum (map (fun k => Rsum (map (fun l => B i k * A k l * C l j) (seq 0 n))) (seq 0 n))).
  { apply Rsum_map_ext. intros k _. rewrite <- Rsum_map_scal. apply Rsum_map_ext. intros l _. ring. }
  rewrite (Rsum_swap (fun k l => B i k * A k l * C l j)).
  transitivity (Rsum (map (fun l => delta i l * C l j) (seq 0 n))).
  { apply Rsum_map_ext. intros l Hl. apply in_seq in Hl. rewrite <- (proj2 (HB i l Hi ltac:(lia))). rewrite (Rmult_comm _ (C l j)), <- Rsum_map_scal. apply Rsum_map_ext. intros k _. ring. }
  apply (Rsum_delta (fun l => C l j)). exact Hi.
Qed.
Lemma inverse_scaled n A A' B c : c <> 0 -> (forall i j, A' i j = c * A i j) -> InverseOf n A B -> InverseOf n A' (fun i j => B i j / c).
Proof.
  intros Hc HA H i j Hi Hj. destruct (H i j Hi Hj) as [H1 H2]. rewrite <- H1 at 1. rewrite <- H2. split; apply Rsum_map_ext; intros k _; rewrite HA; field; exact Hc.
Qed.
Lemma sandwich_ext n C C' O O' c : c <> 0 -> (forall i j, (i < n)%nat -> (j < n)%nat -> C' i j = C i j / c) -> (forall i j, O' i j = c * c * O i j) ->
  forall i j, (i < n)%nat -> (j < n)%nat -> sandwich n C' O' i j = sandwich n C O i j.
Proof.
  intros Hc HC HO i j Hi Hj. unfold sandwich, matmul. apply Rsum_map_ext. intros k Hk. apply in_seq in Hk. rewrite (HC k j) by lia.
  replace (Rsum (map (fun l => C' i l * O' l k) (seq 0 n))) with (c * Rsum (map (fun l => C i l * O l k) (seq 0 n))); [field; exact Hc|].
  rewrite <- Rsum_map_scal. apply Rsum_map_ext. intros l Hl. apply in_seq in Hl. rewrite (HC i l), HO by lia. field. exact Hc.
Qed.

(** ** Sums of models with terms of the same shapes *)
Lemma term_add_nth a : forall b, length a = length b -> exists t, term_add a b = Ok t /\ length t = length a /\
  forall q i, j_grad (nth q t jet_zero) i = j_grad (nth q a jet_zero) i + j_grad (nth q b jet_zero) i.
Proof.
  intros b L. unfold term_add. rewrite L, Nat.eqb_refl. eexists. split; [reflexivity|]. split; [rewrite map_length, combine_length; lia|].
  revert b L. induction a as [|x a IH]; intros [|y b] L q i; try discriminate L.
  - destruct q; cbn; ring.
  - destruct q as [|q]; [reflexivity|]. cbn [combine map nth]. apply IH. injection L as L. exact L.
Qed.
Lemma add_terms_nth a : forall b, same_layout a b -> exists m, add_terms a b = Ok m /\ same_layout m a /\
  forall p q i, j_grad (number m p q) i = j_grad (number a p q) i + j_grad (number b p q) i.
Proof.
  induction a as [|x a IH]; intros [|y b] L; try discriminate L.
  - exists []. split; [reflexivity|]. split; [reflexivity|]. intros p q i. unfold number. destruct p, q; cbn; ring.
  - injection L as L1 L2. destruct (term_add_nth x y L1) as (t & Et & Lt & Nt). destruct (IH b L2) as (m & Em & Lm & Nm).
    exists (t :: m). cbn [add_terms]. rewrite Et. cbn [bind]. rewrite Em. split; [reflexivity|]. split; [unfold same_layout in *; cbn; congruence|].
    intros [|p] q i; [apply Nt|apply (Nm p q i)].
Qed.
Lemma add_models_nth models : forall loss, Forall (same_layout loss) models -> exists m, add_models loss models = Ok m /\ same_layout m loss /\
  forall p q i, j_grad (number m p q) i = j_grad (number loss p q) i + Rsum (map (fun a => j_grad (number a p q) i) models).
Proof.
  induction models as [|a models IH]; intros loss H.
  - exists loss. split; [reflexivity|]. split; [reflexivity|]. intros. cbn. ring.
  - inversion H as [|? ? Ha Hr]; subst. destruct (add_terms_nth loss a Ha) as (m1 & E1 & L1 & N1).
    destruct (IH m1) as (m & E & L & N).
    { apply Forall_forall. intros b Hb. rewrite Forall_forall in Hr. specialize (Hr b Hb). unfold same_layout in *. congruence. }
    exists m. cbn [add_models]. rewrite E1. split; [exact E|]. split; [unfold same_layout in *; congruence|]. intros p q i. rewrite N, N1. cbn [map]. rewrite Rsum_cons. ring.
Qed.
