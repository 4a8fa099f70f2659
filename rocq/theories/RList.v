(** Finite sums, means and zipped operations on lists of exact reals: the
    vocabulary shared by the numerical models. *)
From Coq Require Export Reals Lra.
From Coq Require Import Psatz.
From Verif Require Export Py.
Open Scope R_scope.

(** [np.sum] of a one-dimensional array. *)
Definition Rsum (l : list R) : R := fold_right Rplus 0 l.

(** Number of elements as a real. *)
Definition Rlen {A} (l : list A) : R := INR (length l).

(** [np.mean] *)
Definition Rmean (l : list R) : R := Rsum l / Rlen l.

(** Element-wise binary operation on two arrays of the same length. *)
Definition zipw {A B C} (f : A -> B -> C) (a : list A) (b : list B) : list C :=
  map (fun ab => f (fst ab) (snd ab)) (combine a b).

(** Comparison of reals as a boolean. *)
Definition Reqb (x y : R) : bool := if Req_EM_T x y then true else false.
Definition Rltb (x y : R) : bool := if Rlt_dec x y then true else false.
Definition Rleb (x y : R) : bool := if Rle_dec x y then true else false.

Lemma Reqb_true x y : Reqb x y = true <-> x = y.
Proof. unfold Reqb. destruct (Req_EM_T x y); split; congruence. Qed.
Lemma Reqb_false x y : Reqb x y = false <-> x <> y.
Proof. unfold Reqb. destruct (Req_EM_T x y); split; congruence. Qed.
Lemma Rltb_true x y : Rltb x y = true <-> x < y.
Proof. unfold Rltb. destruct (Rlt_dec x y); split; congruence. Qed.
Lemma Rltb_false x y : Rltb x y = false <-> y <= x.
Proof. unfold Rltb. destruct (Rlt_dec x y); split; intros; try congruence; lra. Qed.
Lemma Rleb_true x y : Rleb x y = true <-> x <= y.
Proof. unfold Rleb. destruct (Rle_dec x y); split; congruence. Qed.
Lemma Rleb_false x y : Rleb x y = false <-> y < x.
Proof. unfold Rleb. destruct (Rle_dec x y); split; intros; try congruence; lra. Qed.

Lemma Rsum_cons x l : Rsum (x :: l) = x + Rsum l.
Proof. reflexivity. Qed.

Lemma Rsum_app a b : Rsum (a ++ b) = Rsum a + Rsum b.
Proof. induction a as [|x a IH]; simpl; [unfold Rsum; simpl; ring|]. unfold Rsum in *. simpl. rewrite IH. ring. Qed.

Lemma Rsum_perm a b : Permutation a b -> Rsum a = Rsum b.
Proof. intros H. induction H; unfold Rsum in *; simpl; lra. Qed.

Lemma Rsum_map_plus {A} (f g : A -> R) l : Rsum (map (fun x => f x + g x) l) = Rsum (map f l) + Rsum (map g l).
Proof. induction l as [|x l IH]; unfold Rsum in *; simpl; lra. Qed.

Lemma Rsum_map_minus {A} (f g : A -> R) l : Rsum (map (fun x => f x - g x) l) = Rsum (map f l) - Rsum (map g l).
Proof. induction l as [|x l IH]; unfold Rsum in *; simpl; lra. Qed.

Lemma Rsum_map_scal {A} c (f : A -> R) l : Rsum (map (fun x => c * f x) l) = c * Rsum (map f l).
Proof. induction l as [|x l IH]; unfold Rsum in *; simpl; [ring|]. rewrite IH. ring. Qed.

Lemma Rsum_map_const {A} c (l : list A) : Rsum (map (fun _ => c) l) = Rlen l * c.
Proof.
  unfold Rlen. induction l as [|x l IH]; [unfold Rsum; simpl; ring|].
  cbn [map length]. rewrite S_INR, Rsum_cons, IH. ring.
Qed.

Lemma Rsum_map_ext {A} (f g : A -> R) l : (forall x, In x l -> f x = g x) -> Rsum (map f l) = Rsum (map g l).
Proof. intros H. f_equal. apply map_ext_in. exact H. Qed.

Lemma Rsum_nonneg l : Forall (fun x => 0 <= x) l -> 0 <= Rsum l.
Proof. intros H. induction H; unfold Rsum in *; simpl; lra. Qed.

Lemma Rsum_nonneg_zero l : Forall (fun x => 0 <= x) l -> Rsum l = 0 -> Forall (fun x => x = 0) l.
Proof.
  intros H. induction H as [|x l Hx H IH]; intros E; constructor; rewrite Rsum_cons in E;
    pose proof (Rsum_nonneg l H); [lra|]. apply IH. lra.
Qed.

Lemma Rsum_le {A} (f g : A -> R) l : (forall x, In x l -> f x <= g x) -> Rsum (map f l) <= Rsum (map g l).
Proof.
  intros H. induction l as [|x l IH]; [unfold Rsum; simpl; lra|]. cbn [map]. rewrite !Rsum_cons.
  pose proof (H x (or_introl eq_refl)). assert (Rsum (map f l) <= Rsum (map g l)) by (apply IH; intros y Hy; apply H; right; exact Hy). lra.
Qed.

Lemma Rsum_swap {A B} (f : A -> B -> R) la lb :
  Rsum (map (fun a => Rsum (map (fun b => f a b) lb)) la) = Rsum (map (fun b => Rsum (map (fun a => f a b) la)) lb).
Proof.
  induction la as [|a la IH].
  - unfold Rsum at 1. cbn [map fold_right]. rewrite (Rsum_map_ext _ (fun _ => 0)) by reflexivity.
    rewrite Rsum_map_const. ring.
  - cbn [map]. rewrite Rsum_cons, IH, <- Rsum_map_plus. apply Rsum_map_ext. reflexivity.
Qed.

Lemma Rlen_pos {A} (l : list A) : l <> [] -> 0 < Rlen l.
Proof. intros H. unfold Rlen. apply lt_0_INR. destruct l; [congruence|simpl; lia]. Qed.

Lemma Rlen_nonneg {A} (l : list A) : 0 <= Rlen l.
Proof. apply pos_INR. Qed.

Lemma Rlen_app {A} (a b : list A) : Rlen (a ++ b) = Rlen a + Rlen b.
Proof. unfold Rlen. rewrite app_length, plus_INR. reflexivity. Qed.

Lemma Rlen_map {A B} (f : A -> B) l : Rlen (map f l) = Rlen l.
Proof. unfold Rlen. rewrite map_length. reflexivity. Qed.

Lemma Rmean_perm a b : Permutation a b -> Rmean a = Rmean b.
Proof. intros H. unfold Rmean, Rlen. rewrite (Rsum_perm a b H), (Permutation_length H). reflexivity. Qed.

Lemma Rmean_single x : Rmean [x] = x.
Proof. unfold Rmean, Rsum, Rlen. simpl. field. Qed.

Lemma Rmean_nonneg l : Forall (fun x => 0 <= x) l -> 0 <= Rmean l.
Proof.
  intros H. unfold Rmean. destruct l as [|x l]; [unfold Rsum, Rlen; simpl; unfold Rdiv; rewrite Rmult_0_l; lra|].
  apply Rmult_le_pos; [apply Rsum_nonneg; exact H|]. left. apply Rinv_0_lt_compat. apply Rlen_pos. discriminate.
Qed.

Lemma zipw_length {A B C} (f : A -> B -> C) a b : length (zipw f a b) = Nat.min (length a) (length b).
Proof. unfold zipw. rewrite map_length, combine_length. reflexivity. Qed.

Lemma nth_error_zipw {A B C} (f : A -> B -> C) a b i x y :
  nth_error a i = Some x -> nth_error b i = Some y -> nth_error (zipw f a b) i = Some (f x y).
Proof.
  revert b i. induction a as [|u a IH]; intros b i Ha Hb; [destruct i; discriminate|].
  destruct b as [|v b]; [destruct i; discriminate|]. destruct i; simpl in *; [congruence|]. apply (IH b i Ha Hb).
Qed.

Lemma nth_zipw {A B C} (f : A -> B -> C) a b i da db dc :
  (i < length a)%nat -> (i < length b)%nat -> nth i (zipw f a b) dc = f (nth i a da) (nth i b db).
Proof.
  intros Ha Hb. apply nth_error_nth. apply nth_error_zipw; apply nth_error_nth'; assumption.
Qed.
