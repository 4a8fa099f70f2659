(** Lemmas about batches. *)
From Verif Require Import Py M_Batch S_Batch.
From Coq Require Import Sorting.Sorted.

Section Lemmas.
Variable V : Type.
Notation row := (row V).
Notation set_id := (set_id V).
Notation id_mask := (id_mask V).

(** ** select *)

Lemma select_rows_of k idx : forall l : list row, length l = length idx ->
  select (id_mask (Z.of_nat k) idx) l = rows_of V k idx l.
Proof.
  unfold rows_of. induction idx as [|r idx IH]; intros [|x l] H; simpl in *; try discriminate; [reflexivity|].
  rewrite IH by lia. destruct (Z.eqb (fst r) (Z.of_nat k)); reflexivity.
Qed.

Lemma select_length {A} mask : forall l : list A, length l = length mask -> length (select mask l) = count_true mask.
Proof.
  unfold count_true. induction mask as [|b mask IH]; intros [|x l] H; simpl in *; try discriminate; [reflexivity|].
  destruct b; simpl; rewrite IH by lia; reflexivity.
Qed.

Lemma filter_map_comm {A B} (f : A -> B) (p : B -> bool) l : filter p (map f l) = map f (filter (fun x => p (f x)) l).
Proof. induction l as [|x l IH]; simpl; [reflexivity|]. destruct (p (f x)); simpl; rewrite IH; reflexivity. Qed.

Lemma positions_cons b mask : positions (b :: mask) =
  (if b then [0] else []) ++ map S (positions mask).
Proof.
  unfold positions. change (seq 0 (length (b :: mask))) with (0 :: seq 1 (length mask)).
  rewrite <- seq_shift. change (0 :: map S (seq 0 (length mask))) with ([0] ++ map S (seq 0 (length mask))).
  rewrite filter_app, filter_map_comm. destruct b; reflexivity.
Qed.

Lemma positions_length mask : length (positions mask) = count_true mask.
Proof.
  induction mask as [|b mask IH]; [reflexivity|]. rewrite positions_cons, app_length, map_length, IH.
  unfold count_true. destruct b; reflexivity.
Qed.

Lemma select_positions {A} mask : forall (l : list A) k p, length l = length mask ->
  nth_error (positions mask) k = Some p -> nth_error (select mask l) k = nth_error l p.
Proof.
  induction mask as [|b mask IH]; intros [|x l] k p Hl Hp; simpl in Hl; try discriminate.
  - destruct k; discriminate.
  - rewrite positions_cons in Hp. destruct b; cbn [app select] in *.
    + destruct k as [|k]; cbn [nth_error] in *; [inversion Hp; reflexivity|].
      rewrite nth_error_map in Hp. destruct (nth_error (positions mask) k) as [p'|] eqn:E; [|discriminate].
      inversion Hp; subst. cbn [nth_error]. apply IH; [lia|exact E].
    + rewrite nth_error_map in Hp. destruct (nth_error (positions mask) k) as [p'|] eqn:E; [|discriminate].
      inversion Hp; subst. cbn [nth_error]. apply IH; [lia|exact E].
Qed.

Lemma positions_lt mask k p : nth_error (positions mask) k = Some p -> p < length mask.
Proof.
  intros H. apply nth_error_In in H. unfold positions in H. apply filter_In in H. destruct H as [H _].
  apply in_seq in H. lia.
Qed.

(** ** upd *)

Lemma upd_length {A} (l : list A) : forall i x, length (upd i x l) = length l.
Proof. induction l as [|y l IH]; intros [|i] x; simpl; auto. Qed.

Lemma upd_same {A} (l : list A) : forall i x, i < length l -> nth_error (upd i x l) i = Some x.
Proof. induction l as [|y l IH]; intros [|i] x H; simpl in *; try lia; [reflexivity|]. apply IH. lia. Qed.

Lemma upd_other {A} (l : list A) : forall i j x, i <> j -> nth_error (upd i x l) j = nth_error l j.
Proof.
  induction l as [|y l IH]; intros [|i] [|j] x H; simpl; try reflexivity; try congruence.
  apply IH. congruence.
Qed.

(** ** Splitting and recombining *)

Lemma batch_to_event_ok (v idx : list row) n : length v = length idx ->
  batch_to_event V (Arr v) (Arr idx) n =
  Ok (map (fun i => rows_of V i idx v) (seq 0 n), map (fun i => rows_of V i idx idx) (seq 0 n)).
Proof.
  intros H. unfold batch_to_event. destruct n as [|n]; [reflexivity|]. rewrite H, Nat.eqb_refl.
  f_equal. f_equal; apply map_ext; intros i; apply select_rows_of; auto.
Qed.

Lemma rows_of_self k (idx : list row) : rows_of V k idx idx = filter (fun r => Z.eqb (fst r) (Z.of_nat k)) idx.
Proof.
  unfold rows_of. induction idx as [|r idx IH]; [reflexivity|]. cbn [combine filter map fst].
  destruct (Z.eqb (fst r) (Z.of_nat k)); cbn [map snd]; rewrite IH; reflexivity.
Qed.

Lemma rows_of_self_ids k (idx : list row) : Forall (fun r => fst r = Z.of_nat k) (rows_of V k idx idx).
Proof.
  rewrite rows_of_self. apply Forall_forall. intros r Hr. apply filter_In in Hr. apply Z.eqb_eq. apply Hr.
Qed.

Lemma ids_ok_spec indices : forall i, ids_ok V i indices = true <->
  (forall k e, nth_error indices k = Some e -> Forall (fun r => fst r = Z.of_nat (i + k)) e).
Proof.
  induction indices as [|e indices IH]; intros i; simpl.
  - split; [intros _ k e H; destruct k; discriminate|reflexivity].
  - rewrite andb_true_iff, forallb_forall, IH. split.
    + intros [H1 H2] [|k] e' He; simpl in He.
      * inversion He; subst. rewrite Nat.add_0_r. apply Forall_forall. intros r Hr. apply Z.eqb_eq. auto.
      * rewrite Nat.add_succ_r. apply (H2 k). exact He.
    + intros H. split.
      * intros r Hr. specialize (H 0 e eq_refl). rewrite Nat.add_0_r, Forall_forall in H. apply Z.eqb_eq. auto.
      * intros k e' He. specialize (H (S k) e' He). rewrite Nat.add_succ_r in H. exact H.
Qed.

Lemma ids_ok_numbered indices : ids_ok V 0 indices = true <-> Numbered V indices.
Proof. rewrite ids_ok_spec. reflexivity. Qed.

Lemma event_to_batch_ok (values indices : list (list row)) n :
  length values = n -> length indices = n -> Numbered V indices ->
  map (@length row) values = map (@length row) indices ->
  exists v idx, event_to_batch V values indices n = Ok (v, idx) /\
    rows V v = concat values /\ rows V idx = concat indices /\
    (concat values = [] -> v = PyList [] /\ idx = PyList []) /\
    (concat values <> [] -> v = Arr (concat values) /\ idx = Arr (concat indices)).
Proof.
  intros Hv Hi Hn Hl. unfold event_to_batch. rewrite Hv, Hi, Nat.eqb_refl. cbn [negb].
  rewrite (proj2 (ids_ok_numbered indices) Hn). cbn [negb].
  assert (Hlen : length (concat values) = length (concat indices)).
  { clear - Hl. revert indices Hl. induction values as [|x values IH]; intros [|y indices] H; simpl in *; try discriminate; [reflexivity|].
    inversion H. rewrite !app_length. erewrite IH by eassumption. congruence. }
  destruct (concat values) as [|x xs] eqn:Ev; destruct (concat indices) as [|y ys] eqn:Ei; simpl in Hlen; try discriminate.
  - exists (PyList []), (PyList []). simpl. repeat split; congruence.
  - exists (Arr (x :: xs)), (Arr (y :: ys)). simpl. repeat split; congruence.
Qed.

Lemma combine_app_eq {A B} (l1 l2 : list A) (m1 m2 : list B) : length l1 = length m1 ->
  combine (l1 ++ l2) (m1 ++ m2) = combine l1 m1 ++ combine l2 m2.
Proof.
  revert m1. induction l1 as [|x l1 IH]; intros [|y m1] H; simpl in *; try discriminate; [reflexivity|].
  f_equal. apply IH. lia.
Qed.

(** Pairs of rows, grouped by event. *)
Lemma concat_rows_pairs (idx l : list row) ks : length l = length idx ->
  combine (concat (map (fun i => rows_of V i idx idx) ks)) (concat (map (fun i => rows_of V i idx l) ks)) =
  concat (map (fun i => filter (fun p : row * row => Z.eqb (fst (fst p)) (Z.of_nat i)) (combine idx l)) ks).
Proof.
  intros Hlen. induction ks as [|k ks IH]; [reflexivity|]. cbn [map concat]. rewrite <- IH. clear IH.
  assert (H : length (rows_of V k idx idx) = length (rows_of V k idx l) /\
    combine (rows_of V k idx idx) (rows_of V k idx l) =
    filter (fun p : row * row => Z.eqb (fst (fst p)) (Z.of_nat k)) (combine idx l)).
  { unfold rows_of. revert l Hlen. induction idx as [|r idx IH]; intros [|x l] Hlen; simpl in *; try discriminate; [auto|].
    destruct (IH l) as [I1 I2]; [lia|].
    destruct (Z.eqb (fst r) (Z.of_nat k)); simpl; [|auto].
    split; [lia|f_equal; auto]. }
  destruct H as [H1 H2]. rewrite <- H2. apply combine_app_eq. exact H1.
Qed.

Lemma group_permutation {A} (f : A -> Z) n (l : list A) :
  Forall (fun x => (0 <= f x < Z.of_nat n)%Z) l ->
  Permutation l (concat (map (fun k => filter (fun x => Z.eqb (f x) (Z.of_nat k)) l) (seq 0 n))).
Proof.
  induction l as [|x l IH]; intros H.
  - replace (concat _) with (@nil A); [constructor|]. induction (seq 0 n); simpl; auto.
  - inversion H as [|? ? Hx Hl]; subst. specialize (IH Hl). etransitivity; [constructor; exact IH|]. clear IH H.
    assert (Hk : In (Z.to_nat (f x)) (seq 0 n)) by (apply in_seq; lia).
    assert (Hf : f x = Z.of_nat (Z.to_nat (f x))) by lia.
    revert Hk Hf. generalize (Z.to_nat (f x)) as k. intros k Hk Hf.
    pose proof (seq_NoDup n 0) as Hnd. revert Hk Hnd. generalize (seq 0 n) as ks. clear Hx.
    induction ks as [|j ks IH]; intros Hk Hnd; [destruct Hk|]. inversion Hnd as [|? ? Hj Hnd']; subst.
    cbn [map concat filter]. destruct Hk as [->|Hk].
    + rewrite Hf, Z.eqb_refl. simpl. constructor. apply Permutation_app_head.
      replace (map (fun k0 => if (Z.of_nat k =? Z.of_nat k0)%Z then x :: filter (fun x0 => (f x0 =? Z.of_nat k0)%Z) l
          else filter (fun x0 => (f x0 =? Z.of_nat k0)%Z) l) ks)
        with (map (fun k0 => filter (fun x0 => (f x0 =? Z.of_nat k0)%Z) l) ks); [reflexivity|].
      apply map_ext_in. intros i Hi. destruct (Z.of_nat k =? Z.of_nat i)%Z eqn:E; [|reflexivity].
      apply Z.eqb_eq in E. assert (i = k) by lia. subst. contradiction.
    + destruct (f x =? Z.of_nat j)%Z eqn:E.
      * apply Z.eqb_eq in E. assert (j = k) by lia. subst. contradiction.
      * etransitivity; [|apply Permutation_app_head; apply IH; assumption].
        apply Permutation_middle.
Qed.

Lemma group_sorted {A} (f : A -> Z) (l : list A) ks : StronglySorted lt ks ->
  StronglySorted (fun a b => (f a <= f b)%Z) (concat (map (fun k => filter (fun x => Z.eqb (f x) (Z.of_nat k)) l) ks)).
Proof.
  induction 1 as [|k ks Hs IH Hall]; simpl; [constructor|].
  assert (H1 : forall x, In x (filter (fun x => Z.eqb (f x) (Z.of_nat k)) l) -> f x = Z.of_nat k).
  { intros x Hx. apply filter_In in Hx. apply Z.eqb_eq. apply Hx. }
  assert (H2 : forall x, In x (concat (map (fun k => filter (fun x => Z.eqb (f x) (Z.of_nat k)) l) ks)) -> (Z.of_nat k <= f x)%Z).
  { intros x Hx. apply in_concat in Hx. destruct Hx as (y & Hy & Hx). apply in_map_iff in Hy. destruct Hy as (j & <- & Hj).
    apply filter_In in Hx. destruct Hx as [_ Hx]. apply Z.eqb_eq in Hx. rewrite Forall_forall in Hall. apply Hall in Hj. lia. }
  revert H1 H2. generalize (concat (map (fun k => filter (fun x => Z.eqb (f x) (Z.of_nat k)) l) ks)) IH.
  generalize (filter (fun x => Z.eqb (f x) (Z.of_nat k)) l). clear.
  induction l as [|x l IHl]; intros m Hm H1 H2; simpl; [exact Hm|]. constructor.
  - apply IHl; auto. intros y Hy. apply H1. right; exact Hy.
  - apply Forall_forall. intros y Hy. rewrite (H1 x (or_introl eq_refl)). apply in_app_or in Hy.
    destruct Hy as [Hy|Hy]; [rewrite (H1 y (or_intror Hy)); lia|auto].
Qed.

Lemma seq_sorted n : forall k, StronglySorted lt (seq k n).
Proof.
  induction n as [|n IH]; intros k; simpl; constructor; [apply IH|]. apply Forall_forall. intros x Hx. apply in_seq in Hx. lia.
Qed.

(** A list already grouped in order stays as it is. *)
Lemma group_sorted_id {A} (f : A -> Z) (l : list A) : forall n k,
  StronglySorted (fun a b => (f a <= f b)%Z) l ->
  Forall (fun x => (Z.of_nat k <= f x < Z.of_nat (k + n))%Z) l ->
  concat (map (fun k => filter (fun x => Z.eqb (f x) (Z.of_nat k)) l) (seq k n)) = l.
Proof.
  induction l as [|x l IH]; intros n k Hs Hr.
  - induction (seq k n); simpl; auto.
  - revert k Hr. induction n as [|n IHn]; intros k Hr.
    + inversion Hr; subst. lia.
    + inversion Hs as [|? ? Hs' Hall]; subst. inversion Hr as [|? ? Hx Hl]; subst.
      cbn [seq map concat]. destruct (Z.eqb (f x) (Z.of_nat k)) eqn:E.
      * cbn [filter]. rewrite E. cbn [app]. f_equal.
        replace (map (fun k0 => if (f x =? Z.of_nat k0)%Z then x :: filter (fun x0 => (f x0 =? Z.of_nat k0)%Z) l
          else filter (fun x0 => (f x0 =? Z.of_nat k0)%Z) l) (seq (S k) n))
        with (map (fun k0 => filter (fun x0 => (f x0 =? Z.of_nat k0)%Z) l) (seq (S k) n)).
        2:{ apply map_ext_in. intros i Hi. apply in_seq in Hi. apply Z.eqb_eq in E.
            destruct (f x =? Z.of_nat i)%Z eqn:E2; [apply Z.eqb_eq in E2; lia|reflexivity]. }
        apply (IH (S n) k Hs'). exact Hl.
      * apply Z.eqb_neq in E.
        assert (Hnil : filter (fun y => (f y =? Z.of_nat k)%Z) (x :: l) = []).
        { rewrite Forall_forall in Hall, Hl. cbn [filter].
          destruct (f x =? Z.of_nat k)%Z eqn:E2; [apply Z.eqb_eq in E2; contradiction|].
          assert (forall y, In y l -> (f y =? Z.of_nat k)%Z = false).
          { intros y Hy. apply Z.eqb_neq. specialize (Hall y Hy). lia. }
          clear - H. induction l as [|y l IH]; [reflexivity|]. simpl. rewrite (H y) by (left; reflexivity).
          apply IH. intros z Hz. apply H. right; exact Hz. }
        rewrite Hnil. cbn [app]. apply IHn.
        rewrite Forall_forall in *. intros y Hy. specialize (Hr y Hy).
        destruct Hy as [<-|Hy]; [lia|]. specialize (Hall y Hy). lia.
Qed.

Lemma combine_split_eq {A B} (a : list A) (b : list B) c d :
  length a = length b -> length c = length d -> combine a b = combine c d -> a = c /\ b = d.
Proof.
  revert b c d. induction a as [|x a IH]; intros [|y b] [|z c] [|w d] H1 H2 H; simpl in *; try discriminate; auto.
  inversion H; subst. destruct (IH b c d) as [-> ->]; auto; lia.
Qed.

Lemma concat_rows_length (idx l : list row) ks : length l = length idx ->
  length (concat (map (fun i => rows_of V i idx idx) ks)) = length (concat (map (fun i => rows_of V i idx l) ks)).
Proof.
  intros Hlen. induction ks as [|k ks IH]; [reflexivity|]. cbn [map concat]. rewrite !app_length, IH. f_equal.
  unfold rows_of. rewrite !map_length. clear - Hlen. revert l Hlen.
  induction idx as [|r idx IH]; intros [|x l] H; simpl in *; try discriminate; [reflexivity|].
  destruct (fst r =? Z.of_nat k)%Z; simpl; rewrite (IH l) by lia; reflexivity.
Qed.

Lemma map_length_rows (idx l : list row) ks : length l = length idx ->
  map (@length row) (map (fun i => rows_of V i idx l) ks) = map (@length row) (map (fun i => rows_of V i idx idx) ks).
Proof.
  intros Hlen. rewrite !map_map. apply map_ext. intros k. unfold rows_of. rewrite !map_length.
  revert l Hlen. induction idx as [|r idx IH]; intros [|x l] H; simpl in *; try discriminate; [reflexivity|].
  destruct (fst r =? Z.of_nat k)%Z; simpl; rewrite (IH l) by lia; reflexivity.
Qed.

Lemma numbered_rows (idx : list row) n : Numbered V (map (fun i => rows_of V i idx idx) (seq 0 n)).
Proof.
  intros k e He. rewrite nth_error_map in He. destruct (nth_error (seq 0 n) k) as [j|] eqn:E; [|discriminate].
  assert (j = k).
  { assert (k < n) by (rewrite <- (seq_length n 0); apply nth_error_Some; congruence).
    apply (nth_error_nth _ _ 0) in E. rewrite seq_nth in E by assumption. lia. }
  subst. inversion He; subst. apply rows_of_self_ids.
Qed.

(** ** Rows of one event in a concatenation of numbered events *)

Lemma rows_of_app k (i1 i2 l1 l2 : list row) : length i1 = length l1 ->
  rows_of V k (i1 ++ i2) (l1 ++ l2) = rows_of V k i1 l1 ++ rows_of V k i2 l2.
Proof.
  intros H. unfold rows_of.
  rewrite combine_app_eq by exact H.
  rewrite filter_app, map_app. reflexivity.
Qed.

Lemma rows_of_all k (idx l : list row) : length idx = length l ->
  Forall (fun r => fst r = Z.of_nat k) idx -> rows_of V k idx l = l.
Proof.
  unfold rows_of. revert l. induction idx as [|r idx IH]; intros [|x l] H Hall; simpl in *; try discriminate; [reflexivity|].
  inversion Hall; subst. rewrite (proj2 (Z.eqb_eq _ _)) by assumption. simpl. f_equal. apply IH; [lia|assumption].
Qed.

Lemma rows_of_none k j (idx l : list row) : j <> k ->
  Forall (fun r => fst r = Z.of_nat j) idx -> rows_of V k idx l = [].
Proof.
  unfold rows_of. intros Hne. revert l. induction idx as [|r idx IH]; intros l Hall; simpl; [reflexivity|].
  destruct l as [|x l]; [reflexivity|]. inversion Hall as [|? ? Hr Hall']; subst. simpl.
  rewrite (proj2 (Z.eqb_neq _ _)) by lia. apply IH. exact Hall'.
Qed.

Lemma rows_of_concat (indices values : list (list row)) : forall i k,
  map (@length row) indices = map (@length row) values ->
  (forall j e, nth_error indices j = Some e -> Forall (fun r => fst r = Z.of_nat (i + j)) e) ->
  rows_of V k (concat indices) (concat values) =
  if Nat.ltb k i then [] else nth (k - i) values [].
Proof.
  revert values. induction indices as [|e indices IH]; intros [|v values] i k Hl Hn; simpl in Hl; try discriminate.
  - simpl. destruct (Nat.ltb k i); [reflexivity|]. destruct (k - i); reflexivity.
  - inversion Hl as [[Hl1 Hl2]]. cbn [concat]. rewrite rows_of_app by exact Hl1.
    rewrite (IH values (S i) k Hl2).
    2:{ intros j e' He. specialize (Hn (S j) e' He). rewrite Nat.add_succ_r in Hn. exact Hn. }
    pose proof (Hn 0 e eq_refl) as He. rewrite Nat.add_0_r in He.
    destruct (Nat.eq_dec i k) as [->|Hne].
    + rewrite rows_of_all by assumption. rewrite Nat.ltb_irrefl, Nat.sub_diag.
      rewrite (proj2 (Nat.ltb_lt k (S k))) by lia. simpl. apply app_nil_r.
    + rewrite (rows_of_none k i) by assumption. simpl app.
      destruct (Nat.ltb k i) eqn:E.
      * apply Nat.ltb_lt in E. rewrite (proj2 (Nat.ltb_lt k (S i))) by lia. reflexivity.
      * apply Nat.ltb_ge in E. rewrite (proj2 (Nat.ltb_ge k (S i))) by lia.
        replace (k - i) with (S (k - S i)) by lia. reflexivity.
Qed.

Lemma renumber_nth (l : list (list row)) : forall i k, nth_error (renumber V i l) k = option_map (set_id (i + k)) (nth_error l k).
Proof.
  induction l as [|e l IH]; intros i [|k]; simpl; try reflexivity.
  - rewrite Nat.add_0_r. reflexivity.
  - rewrite IH, Nat.add_succ_r. reflexivity.
Qed.

Lemma renumber_length (l : list (list row)) : forall i, length (renumber V i l) = length l.
Proof. induction l as [|e l IH]; intros i; simpl; auto. Qed.

Lemma renumber_lengths (l : list (list row)) : forall i, map (@length row) (renumber V i l) = map (@length row) l.
Proof. induction l as [|e l IH]; intros i; simpl; [reflexivity|]. unfold M_Batch.set_id at 1. rewrite map_length, IH. reflexivity. Qed.

Lemma numbered_renumber (l : list (list row)) : Numbered V (renumber V 0 l).
Proof.
  intros k e He. rewrite renumber_nth in He. destruct (nth_error l k) as [x|]; [|discriminate].
  inversion He; subst. unfold M_Batch.set_id. apply Forall_forall. intros r Hr. apply in_map_iff in Hr. destruct Hr as (y & <- & _). reflexivity.
Qed.

Lemma select_map {A B} (f : A -> B) mask : forall l, select mask (map f l) = map f (select mask l).
Proof.
  induction mask as [|b mask IH]; intros [|x l]; simpl; try reflexivity.
  destruct b; simpl; rewrite IH; reflexivity.
Qed.

(** ** Loops over tensors where every tensor touches its own positions *)

Definition touches (kinds : list tkind) (t i : nat) : bool :=
  match nth_error kinds t with
  | Some TEvent => Nat.eqb t i
  | Some (TIndex r) => Nat.eqb t i || Nat.eqb r i
  | _ => false
  end.

Lemma touch_unique kinds t t' i : KindsOk kinds -> touches kinds t i = true -> touches kinds t' i = true -> t = t'.
Proof.
  intros (K1 & K2 & _) H1 H2. unfold touches in *.
  destruct (nth_error kinds t) as [[| |r]|] eqn:E1; try discriminate;
  destruct (nth_error kinds t') as [[| |r']|] eqn:E2; try discriminate;
  repeat rewrite orb_true_iff in *; rewrite ?Nat.eqb_eq in *.
  - lia.
  - destruct H2 as [H2|H2]; [lia|]. subst. apply K1 in E2. congruence.
  - destruct H1 as [H1|H1]; [lia|]. subst. apply K1 in E1. congruence.
  - destruct H1 as [H1|H1], H2 as [H2|H2]; subst; auto.
    + apply K1 in E2. congruence.
    + apply K1 in E1. congruence.
    + eapply K2; eauto.
Qed.

Lemma touch_exists kinds i : KindsOk kinds -> i < length kinds -> exists t, t < length kinds /\ touches kinds t i = true.
Proof.
  intros (K1 & K2 & K3) Hi. unfold touches. destruct (nth_error kinds i) as [k|] eqn:E; [|apply nth_error_None in E; lia].
  destruct k as [| |r].
  - exists i. rewrite E, Nat.eqb_refl. auto.
  - destruct (K3 i E) as [q Hq]. exists q. rewrite Hq, Nat.eqb_refl, orb_true_r. split; [|reflexivity].
    apply nth_error_Some. congruence.
  - exists i. rewrite E, Nat.eqb_refl. auto.
Qed.

Section Loop.
Variable A : Type.
Variable kinds : list tkind.
Hypothesis HK : KindsOk kinds.
Variable loop : nat -> list tkind -> list A -> result (list A).
Variable step : nat -> tkind -> list A -> result (list A).
Hypothesis loop_nil : forall ti st, loop ti [] st = Ok st.
Hypothesis loop_cons : forall ti k rest st, loop ti (k :: rest) st =
  match step ti k st with Err e => Err e | Ok st' => loop (S ti) rest st' end.
Variable F : nat -> A -> A.
Hypothesis step_ok : forall ti k st, nth_error kinds ti = Some k -> length st = length kinds ->
  exists st', step ti k st = Ok st' /\ length st' = length kinds /\
    forall i, nth_error st' i = if touches kinds ti i then option_map (F i) (nth_error st i) else nth_error st i.

Lemma loop_spec : forall rest pre st, kinds = pre ++ rest -> length st = length kinds ->
  exists st', loop (length pre) rest st = Ok st' /\ length st' = length kinds /\
    forall i, nth_error st' i =
      if existsb (fun t => touches kinds t i) (seq (length pre) (length rest))
      then option_map (F i) (nth_error st i) else nth_error st i.
Proof.
  induction rest as [|k rest IH]; intros pre st Hk Hl.
  - exists st. rewrite loop_nil. auto.
  - rewrite loop_cons.
    assert (Hn : nth_error kinds (length pre) = Some k).
    { rewrite Hk. rewrite nth_error_app2 by lia. rewrite Nat.sub_diag. reflexivity. }
    destruct (step_ok _ _ st Hn Hl) as (st1 & H1 & H2 & H3). rewrite H1.
    destruct (IH (pre ++ [k]) st1) as (st' & I1 & I2 & I3).
    + rewrite <- app_assoc. exact Hk.
    + exact H2.
    + rewrite app_length in I1, I3. simpl in I1, I3. rewrite Nat.add_1_r in I1, I3.
      exists st'. split; [exact I1|]. split; [exact I2|]. intros i. rewrite I3, H3. cbn [length seq existsb].
      destruct (touches kinds (length pre) i) eqn:Et; cbn [orb]; [|reflexivity].
      destruct (existsb _ (seq (S (length pre)) (length rest))) eqn:Ee; [|reflexivity].
      apply existsb_exists in Ee. destruct Ee as (t & Ht & Et'). apply in_seq in Ht.
      pose proof (touch_unique kinds _ _ _ HK Et Et'). lia.
Qed.

Lemma loop_all st : length st = length kinds ->
  exists st', loop 0 kinds st = Ok st' /\ length st' = length kinds /\
    forall i, i < length kinds -> nth_error st' i = option_map (F i) (nth_error st i).
Proof.
  intros Hl. destruct (loop_spec kinds [] st eq_refl Hl) as (st' & H1 & H2 & H3). exists st'.
  split; [exact H1|]. split; [exact H2|]. intros i Hi. rewrite H3. cbn [length].
  replace (existsb _ _) with true; [reflexivity|]. symmetry. apply existsb_exists.
  destruct (touch_exists kinds i HK Hi) as (t & Ht & Et). exists t. split; [apply in_seq; lia|exact Et].
Qed.
End Loop.

End Lemmas.
