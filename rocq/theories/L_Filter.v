(** Lemmas about filtering batches. *)
From Verif Require Import Py M_Batch S_Batch L_Batch.
From Coq Require Import Sorting.Sorted.

Section Lemmas.
Variable V : Type.
Notation row := (row V).
Notation set_id := (set_id V).

Lemma index_of_ok kinds q r : KindsOk kinds -> nth_error kinds q = Some (TIndex r) -> index_of kinds r = Some q.
Proof.
  intros (K1 & K2 & _) Hq. unfold index_of.
  destruct (find _ (seq 0 (length kinds))) as [q'|] eqn:E.
  - apply find_some in E. destruct E as [_ E]. destruct (nth_error kinds q') as [[| |r']|] eqn:E'; try discriminate.
    apply Nat.eqb_eq in E. subst. f_equal. eapply K2; eauto.
  - exfalso. assert (Hin : In q (seq 0 (length kinds))).
    { apply in_seq. split; [lia|]. apply nth_error_Some. congruence. }
    pose proof (find_none _ _ E q Hin) as H. simpl in H. rewrite Hq, Nat.eqb_refl in H. discriminate.
Qed.

Lemma concat_lengths {A} (l m : list (list A)) : map (@length A) l = map (@length A) m -> length (concat l) = length (concat m).
Proof.
  revert m. induction l as [|x l IH]; intros [|y m] H; simpl in *; try discriminate; [reflexivity|].
  inversion H. rewrite !app_length. f_equal; auto.
Qed.

Lemma numbered_in_range (l : list (list row)) : forall i,
  (forall k e, nth_error l k = Some e -> Forall (fun r => fst r = Z.of_nat (i + k)) e) ->
  Forall (fun r => (Z.of_nat i <= fst r < Z.of_nat (i + length l))%Z) (concat l).
Proof.
  induction l as [|e l IH]; intros i H; simpl; [constructor|]. apply Forall_app. split.
  - specialize (H 0 e eq_refl). eapply Forall_impl; [|exact H]. intros r Hr. simpl in Hr. lia.
  - eapply Forall_impl; [|apply (IH (S i))]; [intros r Hr; simpl in Hr; lia|].
    intros k e' He. specialize (H (S k) e' He). rewrite Nat.add_succ_r in H. exact H.
Qed.

Lemma sorted_app {A} (R : A -> A -> Prop) (l m : list A) : StronglySorted R l -> StronglySorted R m ->
  (forall x y, In x l -> In y m -> R x y) -> StronglySorted R (l ++ m).
Proof.
  induction 1 as [|x l Hs IH Hall]; intros Hm' H; simpl; [exact Hm'|]. constructor.
  - apply IH; [exact Hm'|]. intros a b Ha Hb. apply H; [right; exact Ha|exact Hb].
  - apply Forall_app. split; [exact Hall|]. apply Forall_forall. intros b Hb. apply H; [left; reflexivity|exact Hb].
Qed.

Lemma const_sorted (c : Z) (l : list row) : Forall (fun r => fst r = c) l -> StronglySorted (fun a b => (fst a <= fst b)%Z) l.
Proof.
  induction 1 as [|x l Hx Hall IH]; constructor; [exact IH|]. eapply Forall_impl; [|exact Hall]. intros y Hy. simpl in Hy. lia.
Qed.

Lemma numbered_ordered (l : list (list row)) : forall i,
  (forall k e, nth_error l k = Some e -> Forall (fun r => fst r = Z.of_nat (i + k)) e) ->
  OrderedByEvent V (concat l).
Proof.
  unfold OrderedByEvent. induction l as [|e l IH]; intros i H; simpl; [constructor|].
  pose proof (H 0 e eq_refl) as H0.
  assert (H' : forall k e0, nth_error l k = Some e0 -> Forall (fun r => fst r = Z.of_nat (S i + k)) e0).
  { intros k e' He. specialize (H (S k) e' He). rewrite Nat.add_succ_r in H. exact H. }
  apply sorted_app.
  - eapply const_sorted. exact H0.
  - apply (IH (S i) H').
  - intros x y Hx Hy. rewrite Forall_forall in H0. specialize (H0 x Hx).
    pose proof (numbered_in_range l (S i) H') as Hr. rewrite Forall_forall in Hr. specialize (Hr y Hy). simpl in *. lia.
Qed.

Section Filter.
Variable kinds : list tkind.
Variable mask : list bool.
Variable n : nat.
Variable data : batch V.
Hypothesis HK : KindsOk kinds.
Hypothesis HD : DataOk V kinds n data.
Hypothesis Hm : length mask = n.

Definition new_values (idx v : list row) := select mask (map (fun i => rows_of V i idx v) (seq 0 n)).
Definition new_indices (idx : list row) := renumber V 0 (select mask (map (fun i => rows_of V i idx idx) (seq 0 n))).
Definition pack (l test : list row) := match test with [] => PyList l | _ => Arr l end.

Definition new_pair (q r : nat) : option (tdata V * tdata V) :=
  match nth_error data q, nth_error data r with
  | Some (Some (Arr idx)), Some (Some (Arr v)) =>
      let t := concat (new_values idx v) in
      Some (pack (concat (new_indices idx)) t, pack t t)
  | _, _ => None
  end.

Definition fnew (i : nat) : option (tdata V) :=
  match nth_error kinds i with
  | Some TEvent => Some (Arr (select mask (arr V data i)))
  | Some (TIndex r) => option_map fst (new_pair i r)
  | Some TValue => match index_of kinds i with
                   | Some q => option_map snd (new_pair q i)
                   | None => None
                   end
  | None => None
  end.

Lemma lengths_select_new (idx v : list row) : length v = length idx ->
  map (@length row) (new_values idx v) = map (@length row) (new_indices idx).
Proof.
  intros H. unfold new_values, new_indices. rewrite renumber_lengths, <- !select_map.
  f_equal. apply map_length_rows. exact H.
Qed.

Lemma new_values_length idx v : length (new_values idx v) = count_true mask.
Proof. unfold new_values. apply select_length. rewrite map_length, seq_length. auto. Qed.

Lemma new_indices_length idx : length (new_indices idx) = count_true mask.
Proof. unfold new_indices. rewrite renumber_length. apply select_length. rewrite map_length, seq_length. auto. Qed.

Lemma event_to_batch_new (idx v : list row) : length v = length idx ->
  event_to_batch V (new_values idx v) (new_indices idx) (count_true mask) =
  Ok (pack (concat (new_values idx v)) (concat (new_values idx v)),
      pack (concat (new_indices idx)) (concat (new_values idx v))).
Proof.
  intros H.
  destruct (event_to_batch_ok V (new_values idx v) (new_indices idx) (count_true mask)) as (v' & i' & E & _ & _ & E1 & E2).
  - apply new_values_length.
  - apply new_indices_length.
  - apply numbered_renumber.
  - apply lengths_select_new. exact H.
  - rewrite E. pose proof (concat_lengths _ _ (lengths_select_new idx v H)) as Hc.
    destruct (concat (new_values idx v)) as [|x xs].
    + destruct E1 as [-> ->]; [reflexivity|]. simpl in Hc. destruct (concat (new_indices idx)); [reflexivity|discriminate].
    + destruct E2 as [-> ->]; [discriminate|]. reflexivity.
Qed.

Lemma filter_step ti k out : nth_error kinds ti = Some k -> length out = length kinds ->
  exists out', filter_one V mask n (count_true mask) data ti k out = Ok out' /\ length out' = length kinds /\
    forall i, nth_error out' i = if touches kinds ti i then option_map (fun _ => fnew i) (nth_error out i) else nth_error out i.
Proof.
  intros Hk Hl. destruct HD as (D1 & D2 & D3). pose proof HK as (K1 & K2 & K3).
  assert (Hti : ti < length kinds) by (apply nth_error_Some; congruence).
  unfold filter_one, touches. rewrite Hk. destruct k as [| |r].
  - destruct (D2 ti Hk) as (l & Hd & Hln). rewrite Hd, Hln, Hm, Nat.eqb_refl. eexists. split; [reflexivity|].
    rewrite upd_length. split; [exact Hl|]. intros i. destruct (Nat.eqb ti i) eqn:E.
    + apply Nat.eqb_eq in E. subst i. rewrite upd_same by lia.
      destruct (nth_error out ti) eqn:Eo; [|apply nth_error_None in Eo; lia]. simpl. unfold fnew. rewrite Hk.
      unfold arr. rewrite Hd. reflexivity.
    + apply Nat.eqb_neq in E. apply upd_other. exact E.
  - exists out. split; [reflexivity|]. split; [exact Hl|]. reflexivity.
  - pose proof (K1 _ _ Hk) as Hr. assert (Hrl : r < length kinds) by (apply nth_error_Some; congruence).
    assert (Hne : ti <> r) by (intros ->; congruence).
    pose proof (index_of_ok _ _ _ HK Hk) as Hix.
    assert (Hfin : forall d1 d2, fnew ti = d1 -> fnew r = d2 ->
      length (upd ti d1 (upd r d2 out)) = length kinds /\
      forall i, nth_error (upd ti d1 (upd r d2 out)) i =
        if Nat.eqb ti i || Nat.eqb r i then option_map (fun _ => fnew i) (nth_error out i) else nth_error out i).
    { intros d1 d2 H1 H2. rewrite !upd_length. split; [exact Hl|]. intros i.
      destruct (Nat.eqb ti i) eqn:E; cbn [orb].
      - apply Nat.eqb_eq in E. subst i. rewrite upd_same by (rewrite upd_length; lia).
        destruct (nth_error out ti) eqn:Eo; [|apply nth_error_None in Eo; lia]. simpl. congruence.
      - apply Nat.eqb_neq in E. rewrite upd_other by exact E. destruct (Nat.eqb r i) eqn:E2.
        + apply Nat.eqb_eq in E2. subst i. rewrite upd_same by lia.
          destruct (nth_error out r) eqn:Eo; [|apply nth_error_None in Eo; lia]. simpl. congruence.
        + apply Nat.eqb_neq in E2. apply upd_other. exact E2. }
    destruct (D3 _ _ Hk) as [[H1 H2]|(idx & v & H1 & H2 & H3)]; rewrite H1, H2.
    + eexists. split; [reflexivity|]. apply Hfin; unfold fnew; rewrite ?Hk, ?Hr, ?Hix; unfold new_pair; rewrite H1; reflexivity.
    + rewrite batch_to_event_ok by lia.
      change (select mask (map (fun i => rows_of V i idx v) (seq 0 n))) with (new_values idx v).
      change (renumber V 0 (select mask (map (fun i => rows_of V i idx idx) (seq 0 n)))) with (new_indices idx).
      rewrite event_to_batch_new by lia.
      eexists. split; [reflexivity|]. apply Hfin; unfold fnew; rewrite ?Hk, ?Hr, ?Hix; unfold new_pair; rewrite H1, H2; reflexivity.
Qed.

Lemma filter_data_ok : exists out, filter_data V kinds mask n data = Ok (count_true mask, out) /\
  length out = length kinds /\ forall i, i < length kinds -> nth_error out i = Some (fnew i).
Proof.
  unfold filter_data. rewrite Hm, Nat.eqb_refl. cbn [negb].
  destruct (loop_all (option (tdata V)) kinds HK
    (fun ti rest st => filter_loop V mask n (count_true mask) data ti rest st)
    (fun ti k st => filter_one V mask n (count_true mask) data ti k st)) with
    (F := fun (i : nat) (_ : option (tdata V)) => fnew i) (st := map (fun _ : tkind => @None (tdata V)) kinds)
    as (out & H1 & H2 & H3).
  - reflexivity.
  - reflexivity.
  - apply filter_step.
  - apply map_length.
  - rewrite H1. exists out. split; [reflexivity|]. split; [exact H2|]. intros i Hi. rewrite (H3 i Hi).
    rewrite nth_error_map. destruct (nth_error kinds i) eqn:E; [reflexivity|]. apply nth_error_None in E. lia.
Qed.

Lemma pack_rows l t : rows V (pack l t) = l.
Proof. destruct t; reflexivity. Qed.

Lemma select_nth_pos {A} (f : nat -> A) k p : nth_error (positions mask) k = Some p ->
  nth_error (select mask (map f (seq 0 n))) k = Some (f p).
Proof.
  intros H. rewrite (select_positions mask _ k p); [|rewrite map_length, seq_length; auto|exact H].
  apply positions_lt in H. rewrite nth_error_map.
  rewrite (nth_error_nth' _ 0) by (rewrite seq_length; lia). rewrite seq_nth by lia. reflexivity.
Qed.

Lemma filter_spec out : (forall i, i < length kinds -> nth_error out i = Some (fnew i)) -> length out = length kinds ->
  FilteredTo V kinds mask data out.
Proof.
  intros Ho Hl. pose proof HD as (D1 & D2 & D3). pose proof HK as (K1 & K2 & K3). split; [exact Hl|]. split.
  - intros i Hi. destruct (D2 i Hi) as (l & Hd & Hln). exists l, (select mask l). split; [exact Hd|]. split.
    + rewrite Ho by (apply nth_error_Some; congruence). unfold fnew. rewrite Hi. unfold arr. rewrite Hd. reflexivity.
    + split; [rewrite select_length by lia; symmetry; apply positions_length|].
      intros k p Hp. apply select_positions; [lia|exact Hp].
  - intros q r Hq. pose proof (K1 _ _ Hq) as Hr. pose proof (index_of_ok _ _ _ HK Hq) as Hix.
    assert (Hql : q < length kinds) by (apply nth_error_Some; congruence).
    assert (Hrl : r < length kinds) by (apply nth_error_Some; congruence).
    destruct (D3 _ _ Hq) as [[H1 H2]|(idx & v & H1 & H2 & H3)].
    + left. split; [exact H1|]. rewrite !Ho by assumption. unfold fnew. rewrite Hq, Hr, Hix. unfold new_pair. rewrite H1. auto.
    + right. exists idx, v, (pack (concat (new_indices idx)) (concat (new_values idx v))),
        (pack (concat (new_values idx v)) (concat (new_values idx v))).
      rewrite !Ho by assumption. unfold fnew. rewrite Hq, Hr, Hix. unfold new_pair. rewrite H1, H2. rewrite !pack_rows.
      assert (Hll : length v = length idx) by lia.
      pose proof (lengths_select_new idx v Hll) as HL.
      assert (Hnum : Numbered V (new_indices idx)) by apply numbered_renumber.
      do 4 (split; [reflexivity|]). split; [symmetry; apply concat_lengths; exact HL|].
      split; [|split].
      * unfold InRange. rewrite positions_length, <- (new_indices_length idx).
        apply (numbered_in_range _ 0). intros k e He. apply Hnum. exact He.
      * apply (numbered_ordered _ 0). intros k e He. apply Hnum. exact He.
      * intros k p Hp.
        assert (Hv : nth_error (new_values idx v) k = Some (rows_of V p idx v)) by (apply (select_nth_pos (fun i => rows_of V i idx v) k p Hp)).
        assert (Hi : nth_error (new_indices idx) k = Some (set_id k (rows_of V p idx idx))).
        { unfold new_indices. rewrite renumber_nth. rewrite (select_nth_pos (fun i => rows_of V i idx idx) k p Hp). reflexivity. }
        rewrite (rows_of_concat V (new_indices idx) (new_values idx v) 0 k) by (auto || (intros j e He; apply Hnum; exact He)).
        rewrite (rows_of_concat V (new_indices idx) (new_indices idx) 0 k) by (auto || (intros j e He; apply Hnum; exact He)).
        cbn [Nat.ltb Nat.leb]. rewrite Nat.sub_0_r.
        rewrite (nth_error_nth _ _ [] Hv), (nth_error_nth _ _ [] Hi). split; reflexivity.
Qed.

End Filter.
End Lemmas.
