(** Property theorems C15, C16, C17, C61, C62: event structure, filtering and
    batching. *)
From Verif Require Import Py M_Batch S_Batch L_Batch L_Filter L_Batching.
From Coq Require Import Sorting.Sorted.

Section Theorems.
Variable V : Type.
Notation row := (row V).

(** ** C15 *)

(** Splitting never fails on aligned arrays; event [k] gets exactly its rows,
    in the original order. *)
Theorem C15_split : forall (v idx : list row) n, length v = length idx ->
  exists ve ie, batch_to_event V (Arr v) (Arr idx) n = Ok (ve, ie) /\
    length ve = n /\ length ie = n /\ Numbered V ie /\
    forall k, k < n -> nth_error ve k = Some (rows_of V k idx v) /\
                       nth_error ie k = Some (rows_of V k idx idx).
Proof.
  intros v idx n H. rewrite batch_to_event_ok by exact H. do 2 eexists. split; [reflexivity|].
  rewrite !map_length, seq_length. split; [reflexivity|]. split; [reflexivity|]. split; [apply numbered_rows|].
  intros k Hk. split; apply (nth_error_map_seq (fun i => rows_of V i idx _)); exact Hk.
Qed.

(** Splitting and combining: the pairs (index row, value row) are those of the
    batch, ordered by event; a batch in this order comes back unchanged. *)
Theorem C15_batch_event_batch : forall (v idx : list row) n ve ie,
  length v = length idx -> InRange V n idx ->
  batch_to_event V (Arr v) (Arr idx) n = Ok (ve, ie) ->
  exists v' idx', event_to_batch V ve ie n = Ok (v', idx') /\
    length (rows V idx') = length (rows V v') /\
    Permutation (combine idx v) (combine (rows V idx') (rows V v')) /\
    OrderedByEvent V (rows V idx') /\
    (OrderedByEvent V idx -> rows V v' = v /\ rows V idx' = idx).
Proof.
  intros v idx n ve ie Hl Hr H. rewrite batch_to_event_ok in H by exact Hl. inversion H; subst; clear H.
  destruct (event_to_batch_ok V (map (fun i => rows_of V i idx v) (seq 0 n)) (map (fun i => rows_of V i idx idx) (seq 0 n)) n)
    as (v' & i' & E & Ev & Ei & _ & _).
  - rewrite map_length, seq_length. reflexivity.
  - rewrite map_length, seq_length. reflexivity.
  - apply numbered_rows.
  - apply map_length_rows. exact Hl.
  - exists v', i'. split; [exact E|]. rewrite Ev, Ei.
    assert (HL : length (concat (map (fun i => rows_of V i idx idx) (seq 0 n))) = length (concat (map (fun i => rows_of V i idx v) (seq 0 n))))
      by (apply concat_rows_length; exact Hl).
    split; [exact HL|]. rewrite concat_rows_pairs by exact Hl.
    assert (HP : Forall (fun p : row * row => (0 <= fst (fst p) < Z.of_nat n)%Z) (combine idx v)).
    { apply Forall_forall. intros [a b] Hp. apply in_combine_l in Hp. unfold InRange in Hr. rewrite Forall_forall in Hr. apply Hr in Hp. exact Hp. }
    split; [apply (group_permutation (fun p : row * row => fst (fst p)) n); exact HP|]. split.
    + apply (numbered_ordered V (map (fun i => rows_of V i idx idx) (seq 0 n)) 0).
      intros k e He. exact (numbered_rows V idx n k e He).
    + intros Ho. cut (concat (map (fun i => rows_of V i idx idx) (seq 0 n)) = idx /\ concat (map (fun i => rows_of V i idx v) (seq 0 n)) = v);
        [intros [? ?]; split; assumption|].
      apply combine_split_eq; [exact HL|auto|]. rewrite concat_rows_pairs by exact Hl.
      apply (group_sorted_id (fun p : row * row => fst (fst p)) (combine idx v) n 0); [|exact HP].
      clear - Ho. revert v. unfold OrderedByEvent in Ho. induction Ho as [|r idx Hs IH Hall]; intros v; [constructor|].
      destruct v as [|x v]; [constructor|]. cbn [combine]. constructor; [apply IH|].
      apply Forall_forall. intros [a b] Hp. apply in_combine_l in Hp. rewrite Forall_forall in Hall. apply Hall in Hp. exact Hp.
Qed.

(** Combining numbered events and splitting again returns the events, provided
    there is at least one row. *)
Theorem C15_event_batch_event : forall (ve ie : list (list row)) n,
  length ve = n -> length ie = n -> map (@length row) ve = map (@length row) ie -> Numbered V ie ->
  concat ve <> [] ->
  exists v idx, event_to_batch V ve ie n = Ok (v, idx) /\ batch_to_event V v idx n = Ok (ve, ie).
Proof.
  intros ve ie n Hv Hi Hl Hn Hne.
  destruct (event_to_batch_ok V ve ie n Hv Hi Hn Hl) as (v & idx & E & _ & _ & _ & E2).
  destruct (E2 Hne) as [-> ->]. do 2 eexists. split; [exact E|].
  rewrite batch_to_event_ok by (apply concat_lengths; exact Hl).
  assert (HR : forall l, map (@length row) l = map (@length row) ie -> length l = n ->
    map (fun i => rows_of V i (concat ie) (concat l)) (seq 0 n) = l).
  { intros l Hl' Hn'. symmetry. apply list_eq_map_seq; [exact Hn'|]. intros i Hi'.
    rewrite (rows_of_concat V ie l 0 i); [|symmetry; exact Hl'|intros j e He; apply Hn; exact He].
    cbn [Nat.ltb Nat.leb]. rewrite Nat.sub_0_r. rewrite (nth_error_nth' l []) by lia. reflexivity. }
  rewrite (HR ve Hl Hv), (HR ie eq_refl Hi). reflexivity.
Qed.

(** A wrong event number, or a wrong number of events, makes combining fail. *)
Theorem C15_wrong_index_fails : forall (ve ie : list (list row)) n,
  length ve <> n \/ length ie <> n \/ ~ Numbered V ie ->
  event_to_batch V ve ie n = Err AssertionError.
Proof.
  intros ve ie n H. unfold event_to_batch.
  destruct (Nat.eqb n (length ve)) eqn:E1; [cbn [negb]|reflexivity].
  destruct (Nat.eqb n (length ie)) eqn:E2; [cbn [negb]|reflexivity].
  apply Nat.eqb_eq in E1, E2. destruct H as [H|[H|H]]; try congruence.
  destruct (ids_ok V 0 ie) eqn:E; [|reflexivity]. apply ids_ok_numbered in E. contradiction.
Qed.

(** ** C16 *)

(** Filtering well-formed data succeeds and keeps exactly the selected events. *)
Theorem C16_filter : forall kinds mask n (data : batch V),
  KindsOk kinds -> DataOk V kinds n data -> length mask = n ->
  exists out, filter_data V kinds mask n data = Ok (length (positions mask), out) /\
              FilteredTo V kinds mask data out.
Proof.
  intros kinds mask n data HK HD Hm. destruct (filter_data_ok V kinds mask n data HK HD Hm) as (out & E & Hl & Ho).
  exists out. rewrite positions_length. split; [exact E|]. eapply filter_spec; eauto.
Qed.

(** A mask of the wrong length is refused. *)
Theorem C16_wrong_mask_fails : forall kinds mask n (data : batch V),
  length mask <> n -> filter_data V kinds mask n data = Err AssertionError.
Proof. intros kinds mask n data H. unfold filter_data. apply Nat.eqb_neq in H. rewrite H. reflexivity. Qed.

(** If a tensor along the event axis is missing, filtering raises. *)
Theorem C16_missing_event_tensor_fails : forall kinds mask n (data : batch V) i,
  length data = length kinds ->
  nth_error kinds i = Some TEvent -> nth_error data i = Some None ->
  forall m out, filter_data V kinds mask n data <> Ok (m, out).
Proof.
  intros kinds mask n data i Hl Hk Hd m out. unfold filter_data.
  destruct (negb _); [discriminate|].
  assert (HX : forall ks ti b, (forall j, nth_error ks j = nth_error kinds (ti + j)) -> ti <= i ->
    forall r, filter_loop V mask n (count_true mask) data ti ks b <> Ok r).
  { induction ks as [|k ks IH]; intros ti b Hj Hti r.
    - specialize (Hj (i - ti)). replace (ti + (i - ti)) with i in Hj by lia. rewrite Hk in Hj. destruct (i - ti); discriminate.
    - cbn [filter_loop]. destruct (Nat.eq_dec ti i) as [->|Hne].
      + specialize (Hj 0). rewrite Nat.add_0_r, Hk in Hj. inversion Hj; subst k. unfold filter_one. rewrite Hd. discriminate.
      + destruct (filter_one V mask n (count_true mask) data ti k b) as [b'|e]; [|discriminate].
        apply IH; [|lia]. intros j. specialize (Hj (S j)). cbn [nth_error] in Hj. rewrite Hj. f_equal. lia. }
  destruct (filter_loop V mask n (count_true mask) data 0 kinds _) eqn:E; [|discriminate].
  exfalso. eapply HX; [| |exact E]; [reflexivity|lia].
Qed.

(** If only one of indices and values of a vector tensor is missing, filtering
    raises. *)
Theorem C16_half_missing_vector_fails : forall kinds mask n (data : batch V) i r idx v,
  length data = length kinds ->
  nth_error kinds i = Some (TIndex r) ->
  nth_error data i = Some idx -> nth_error data r = Some v ->
  (idx = None /\ v <> None) \/ (idx <> None /\ v = None) ->
  forall m out, filter_data V kinds mask n data <> Ok (m, out).
Proof.
  intros kinds mask n data i r idx v Hl Hk Hi Hr Hv m out. unfold filter_data.
  destruct (negb _); [discriminate|].
  assert (HX : forall ks ti b, (forall j, nth_error ks j = nth_error kinds (ti + j)) -> ti <= i ->
    forall r, filter_loop V mask n (count_true mask) data ti ks b <> Ok r).
  { induction ks as [|k ks IH]; intros ti b Hj Hti res.
    - specialize (Hj (i - ti)). replace (ti + (i - ti)) with i in Hj by lia. rewrite Hk in Hj. destruct (i - ti); discriminate.
    - cbn [filter_loop]. destruct (Nat.eq_dec ti i) as [->|Hne].
      + specialize (Hj 0). rewrite Nat.add_0_r, Hk in Hj. inversion Hj; subst k. unfold filter_one. rewrite Hi, Hr.
        destruct idx, v; try discriminate; destruct Hv as [[? ?]|[? ?]]; congruence.
      + destruct (filter_one V mask n (count_true mask) data ti k b) as [b'|e]; [|discriminate].
        apply IH; [|lia]. intros j. specialize (Hj (S j)). cbn [nth_error] in Hj. rewrite Hj. f_equal. lia. }
  destruct (filter_loop V mask n (count_true mask) data 0 kinds _) eqn:E; [|discriminate].
  exfalso. eapply HX; [| |exact E]; [reflexivity|lia].
Qed.

(** ** C61 *)

(** If no selected event has a row in some vector tensor, the filtered tensors
    are Python lists, and splitting them into events raises. *)
Theorem C61_filtered_without_rows_breaks_split : forall kinds mask n (data : batch V) q r idx v,
  KindsOk kinds -> DataOk V kinds n data -> length mask = n ->
  nth_error kinds q = Some (TIndex r) ->
  nth_error data q = Some (Some (Arr idx)) -> nth_error data r = Some (Some (Arr v)) ->
  (forall p, In p (positions mask) -> rows_of V p idx idx = []) ->
  positions mask <> [] ->
  exists m out v' idx', filter_data V kinds mask n data = Ok (m, out) /\
    nth_error out q = Some (Some idx') /\ nth_error out r = Some (Some v') /\
    batch_to_event V v' idx' m = Err TypeError.
Proof.
  intros kinds mask n data q r idx v HK HD Hm Hq Hdq Hdr Hempty Hne.
  destruct (filter_data_ok V kinds mask n data HK HD Hm) as (out & E & Hl & Ho).
  pose proof HK as (K1 & K2 & K3). pose proof (K1 _ _ Hq) as Hr. pose proof (index_of_ok _ _ _ HK Hq) as Hix.
  assert (Hql : q < length kinds) by (apply nth_error_Some; congruence).
  assert (Hrl : r < length kinds) by (apply nth_error_Some; congruence).
  assert (Hlen : length v = length idx).
  { destruct HD as (_ & _ & D3). destruct (D3 _ _ Hq) as [[H _]|(i' & v' & H1 & H2 & H3)]; [congruence|].
    rewrite Hdq in H1. rewrite Hdr in H2. inversion H1; inversion H2; subst. auto. }
  assert (Hc : concat (new_values V mask n idx v) = []).
  { apply length_zero_iff_nil. rewrite (concat_lengths _ _ (lengths_select_new V mask n idx v Hlen)).
    apply length_zero_iff_nil. apply concat_nil_Forall. apply Forall_forall. intros e He.
    apply In_nth_error in He. destruct He as [k Hk]. unfold new_indices in Hk. rewrite renumber_nth in Hk.
    assert (Hkl : k < length (positions mask)).
    { rewrite positions_length. rewrite <- (select_length mask (map (fun i => rows_of V i idx idx) (seq 0 n)))
        by (rewrite map_length, seq_length; auto). apply nth_error_Some. intros HN. rewrite HN in Hk. discriminate. }
    destruct (nth_error (positions mask) k) as [p|] eqn:Ep; [|apply nth_error_None in Ep; lia].
    rewrite (select_nth_pos mask n Hm (fun i => rows_of V i idx idx) k p Ep) in Hk. cbn [option_map] in Hk.
    rewrite (Hempty p) in Hk by (eapply nth_error_In; exact Ep). inversion Hk. reflexivity. }
  exists (count_true mask), out, (PyList []), (PyList (concat (new_indices V mask n idx))).
  split; [exact E|]. rewrite !Ho by assumption. unfold fnew. rewrite Hq, Hr, Hix. unfold new_pair. rewrite Hdq, Hdr, Hc.
  split; [reflexivity|]. split; [reflexivity|].
  unfold batch_to_event. rewrite <- positions_length. destruct (positions mask); [congruence|reflexivity].
Qed.

(** ** C17 *)

Variable zero : row.

Lemma data_full_opt kinds n data : DataFull V kinds n data -> DataOpt V kinds n data.
Proof. intros [(D1 & D2 & D3) _]. split; [exact D1|]. split; [|exact D3]. intros i Hi. right. apply D2. exact Hi. Qed.

Lemma has_spec kinds (files : list (nat * batch V)) i : i < length kinds ->
  Forall (fun f => DataOpt V kinds (fst f) (snd f)) files -> (has V files i = true <-> Available V i files).
Proof.
  intros Hi HF. unfold has, Available. rewrite forallb_forall. split.
  - intros H n data Hin. specialize (H _ Hin). unfold present in H. cbn [snd] in H. destruct (nth_error data i) as [[d|]|]; congruence.
  - intros H [n data] Hin. specialize (H n data Hin). unfold present. cbn [snd]. destruct (nth_error data i) as [[d|]|]; congruence.
Qed.

(** The batching loop: whatever the files, repetition counts and index
    sequences, the batches are the stream of events cut into pieces. *)
Theorem C17_batches : forall kinds bs groups,
  KindsOk kinds -> 0 < bs ->
  Forall (fun g => Forall (fun f => DataFull V kinds (fst f) (snd f)) (fst g) /\ IndicesOk V g) groups ->
  exists chunks, ChunksOf bs (stream V kinds groups) chunks /\
    run_batching V zero bs kinds groups = Ok (map (assemble V kinds) chunks).
Proof.
  intros kinds bs groups HK Hbs HG.
  assert (HG' : Forall (GroupOk V kinds (fun _ => true)) groups).
  { eapply Forall_impl; [|exact HG]. intros g [H1 H2]. split; [|split; [|exact H2]].
    - eapply Forall_impl; [|exact H1]. intros f. apply data_full_opt.
    - intros i Hi. apply (has_spec kinds); [exact Hi|eapply Forall_impl; [|exact H1]; intros f; apply data_full_opt|].
      intros n data Hin. rewrite Forall_forall in H1. specialize (H1 _ Hin). cbn [fst snd] in H1. destruct H1 as [(D1 & _) Hf].
      apply Hf. rewrite D1. exact Hi. }
  exists (cfinal V (fold_left (cstep V bs) (stream V kinds groups) ([], []))).
  destruct (cfold_ok V bs (stream V kinds groups) ([], [])) as [H1 H2].
  { split; [constructor|exact Hbs]. }
  split.
  - pose proof (cfinal_chunks V bs _ Hbs H1) as H3. rewrite H2 in H3. exact H3.
  - rewrite (run_batching_ok V zero kinds HK bs (fun _ => true) groups HG'). reflexivity.
Qed.

(** In a batch made from the events [es], the rows numbered [k] are those of
    event [k]. *)
Theorem C17_rows_by_event : forall kinds (es : list (event V)) q r k e,
  KindsOk kinds -> nth_error kinds q = Some (TIndex r) ->
  Forall (fun e => length (nth q e []) = length (nth r e [])) es ->
  nth_error es k = Some e ->
  rows_of V k (nth q (assemble V kinds es) []) (nth r (assemble V kinds es) []) = nth r e [] /\
  rows_of V k (nth q (assemble V kinds es) []) (nth q (assemble V kinds es) []) =
    map (fun x => (Z.of_nat k, snd x)) (nth q e []).
Proof.
  intros kinds es q r k e HK Hq HA He. pose proof HK as (K1 & _). pose proof (K1 _ _ Hq) as Hr.
  assert (Hql : q < length kinds) by (apply nth_error_Some; congruence).
  assert (Hrl : r < length kinds) by (apply nth_error_Some; congruence).
  assert (Hn : forall i, i < length kinds -> nth i (assemble V kinds es) [] = assemble_from V kinds 0 es i).
  { intros i Hi. apply nth_error_nth. apply (nth_error_map_seq (assemble_from V kinds 0 es)). exact Hi. }
  rewrite !Hn by assumption.
  assert (HC : forall i o l, assemble_from V kinds o l i = concat (map (fun p => part_in_batch V kinds (fst p) (snd p) i) (combine (seq o (length l)) l))).
  { intros i o l. revert o. induction l as [|x l IH]; intros o; [reflexivity|]. cbn [assemble_from length seq combine map concat fst snd]. rewrite IH. reflexivity. }
  rewrite !HC. set (pq := map (fun p => part_in_batch V kinds (fst p) (snd p) q) (combine (seq 0 (length es)) es)).
  set (pr := map (fun p => part_in_batch V kinds (fst p) (snd p) r) (combine (seq 0 (length es)) es)).
  assert (HLn : forall i j x, nth_error (map (fun p => part_in_batch V kinds (fst p) (snd p) i) (combine (seq 0 (length es)) es)) j = Some x ->
    exists e', nth_error es j = Some e' /\ x = part_in_batch V kinds j e' i).
  { intros i j x Hx. rewrite nth_error_map in Hx.
    destruct (nth_error (combine (seq 0 (length es)) es) j) as [[a b]|] eqn:Ec; [|discriminate]. inversion Hx; subst.
    assert (Hjl : j < length es).
    { rewrite <- (seq_length (length es) 0) at 1. assert (j < length (combine (seq 0 (length es)) es)) by (apply nth_error_Some; congruence).
      rewrite combine_length, seq_length in H. rewrite seq_length. lia. }
    apply (nth_error_nth _ _ (0, [])) in Ec. rewrite combine_nth in Ec by apply seq_length. rewrite seq_nth in Ec by exact Hjl.
    simpl in Ec. inversion Ec; subst. exists (nth a es []). split; [apply nth_error_nth'; exact Hjl|reflexivity]. }
  assert (HkL : forall i, nth_error (map (fun p => part_in_batch V kinds (fst p) (snd p) i) (combine (seq 0 (length es)) es)) k = Some (part_in_batch V kinds k e i)).
  { intros i. assert (Hkl : k < length es) by (apply nth_error_Some; congruence).
    destruct (nth_error (map (fun p => part_in_batch V kinds (fst p) (snd p) i) (combine (seq 0 (length es)) es)) k) as [x|] eqn:Ex.
    - destruct (HLn i k x Ex) as (e' & He' & ->). congruence.
    - apply nth_error_None in Ex. rewrite map_length, combine_length, seq_length in Ex. lia. }
  assert (Hnum : forall j x, nth_error pq j = Some x -> Forall (fun r0 => fst r0 = Z.of_nat (0 + j)) x).
  { intros j x Hx. destruct (HLn q j x Hx) as (e' & _ & ->). unfold part_in_batch. rewrite Hq.
    apply Forall_forall. intros y Hy. apply in_map_iff in Hy. destruct Hy as (z & <- & _). reflexivity. }
  assert (HLen : map (@length row) pq = map (@length row) pr).
  { apply nth_error_ext. intros j. rewrite !nth_error_map. unfold pq, pr. rewrite !nth_error_map.
    destruct (nth_error (combine (seq 0 (length es)) es) j) as [[a b]|] eqn:Ec; [|reflexivity]. cbn [option_map fst snd].
    f_equal. unfold part_in_batch. rewrite Hq, Hr, map_length. rewrite Forall_forall in HA. apply HA.
    apply nth_error_In in Ec. apply in_combine_r in Ec. exact Ec. }
  rewrite (rows_of_concat V pq pr 0 k HLen Hnum), (rows_of_concat V pq pq 0 k eq_refl Hnum). cbn [Nat.ltb Nat.leb].
  rewrite Nat.sub_0_r. unfold pq, pr. rewrite (nth_error_nth _ _ [] (HkL q)), (nth_error_nth _ _ [] (HkL r)).
  unfold part_in_batch. rewrite Hq, Hr. split; reflexivity.
Qed.

(** When permutations are drawn, every event of a group occurs once per
    repetition. *)
Theorem C17_every_event_repeated : forall kinds groups, Forall (PermsOk V) groups ->
  Permutation (stream V kinds groups)
    (concat (map (fun g => concat (map (fun _ => concat (map (file_events V kinds) (fst g))) (snd g))) groups)).
Proof.
  intros kinds groups H. induction H as [|g groups Hg HF IH]; [constructor|]. unfold stream. cbn [map concat].
  apply Permutation_app; [|exact IH]. unfold group_stream. unfold PermsOk in Hg.
  assert (HL : length (concat (map (file_events V kinds) (fst g))) = list_sum (map fst (fst g))) by (apply (events_of_length V kinds)).
  induction Hg as [|p ps Hp Hps IHp]; [constructor|]. cbn [map concat]. apply Permutation_app; [|exact IHp].
  rewrite (Permutation_map _ Hp). rewrite <- HL.
  rewrite (map_nth_seq (concat (map (file_events V kinds) (fst g))) (fun x => x)); [rewrite map_id; reflexivity|].
  intros j x Hx. apply nth_error_nth. exact Hx.
Qed.

(** Without shuffling the order of the files is kept. *)
Theorem C17_unshuffled_order : forall kinds groups,
  Forall (fun g => Forall (fun p => p = seq 0 (list_sum (map fst (fst g)))) (snd g)) groups ->
  stream V kinds groups =
    concat (map (fun g => concat (map (fun _ => concat (map (file_events V kinds) (fst g))) (snd g))) groups).
Proof.
  intros kinds groups H. unfold stream. induction H as [|g groups Hg HF IH]; [reflexivity|]. cbn [map concat].
  rewrite IH. f_equal. unfold group_stream.
  assert (HL : length (concat (map (file_events V kinds) (fst g))) = list_sum (map fst (fst g))) by (apply (events_of_length V kinds)).
  induction Hg as [|p ps Hp Hps IHp]; [reflexivity|]. cbn [map concat]. rewrite IHp. f_equal. rewrite Hp, <- HL.
  rewrite (map_nth_seq (concat (map (file_events V kinds) (fst g))) (fun x => x)); [apply map_id|].
  intros j x Hx. apply nth_error_nth. exact Hx.
Qed.

(** ** C62 *)

(** If one file of every group lacks a tensor, no event of any file keeps its
    data for it: the batches hold one zero per event instead. *)
Theorem C62_missing_in_one_file : forall kinds bs groups (present : nat -> bool),
  KindsOk kinds -> 0 < bs ->
  Forall (fun g => Forall (fun f => DataOpt V kinds (fst f) (snd f)) (fst g) /\ IndicesOk V g /\
    forall i, i < length kinds -> (present i = true <-> Available V i (fst g))) groups ->
  exists chunks, ChunksOf bs (stream V kinds groups) chunks /\
    run_batching V zero bs kinds groups = Ok (map (assemble_with V zero kinds present) chunks).
Proof.
  intros kinds bs groups pr HK Hbs HG.
  assert (HG' : Forall (GroupOk V kinds pr) groups).
  { eapply Forall_impl; [|exact HG]. intros g (H1 & H2 & H3). split; [exact H1|]. split; [|exact H2].
    intros i Hi. destruct (has V (fst g) i) eqn:E.
    - symmetry. apply H3; [exact Hi|]. apply (has_spec kinds); assumption.
    - destruct (pr i) eqn:E2; [|reflexivity]. apply H3 in E2; [|exact Hi]. apply (proj2 (has_spec kinds (fst g) i Hi H1)) in E2. congruence. }
  exists (cfinal V (fold_left (cstep V bs) (stream V kinds groups) ([], []))).
  destruct (cfold_ok V bs (stream V kinds groups) ([], [])) as [H1 H2].
  { split; [constructor|exact Hbs]. }
  split.
  - pose proof (cfinal_chunks V bs _ Hbs H1) as H3. rewrite H2 in H3. exact H3.
  - apply (run_batching_ok V zero kinds HK bs pr groups HG').
Qed.

End Theorems.

Print Assumptions C15_split.
Print Assumptions C15_batch_event_batch.
Print Assumptions C15_event_batch_event.
Print Assumptions C15_wrong_index_fails.
Print Assumptions C16_filter.
Print Assumptions C16_wrong_mask_fails.
Print Assumptions C16_missing_event_tensor_fails.
Print Assumptions C16_half_missing_vector_fails.
Print Assumptions C61_filtered_without_rows_breaks_split.
Print Assumptions C17_batches.
Print Assumptions C17_rows_by_event.
Print Assumptions C17_every_event_repeated.
Print Assumptions C17_unshuffled_order.
Print Assumptions C62_missing_in_one_file.

(** ** Witnesses and examples *)

(** Without any row the way back does not exist. *)
Theorem C15_no_rows_refuted : exists (ve ie : list (list (row nat))) v idx,
  Numbered nat ie /\ map (@length (row nat)) ve = map (@length (row nat)) ie /\
  event_to_batch nat ve ie 2 = Ok (v, idx) /\ batch_to_event nat v idx 2 = Err TypeError.
Proof.
  exists [[]; []], [[]; []], (PyList []), (PyList []). split; [|split; [reflexivity|split; reflexivity]].
  intros [|[|[|k]]] e He; inversion He; constructor.
Qed.
Print Assumptions C15_no_rows_refuted.

(** An event-axis tensor, and pulses with their indices, for three events of
    which the second has no pulse. *)
Definition ex_kinds : list tkind := [TEvent; TValue; TIndex 1].
Definition ex_data : batch Z :=
  [Some (Arr [(0, 10); (0, 11); (0, 12)]%Z); Some (Arr [(7, 1); (7, 2); (7, 3)]%Z);
   Some (Arr [(0, 5); (2, 6); (0, 7)]%Z)].

Example ex_kinds_ok : KindsOk ex_kinds.
Proof.
  split; [|split].
  - intros [|[|[|q]]] r H; simpl in H; inversion H; subst; try reflexivity. destruct q; discriminate.
  - intros [|[|[|q]]] [|[|[|q']]] r H H'; simpl in H, H'; try reflexivity; try discriminate; try (destruct q; discriminate); destruct q'; discriminate.
  - intros [|[|[|r]]] H; simpl in H; try discriminate; [exists 2; reflexivity|destruct r; discriminate].
Qed.

Example ex_data_full : DataFull Z ex_kinds 3 ex_data.
Proof.
  split; [split; [reflexivity|split]|].
  - intros [|[|[|q]]] H; simpl in H; try discriminate; [eexists; split; reflexivity|destruct q; discriminate].
  - intros [|[|[|q]]] r H; simpl in H; try discriminate; [|destruct q; discriminate]. inversion H; subst. right.
    do 2 eexists. split; [reflexivity|]. split; [reflexivity|]. reflexivity.
  - intros [|[|[|i]]] Hi; simpl in *; try congruence. lia.
Qed.

Example C15_ex : let b := batch_to_event Z (Arr [(7, 1); (7, 2); (7, 3)]%Z) (Arr [(0, 5); (2, 6); (0, 7)]%Z) 3 in
  b = Ok ([[(7, 1); (7, 3)]; []; [(7, 2)]]%Z, [[(0, 5); (0, 7)]; []; [(2, 6)]]%Z) /\
  InRange Z 3 [(0, 5); (2, 6); (0, 7)]%Z.
Proof. split; [reflexivity|]. repeat constructor; simpl; lia. Qed.

(** Dropping the second event renumbers the third to 1. *)
Example C16_ex : filter_data Z ex_kinds [true; false; true] 3 ex_data =
  Ok (2, [Some (Arr [(0, 10); (0, 12)]%Z); Some (Arr [(7, 1); (7, 3); (7, 2)]%Z);
          Some (Arr [(0, 5); (0, 7); (1, 6)]%Z)]) /\
  positions [true; false; true] = [0; 2].
Proof. split; reflexivity. Qed.

Example C16_half_missing_ex : forall m out,
  filter_data Z ex_kinds [true; false; true] 3
    [Some (Arr [(0, 10); (0, 11); (0, 12)]%Z); None; Some (Arr [(0, 5)]%Z)] <> Ok (m, out).
Proof.
  apply (C16_half_missing_vector_fails Z ex_kinds _ _ _ 2 1 (Some (Arr [(0, 5)]%Z)) None); try reflexivity.
  right. split; [discriminate|reflexivity].
Qed.

(** Keeping only the event without pulses. *)
Example C61_ex : exists out, filter_data Z ex_kinds [false; true; false] 3 ex_data = Ok (1, out) /\
  nth_error out 2 = Some (Some (PyList [])) /\
  (forall p, In p (positions [false; true; false]) -> rows_of Z p [(0, 5); (2, 6); (0, 7)]%Z [(0, 5); (2, 6); (0, 7)]%Z = []).
Proof.
  eexists. split; [reflexivity|]. split; [reflexivity|]. intros p [<-|[]]. reflexivity.
Qed.

(** Batches of two events out of one file with three events, shuffled. *)
Example C17_ex : run_batching Z (0, 0)%Z 2 ex_kinds [([(3, ex_data)], [[2; 0; 1]])] =
  Ok [[[(0, 12); (0, 10)]%Z; [(7, 2); (7, 1); (7, 3)]%Z; [(0, 6); (1, 5); (1, 7)]%Z];
      [[(0, 11)]%Z; []; []]] /\
  IndicesOk Z ([(3, ex_data)], [[2; 0; 1]]) /\ PermsOk Z ([(3, ex_data)], [[2; 0; 1]]).
Proof.
  split; [reflexivity|]. split.
  - repeat constructor.
  - constructor; [|constructor]. simpl. apply (Permutation_cons_app [0; 1] [] 2). reflexivity.
Qed.

(** A second file without pulses takes the pulses of the first file away. *)
Definition ex_data_none : batch Z := [Some (Arr [(0, 20)]%Z); None; None].
Example C62_ex : run_batching Z (0, 0)%Z 4 ex_kinds [([(3, ex_data); (1, ex_data_none)], [[0; 1; 2; 3]])] =
  Ok [[[(0, 10); (0, 11); (0, 12); (0, 20)]%Z; [(0, 0); (0, 0); (0, 0); (0, 0)]%Z;
       [(0, 0); (0, 0); (0, 0); (0, 0)]%Z]].
Proof. reflexivity. Qed.
