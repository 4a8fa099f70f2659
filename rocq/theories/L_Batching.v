(** Lemmas about the batching loop. *)
From Verif Require Import Py M_Batch S_Batch L_Batch L_Filter.
From Coq Require Import Sorting.Sorted.

Section Lemmas.
Variable V : Type.
Variable zero : row V.
Notation row := (row V).
Notation column := (column V).
Variable kinds : list tkind.
Hypothesis HK : KindsOk kinds.

(** ** Filling *)

Definition pair_part (n : nat) (data : batch V) (q r : nat) : column * column :=
  match nth_error data q, nth_error data r with
  | Some (Some (Arr idx)), Some (Some (Arr v)) =>
      (map (fun j => Some (Arr (rows_of V j idx idx))) (seq 0 n),
       map (fun j => Some (Arr (rows_of V j idx v))) (seq 0 n))
  | _, _ => ([None], [None])
  end.

Definition colpart (n : nat) (data : batch V) (i : nat) : column :=
  match nth_error kinds i with
  | Some TEvent => match nth_error data i with Some d => [d] | None => [] end
  | Some (TIndex r) => fst (pair_part n data i r)
  | Some TValue => match index_of kinds i with
                   | Some q => snd (pair_part n data q i)
                   | None => []
                   end
  | None => []
  end.

Definition present (data : batch V) (i : nat) : bool :=
  match nth_error data i with Some None => false | _ => true end.

Definition fill_ev (n : nat) (data : batch V) (ti : nat) (ks : list tkind) (ev : list column) : result (list column) :=
  match fill_event_list V n data ti ks ([], ev) with Err e => Err e | Ok st => Ok (snd st) end.
Definition fill_ev_one (n : nat) (data : batch V) (ti : nat) (k : tkind) (ev : list column) : result (list column) :=
  match fill_one V n data ti k ([], ev) with Err e => Err e | Ok st => Ok (snd st) end.

(** [exists] and [event_list] do not interfere. *)
Lemma fill_one_split n data ti k ex ev :
  fill_one V n data ti k (ex, ev) =
  match fill_ev_one n data ti k ev with
  | Err e => Err e
  | Ok ev' => Ok (if present data ti then ex else upd ti false ex, ev')
  end.
Proof.
  unfold fill_ev_one, fill_one, present.
  destruct (nth_error data ti) as [d|]; [|reflexivity].
  destruct k as [| |vi]; [destruct d; reflexivity..|].
  destruct (nth_error data vi) as [[v|]|]; [| |reflexivity].
  - destruct d as [idx|]; [|reflexivity]. destruct (batch_to_event V v idx n) as [[ve ie]|e]; reflexivity.
  - destruct d; reflexivity.
Qed.

Fixpoint mark (data : batch V) (ti : nat) (ks : list tkind) (ex : list bool) : list bool :=
  match ks with
  | [] => ex
  | _ :: rest => mark data (S ti) rest (if present data ti then ex else upd ti false ex)
  end.

Lemma fill_split n data ks : forall ti ex ev,
  fill_event_list V n data ti ks (ex, ev) =
  match fill_ev n data ti ks ev with
  | Err e => Err e
  | Ok ev' => Ok (mark data ti ks ex, ev')
  end.
Proof.
  unfold fill_ev. induction ks as [|k ks IH]; intros ti ex ev; [reflexivity|].
  cbn [fill_event_list mark]. rewrite !fill_one_split.
  destruct (fill_ev_one n data ti k ev) as [ev1|e]; [|reflexivity].
  rewrite IH. rewrite (IH _ (if present data ti then [] else upd ti false [])).
  destruct (fill_event_list V n data (S ti) ks ([], ev1)) as [st|e]; reflexivity.
Qed.

Lemma mark_nth data ks : forall ti ex i, nth_error (mark data ti ks ex) i =
  option_map (fun b => b && (if Nat.leb ti i && Nat.ltb i (ti + length ks) then present data i else true)) (nth_error ex i).
Proof.
  induction ks as [|k ks IH]; intros ti ex i; cbn [mark length].
  - replace (Nat.leb ti i && Nat.ltb i (ti + 0)) with false.
    + destruct (nth_error ex i); simpl; [rewrite andb_true_r|]; reflexivity.
    + symmetry. destruct (Nat.leb ti i) eqn:E; [|reflexivity]. apply Nat.leb_le in E. apply Nat.ltb_ge. lia.
  - rewrite IH. destruct (Nat.eq_dec i ti) as [->|Hne].
    + rewrite (proj2 (Nat.leb_gt (S ti) ti)) by lia. cbn [andb].
      rewrite Nat.leb_refl, (proj2 (Nat.ltb_lt ti (ti + S (length ks)))) by lia. cbn [andb].
      destruct (present data ti); [destruct (nth_error ex ti); reflexivity|].
      destruct (nth_error ex ti) as [b|] eqn:E.
      * rewrite upd_same by (apply nth_error_Some; congruence). simpl. rewrite andb_false_r. reflexivity.
      * replace (nth_error (upd ti false ex) ti) with (@None bool); [reflexivity|]. symmetry.
        apply nth_error_None. rewrite upd_length. apply nth_error_None. exact E.
    + assert (E1 : Nat.leb (S ti) i = Nat.leb ti i).
      { destruct (Nat.leb ti i) eqn:E; [apply Nat.leb_le in E; apply Nat.leb_le; lia|apply Nat.leb_gt in E; apply Nat.leb_gt; lia]. }
      rewrite E1. replace (S ti + length ks) with (ti + S (length ks)) by lia.
      destruct (present data ti); [reflexivity|]. rewrite upd_other by auto. reflexivity.
Qed.

Lemma mark_length data ks : forall ti ex, length (mark data ti ks ex) = length ex.
Proof. induction ks as [|k ks IH]; intros ti ex; simpl; [reflexivity|]. rewrite IH. destruct (present data ti); [reflexivity|apply upd_length]. Qed.

Lemma nth_error_nth_some {A} (l : list A) i d x : nth_error l i = Some x -> nth i l d = x.
Proof. intros H. apply nth_error_nth. exact H. Qed.

Lemma fill_step n data : DataOpt V kinds n data -> forall ti k ev, nth_error kinds ti = Some k -> length ev = length kinds ->
  exists ev', fill_ev_one n data ti k ev = Ok ev' /\ length ev' = length kinds /\
    forall i, nth_error ev' i = if touches kinds ti i then option_map (fun c => c ++ colpart n data i) (nth_error ev i) else nth_error ev i.
Proof.
  intros (D1 & D2 & D3) ti k ev Hk Hl. pose proof HK as (K1 & K2 & K3).
  assert (Hti : ti < length kinds) by (apply nth_error_Some; congruence).
  unfold fill_ev_one, fill_one, touches. rewrite Hk.
  destruct (nth_error data ti) as [d|] eqn:Ed; [|apply nth_error_None in Ed; lia].
  destruct k as [| |r].
  - eexists. split; [reflexivity|]. cbn [snd]. rewrite upd_length. split; [exact Hl|]. intros i.
    destruct (Nat.eqb ti i) eqn:E.
    + apply Nat.eqb_eq in E. subst i. rewrite upd_same by (unfold M_Batch.column in *; lia).
      destruct (nth_error ev ti) eqn:Eo; [|apply nth_error_None in Eo; unfold M_Batch.column in *; lia]. cbn [option_map].
      rewrite (nth_error_nth_some _ _ _ _ Eo). unfold colpart. rewrite Hk, Ed. reflexivity.
    + apply Nat.eqb_neq in E. apply upd_other. exact E.
  - exists ev. split; [reflexivity|]. split; [exact Hl|]. reflexivity.
  - pose proof (K1 _ _ Hk) as Hr. assert (Hrl : r < length kinds) by (apply nth_error_Some; congruence).
    assert (Hne : ti <> r) by (intros ->; congruence).
    pose proof (index_of_ok _ _ _ HK Hk) as Hix.
    assert (Hfin : forall d1 d2, colpart n data ti = d1 -> colpart n data r = d2 ->
      let ev1 := upd r (nth r ev [] ++ d2) ev in
      length (upd ti (nth ti ev1 [] ++ d1) ev1) = length kinds /\
      forall i, nth_error (upd ti (nth ti ev1 [] ++ d1) ev1) i =
        if Nat.eqb ti i || Nat.eqb r i then option_map (fun c => c ++ colpart n data i) (nth_error ev i) else nth_error ev i).
    { intros d1 d2 H1 H2 ev1. unfold ev1. rewrite !upd_length. split; [exact Hl|]. intros i.
      destruct (Nat.eqb ti i) eqn:E; cbn [orb].
      - apply Nat.eqb_eq in E. subst i. rewrite upd_same by (rewrite upd_length; unfold M_Batch.column in *; lia).
        destruct (nth_error ev ti) eqn:Eo; [|apply nth_error_None in Eo; unfold M_Batch.column in *; lia]. cbn [option_map].
        rewrite (nth_error_nth_some _ ti [] c); [congruence|]. rewrite upd_other by auto. exact Eo.
      - apply Nat.eqb_neq in E. rewrite upd_other by exact E. destruct (Nat.eqb r i) eqn:E2.
        + apply Nat.eqb_eq in E2. subst i. rewrite upd_same by (unfold M_Batch.column in *; lia).
          destruct (nth_error ev r) eqn:Eo; [|apply nth_error_None in Eo; unfold M_Batch.column in *; lia]. cbn [option_map].
          rewrite (nth_error_nth_some _ _ _ _ Eo). congruence.
        + apply Nat.eqb_neq in E2. apply upd_other. exact E2. }
    destruct (D3 _ _ Hk) as [[H1 H2]|(idx & v & H1 & H2 & H3)]; rewrite H2; rewrite H1 in Ed; inversion Ed; subst d.
    + eexists. split; [reflexivity|]. cbn [snd]. apply Hfin; unfold colpart; rewrite ?Hk, ?Hr, ?Hix; unfold pair_part; rewrite H1; reflexivity.
    + rewrite batch_to_event_ok by lia. eexists. split; [reflexivity|]. cbn [snd].
      apply Hfin; unfold colpart; rewrite ?Hk, ?Hr, ?Hix; unfold pair_part; rewrite H1, H2; rewrite map_map; reflexivity.
Qed.

Lemma fill_ev_ok n data ev : DataOpt V kinds n data -> length ev = length kinds ->
  exists ev', fill_ev n data 0 kinds ev = Ok ev' /\ length ev' = length kinds /\
    forall i, i < length kinds -> nth_error ev' i = option_map (fun c => c ++ colpart n data i) (nth_error ev i).
Proof.
  intros HD Hl. apply (loop_all column kinds HK (fill_ev n data) (fill_ev_one n data)).
  - reflexivity.
  - intros ti k rest st. unfold fill_ev, fill_ev_one. cbn [fill_event_list].
    rewrite fill_one_split. unfold fill_ev_one.
    destruct (fill_one V n data ti k ([], st)) as [[ex1 ev1]|e]; [|reflexivity]. cbn [snd].
    rewrite !fill_split. unfold fill_ev.
    destruct (fill_event_list V n data (S ti) rest ([], ev1)) as [st2|e]; reflexivity.
  - apply fill_step. exact HD.
  - exact Hl.
Qed.

Definition has (files : list (nat * batch V)) (i : nat) : bool := forallb (fun f => present (snd f) i) files.

Lemma nth_error_map_seq {A} (f : nat -> A) m i : i < m -> nth_error (map f (seq 0 m)) i = Some (f i).
Proof.
  intros H. rewrite nth_error_map, (nth_error_nth' _ 0) by (rewrite seq_length; exact H). rewrite seq_nth by exact H. reflexivity.
Qed.

Lemma nth_error_ext {A} (l m : list A) : (forall i, nth_error l i = nth_error m i) -> l = m.
Proof.
  revert m. induction l as [|x l IH]; intros [|y m] H; [reflexivity|discriminate (H 0)|discriminate (H 0)|].
  pose proof (H 0) as H0. inversion H0; subst. f_equal. apply IH. intros i. exact (H (S i)).
Qed.

Lemma list_eq_map_seq {A} (l : list A) (f : nat -> A) m : length l = m ->
  (forall i, i < m -> nth_error l i = Some (f i)) -> l = map f (seq 0 m).
Proof.
  intros Hl H. apply nth_error_ext. intros i. destruct (Nat.lt_ge_cases i m) as [Hi|Hi].
  - rewrite (H i Hi), nth_error_map_seq by exact Hi. reflexivity.
  - rewrite (proj2 (nth_error_None l i)) by lia. symmetry. apply nth_error_None. rewrite map_length, seq_length. exact Hi.
Qed.

Lemma fill_files_gen files : forall ex ev, Forall (fun f => DataOpt V kinds (fst f) (snd f)) files ->
  length ex = length kinds -> length ev = length kinds ->
  exists ex' ev', fill_files V kinds files (ex, ev) = Ok (ex', ev') /\ length ex' = length kinds /\ length ev' = length kinds /\
    (forall i, i < length kinds -> nth_error ex' i = option_map (fun b => b && has files i) (nth_error ex i)) /\
    (forall i, i < length kinds -> nth_error ev' i =
       option_map (fun c => c ++ concat (map (fun f => colpart (fst f) (snd f) i) files)) (nth_error ev i)).
Proof.
  induction files as [|[n data] files IH]; intros ex ev HF He Hv.
  - exists ex, ev. simpl. split; [reflexivity|]. split; [exact He|]. split; [exact Hv|]. split; intros i Hi.
    + destruct (nth_error ex i); simpl; [rewrite andb_true_r|]; reflexivity.
    + destruct (nth_error ev i); simpl; [rewrite app_nil_r|]; reflexivity.
  - inversion HF as [|? ? H1 H2]; subst. cbn [fill_files]. rewrite fill_split.
    destruct (fill_ev_ok n data ev H1 Hv) as (ev1 & E1 & E2 & E3). rewrite E1.
    destruct (IH (mark data 0 kinds ex) ev1 H2) as (ex' & ev' & I1 & I2 & I3 & I4 & I5).
    + rewrite mark_length. exact He.
    + exact E2.
    + exists ex', ev'. split; [exact I1|]. split; [exact I2|]. split; [exact I3|]. split; intros i Hi.
      * rewrite I4 by exact Hi. rewrite mark_nth. cbn [Nat.leb andb]. rewrite Nat.add_0_l, (proj2 (Nat.ltb_lt _ _)) by exact Hi.
        destruct (nth_error ex i); cbn [option_map]; [|reflexivity]. unfold has. cbn [forallb snd]. rewrite andb_assoc. reflexivity.
      * rewrite I5 by exact Hi. rewrite E3 by exact Hi. destruct (nth_error ev i); cbn [option_map map concat fst snd]; [|reflexivity].
        rewrite app_assoc. reflexivity.
Qed.

Lemma fill_files_ok files : Forall (fun f => DataOpt V kinds (fst f) (snd f)) files ->
  fill_files V kinds files (map (fun _ => true) kinds, map (fun _ => []) kinds) =
  Ok (map (has files) (seq 0 (length kinds)),
      map (fun i => concat (map (fun f => colpart (fst f) (snd f) i) files)) (seq 0 (length kinds))).
Proof.
  intros HF. destruct (fill_files_gen files (map (fun _ => true) kinds) (map (fun _ => []) kinds) HF) as (ex' & ev' & E & L1 & L2 & E1 & E2);
    [apply map_length..|]. etransitivity; [exact E|]. f_equal. f_equal.
  - apply list_eq_map_seq; [exact L1|]. intros i Hi. rewrite E1 by exact Hi. rewrite nth_error_map.
    destruct (nth_error kinds i) eqn:Ek; [reflexivity|]. apply nth_error_None in Ek. lia.
  - apply list_eq_map_seq; [exact L2|]. intros i Hi. rewrite E2 by exact Hi. rewrite nth_error_map.
    destruct (nth_error kinds i) eqn:Ek; [reflexivity|]. apply nth_error_None in Ek. lia.
Qed.

(** ** Cells *)

Definition events_of (files : list (nat * batch V)) : list (event V) := concat (map (file_events V kinds) files).

Lemma nth_event_of data j i : i < length kinds -> nth i (event_of V kinds data j) [] = event_part V kinds data j i.
Proof. intros Hi. unfold event_of. apply nth_error_nth. apply nth_error_map_seq. exact Hi. Qed.

Lemma map_nth_seq {A B} (l : list A) (f : A -> B) (g : nat -> B) :
  (forall j x, nth_error l j = Some x -> g j = f x) -> map g (seq 0 (length l)) = map f l.
Proof.
  intros H. symmetry. apply list_eq_map_seq; [apply map_length|]. intros i Hi. rewrite nth_error_map.
  destruct (nth_error l i) eqn:E; [|apply nth_error_None in E; lia]. simpl. f_equal. symmetry. apply H. exact E.
Qed.

Lemma concat_event_arrays_ok files i : i < length kinds -> nth_error kinds i = Some TEvent ->
  Forall (fun f => DataOpt V kinds (fst f) (snd f)) files -> has files i = true ->
  concat_event_arrays V (concat (map (fun f => colpart (fst f) (snd f) i) files)) =
  Ok (map (fun e => CRows (nth i e [])) (events_of files)).
Proof.
  intros Hi Hk HF Hh. unfold events_of. induction files as [|[n data] files IH]; [reflexivity|].
  inversion HF as [|? ? H1 H2]; subst. unfold has in Hh. cbn [forallb snd] in Hh. apply andb_true_iff in Hh. destruct Hh as [Hp Hh].
  cbn [map concat fst snd]. unfold colpart at 1. rewrite Hk. destruct H1 as (D1 & D2 & D3). cbn [fst snd] in *.
  destruct (D2 i Hk) as [Hd|(l & Hd & Hln)].
  - unfold present in Hp. rewrite Hd in Hp. discriminate.
  - rewrite Hd. cbn [app concat_event_arrays]. rewrite IH by assumption. f_equal. rewrite map_app. f_equal.
    unfold file_events. cbn [fst snd]. rewrite map_map. rewrite <- Hln. symmetry. apply map_nth_seq.
    intros j x Hx. rewrite nth_event_of by exact Hi. unfold event_part. rewrite Hk. unfold arr. rewrite Hd. cbn [rows]. rewrite Hx. reflexivity.
Qed.

Lemma vector_cells_ok files i : i < length kinds -> nth_error kinds i <> Some TEvent ->
  Forall (fun f => DataOpt V kinds (fst f) (snd f)) files -> has files i = true ->
  vector_cells V (concat (map (fun f => colpart (fst f) (snd f) i) files)) =
  map (fun e => CRows (nth i e [])) (events_of files).
Proof.
  intros Hi Hk HF Hh. unfold events_of. induction files as [|[n data] files IH]; [reflexivity|].
  inversion HF as [|? ? H1 H2]; subst. unfold has in Hh. cbn [forallb snd] in Hh. apply andb_true_iff in Hh. destruct Hh as [Hp Hh].
  cbn [map concat fst snd]. unfold vector_cells in *. rewrite !map_app. rewrite IH by assumption. f_equal.
  unfold file_events. cbn [fst snd]. rewrite map_map. destruct H1 as (D1 & D2 & D3). cbn [fst snd] in *.
  pose proof HK as (K1 & K2 & K3). unfold colpart.
  destruct (nth_error kinds i) as [[| |r]|] eqn:E; [congruence| | |apply nth_error_None in E; lia].
  - destruct (K3 i E) as [q Hq]. pose proof (index_of_ok _ _ _ HK Hq) as Hix. rewrite Hix.
    destruct (D3 _ _ Hq) as [[G1 G2]|(idx & v & G1 & G2 & G3)].
    + unfold present in Hp. rewrite G2 in Hp. discriminate.
    + unfold pair_part. rewrite G1, G2. cbn [snd]. rewrite map_map. apply map_ext_in. intros j Hj.
      rewrite nth_event_of by exact Hi. unfold event_part. rewrite E, Hix. unfold arr. rewrite G1, G2. reflexivity.
  - destruct (D3 _ _ E) as [[G1 G2]|(idx & v & G1 & G2 & G3)].
    + unfold present in Hp. rewrite G1 in Hp. discriminate.
    + unfold pair_part. rewrite G1, G2. cbn [fst]. rewrite map_map. apply map_ext_in. intros j Hj.
      rewrite nth_event_of by exact Hi. unfold event_part. rewrite E. unfold arr. rewrite G1. reflexivity.
Qed.

(** Cells per tensor: right where the tensor is available. *)
Definition CellsOk (ex : nat -> bool) (evs : list (event V)) (cs : list (list (cell V))) : Prop :=
  length cs = length kinds /\
  forall i, i < length kinds -> ex i = true -> nth_error cs i = Some (map (fun e => CRows (nth i e [])) evs).

Lemma event_cells_gen ex (ev : nat -> column) (evs : list (event V)) :
  (forall i, i < length kinds -> nth_error kinds i = Some TEvent -> ex i = true ->
     concat_event_arrays V (ev i) = Ok (map (fun e => CRows (nth i e [])) evs)) ->
  (forall i, i < length kinds -> nth_error kinds i <> Some TEvent -> ex i = true ->
     vector_cells V (ev i) = map (fun e => CRows (nth i e [])) evs) ->
  forall ks o, (forall j, nth_error ks j = nth_error kinds (o + j)) ->
  exists cs, event_cells V ks (map ex (seq o (length ks))) (map ev (seq o (length ks))) = Ok cs /\
    length cs = length ks /\
    forall j, j < length ks -> ex (o + j) = true -> nth_error cs j = Some (map (fun e => CRows (nth (o + j) e [])) evs).
Proof.
  intros H1 H2. induction ks as [|k ks IH]; intros o Ho.
  - exists []. simpl. split; [reflexivity|]. split; [reflexivity|]. intros j Hj. lia.
  - cbn [length seq map event_cells].
    assert (Hk : nth_error kinds o = Some k) by (rewrite <- (Nat.add_0_r o), <- Ho; reflexivity).
    assert (Hlt : o < length kinds) by (apply nth_error_Some; congruence).
    destruct (IH (S o)) as (cs & I1 & I2 & I3).
    { intros j. specialize (Ho (S j)). simpl in Ho. rewrite Ho. f_equal. lia. }
    rewrite I1.
    assert (HX : exists c, (match k, ex o with TEvent, true => concat_event_arrays V (ev o) | _, _ => Ok (vector_cells V (ev o)) end) = Ok c /\
       (ex o = true -> c = map (fun e => CRows (nth o e [])) evs)).
    { destruct k.
      - destruct (ex o) eqn:E; [|eexists; split; [reflexivity|discriminate]].
        rewrite (H1 o Hlt Hk E). eexists. split; [reflexivity|auto].
      - eexists. split; [reflexivity|]. intros E. apply H2; auto. congruence.
      - eexists. split; [reflexivity|]. intros E. apply H2; auto. congruence. }
    destruct HX as (c & -> & Hc). eexists. split; [reflexivity|]. split; [simpl; lia|].
    intros [|j] Hj E; cbn [nth_error].
    + rewrite Nat.add_0_r in *. rewrite Hc by exact E. reflexivity.
    + cbn [length] in Hj. rewrite <- Nat.add_succ_comm in *. apply I3; [lia|exact E].
Qed.

Lemma event_cells_ok files : Forall (fun f => DataOpt V kinds (fst f) (snd f)) files ->
  exists cs, event_cells V kinds (map (has files) (seq 0 (length kinds)))
    (map (fun i => concat (map (fun f => colpart (fst f) (snd f) i) files)) (seq 0 (length kinds))) = Ok cs /\
  CellsOk (has files) (events_of files) cs.
Proof.
  intros HF. destruct (event_cells_gen (has files) (fun i => concat (map (fun f => colpart (fst f) (snd f) i) files)) (events_of files)) with (ks := kinds) (o := 0)
    as (cs & E1 & E2 & E3).
  - intros i Hi Hk Hh. apply concat_event_arrays_ok; assumption.
  - intros i Hi Hk Hh. apply vector_cells_ok; assumption.
  - intros j. reflexivity.
  - exists cs. split; [exact E1|]. split; [exact E2|]. exact E3.
Qed.

(** ** Batches under construction *)

Fixpoint col_from (ex : nat -> bool) (k : nat) (es : list (event V)) (i : nat) : list (cell V) :=
  match es with
  | [] => []
  | e :: es' => (if ex i then CRows (part_in_batch V kinds k e i) else CScalar) :: col_from ex (S k) es' i
  end.

Lemma col_from_app ex es e i : forall k, col_from ex k (es ++ [e]) i =
  col_from ex k es i ++ [if ex i then CRows (part_in_batch V kinds (k + length es) e i) else CScalar].
Proof.
  induction es as [|x es IH]; intros k; cbn [app col_from length].
  - rewrite Nat.add_0_r. reflexivity.
  - rewrite IH, Nat.add_succ_comm. reflexivity.
Qed.

Definition cols (ex : nat -> bool) (es : list (event V)) : list (list (cell V)) :=
  map (col_from ex 0 es) (seq 0 (length kinds)).

Lemma add_event_gen ex evs index size e : nth_error evs index = Some e ->
  forall ks o cs (b : nat -> list (cell V)), (forall j, nth_error ks j = nth_error kinds (o + j)) -> length cs = length ks ->
  (forall j, j < length ks -> ex (o + j) = true -> nth_error cs j = Some (map (fun e => CRows (nth (o + j) e [])) evs)) ->
  add_event V ks (map ex (seq o (length ks))) cs index size (map b (seq o (length ks))) =
  Ok (map (fun i => b i ++ [if ex i then CRows (part_in_batch V kinds size e i) else CScalar]) (seq o (length ks))).
Proof.
  intros He. induction ks as [|k ks IH]; intros o cs b Ho Hl Hc; [reflexivity|].
  destruct cs as [|c cs]; [discriminate|]. cbn [length seq map add_event].
  rewrite (IH (S o) cs b).
  - pose proof (Ho 0) as Hk. cbn [nth_error] in Hk. rewrite Nat.add_0_r in Hk.
    destruct (ex o) eqn:E; [|reflexivity].
    specialize (Hc 0). cbn [nth_error length] in Hc. rewrite Nat.add_0_r in Hc. specialize (Hc ltac:(lia) E). inversion Hc; subst c.
    rewrite nth_error_map, He. cbn [option_map].
    assert (HP : part_in_batch V kinds size e o = match k with TIndex _ => set_id V size (nth o e []) | _ => nth o e [] end).
    { unfold part_in_batch. rewrite <- Hk. destruct k; reflexivity. }
    rewrite HP. destruct k; reflexivity.
  - intros j. specialize (Ho (S j)). cbn [nth_error] in Ho. rewrite Ho. f_equal. lia.
  - simpl in Hl. lia.
  - intros j Hj E. specialize (Hc (S j)). cbn [nth_error length] in Hc. rewrite <- Nat.add_succ_comm in Hc. apply Hc; [lia|exact E].
Qed.

Lemma add_event_ok ex evs cs index e P : CellsOk ex evs cs -> nth_error evs index = Some e ->
  add_event V kinds (map ex (seq 0 (length kinds))) cs index (length P) (cols ex P) = Ok (cols ex (P ++ [e])).
Proof.
  intros [H1 H2] He. unfold cols. rewrite (add_event_gen ex evs index (length P) e He kinds 0 cs).
  - f_equal. apply map_ext. intros i. rewrite col_from_app. reflexivity.
  - reflexivity.
  - exact H1.
  - exact H2.
Qed.

Lemma flush_column_ok ex es i : forall k, flush_column V zero (ex i) (col_from ex k es i) =
  Ok (if ex i then assemble_from V kinds k es i else map (fun _ => zero) es).
Proof.
  unfold flush_column. induction es as [|e es IH]; intros k; cbn [col_from]; destruct (ex i) eqn:E; try reflexivity.
  - specialize (IH (S k)). cbn [stack_rows assemble_from]. rewrite IH. reflexivity.
  - specialize (IH (S k)). cbn [forallb map andb]. destruct (forallb _ (col_from ex (S k) es i)); [|discriminate]. inversion IH. reflexivity.
Qed.

Lemma flush_ok ex es : flush V zero (map ex (seq 0 (length kinds))) (cols ex es) = Ok (assemble_with V zero kinds ex es).
Proof.
  unfold cols, assemble_with. generalize (seq 0 (length kinds)) as l. induction l as [|i l IH]; [reflexivity|].
  cbn [map flush]. rewrite flush_column_ok, IH. reflexivity.
Qed.

Lemma map_const_nil {A B} (l : list A) : map (fun _ => @nil B) l = map (fun _ : nat => []) (seq 0 (length l)).
Proof.
  generalize 0 as o. induction l as [|x l IH]; intros o; [reflexivity|]. cbn [length seq map]. f_equal. apply IH.
Qed.

Lemma cols_nil ex : cols ex [] = map (fun _ => []) kinds.
Proof. unfold cols. rewrite map_const_nil. reflexivity. Qed.

(** ** Cutting the stream *)

Definition cstep (bs : nat) (st : list (event V) * list (list (event V))) (e : event V) :=
  let '(P, C) := st in
  if Nat.eqb (S (length P)) bs then ([], C ++ [P ++ [e]]) else (P ++ [e], C).

Definition CState (bs : nat) (st : list (event V) * list (list (event V))) : Prop :=
  Forall (fun c => length c = bs) (snd st) /\ length (fst st) < bs.

Lemma cstep_ok bs st e : CState bs st -> CState bs (cstep bs st e) /\
  concat (snd (cstep bs st e)) ++ fst (cstep bs st e) = (concat (snd st) ++ fst st) ++ [e].
Proof.
  destruct st as [P C]. unfold CState, cstep. cbn [fst snd]. intros [H1 H2].
  destruct (Nat.eqb (S (length P)) bs) eqn:E; cbn [fst snd].
  - apply Nat.eqb_eq in E. split.
    + split; [|simpl; lia]. apply Forall_app. split; [exact H1|]. constructor; [|constructor]. rewrite app_length. simpl. lia.
    + rewrite concat_app. cbn [concat]. rewrite !app_nil_r, !app_assoc. reflexivity.
  - apply Nat.eqb_neq in E. split.
    + split; [exact H1|]. rewrite app_length. simpl. lia.
    + rewrite app_assoc. reflexivity.
Qed.

Lemma cfold_ok bs es : forall st, CState bs st -> CState bs (fold_left (cstep bs) es st) /\
  concat (snd (fold_left (cstep bs) es st)) ++ fst (fold_left (cstep bs) es st) = (concat (snd st) ++ fst st) ++ es.
Proof.
  induction es as [|e es IH]; intros st H; cbn [fold_left].
  - rewrite app_nil_r. auto.
  - destruct (cstep_ok bs st e H) as [H1 H2]. destruct (IH _ H1) as [I1 I2]. split; [exact I1|]. rewrite I2, H2, <- app_assoc. reflexivity.
Qed.

Definition cfinal (st : list (event V) * list (list (event V))) : list (list (event V)) :=
  match fst st with [] => snd st | P => snd st ++ [P] end.

Lemma cfinal_chunks bs st : 0 < bs -> CState bs st -> ChunksOf bs (concat (snd st) ++ fst st) (cfinal st).
Proof.
  intros Hbs [H1 H2]. destruct st as [P C]. unfold cfinal. cbn [fst snd] in *.
  assert (HC : Forall (fun c : list (event V) => 0 < length c <= bs) C) by (eapply Forall_impl; [|exact H1]; intros c Hc; simpl in Hc; lia).
  destruct P as [|e P].
  - rewrite app_nil_r. split; [reflexivity|]. split; [exact HC|].
    intros k c Hk _. rewrite Forall_forall in H1. apply H1. eapply nth_error_In. exact Hk.
  - split; [|split].
    + rewrite concat_app. cbn [concat]. rewrite app_nil_r. reflexivity.
    + apply Forall_app. split; [exact HC|]. constructor; [|constructor]. simpl in *. lia.
    + intros k c Hk Hlast. rewrite app_length in Hlast. cbn [length] in Hlast.
      rewrite nth_error_app1 in Hk by lia. rewrite Forall_forall in H1. apply H1. eapply nth_error_In. exact Hk.
Qed.

(** ** The loops *)

Lemma batch_events_ok bs ex evs cs indices : CellsOk ex evs cs -> forall P C,
  Forall (fun j => j < length evs) indices ->
  batch_events V zero bs kinds (map ex (seq 0 (length kinds))) cs indices (length P, cols ex P, map (assemble_with V zero kinds ex) C) =
  Ok (let st := fold_left (cstep bs) (map (fun j => nth j evs []) indices) (P, C) in
      (length (fst st), cols ex (fst st), map (assemble_with V zero kinds ex) (snd st))).
Proof.
  intros HC. induction indices as [|j indices IH]; intros P C HF; [reflexivity|].
  inversion HF as [|? ? Hj HF']; subst. cbn [batch_events map fold_left].
  destruct (nth_error evs j) as [e|] eqn:E; [|apply nth_error_None in E; lia].
  assert (Hn : nth j evs [] = e) by (apply nth_error_nth; exact E). rewrite Hn.
  assert (Hc : cstep bs (P, C) e = if Nat.eqb (S (length P)) bs then ([], C ++ [P ++ [e]]) else (P ++ [e], C)) by reflexivity.
  rewrite Hc. clear Hc.
  rewrite (add_event_ok ex evs cs j e P HC E).
  destruct (Nat.eqb (S (length P)) bs).
  - rewrite flush_ok. specialize (IH [] (C ++ [P ++ [e]]) HF'). rewrite cols_nil, map_app in IH. exact IH.
  - specialize (IH (P ++ [e]) C HF'). rewrite app_length in IH. cbn [length] in IH. rewrite Nat.add_1_r in IH. exact IH.
Qed.

Lemma batch_reps_ok bs ex evs cs perms : CellsOk ex evs cs -> forall P C,
  Forall (Forall (fun j => j < length evs)) perms ->
  batch_reps V zero bs kinds (map ex (seq 0 (length kinds))) cs perms (length P, cols ex P, map (assemble_with V zero kinds ex) C) =
  Ok (let st := fold_left (cstep bs) (concat (map (fun p => map (fun j => nth j evs []) p) perms)) (P, C) in
      (length (fst st), cols ex (fst st), map (assemble_with V zero kinds ex) (snd st))).
Proof.
  intros HC. induction perms as [|p perms IH]; intros P C HF; [reflexivity|].
  inversion HF as [|? ? Hp HF']; subst. cbn [batch_reps map concat].
  rewrite (batch_events_ok bs ex evs cs p HC P C Hp). cbv zeta. rewrite fold_left_app.
  destruct (fold_left (cstep bs) (map (fun j => nth j evs []) p) (P, C)) as [P' C']. cbn [fst snd].
  apply IH. exact HF'.
Qed.

Lemma events_of_length files : length (events_of files) = list_sum (map fst files).
Proof.
  unfold events_of. induction files as [|[n data] files IH]; [reflexivity|]. cbn [map concat list_sum fst fold_right].
  rewrite app_length. unfold list_sum in IH. rewrite IH. unfold file_events. rewrite map_length, seq_length. reflexivity.
Qed.

Definition GroupOk (ex : nat -> bool) (g : list (nat * batch V) * list (list nat)) : Prop :=
  Forall (fun f => DataOpt V kinds (fst f) (snd f)) (fst g) /\
  (forall i, i < length kinds -> has (fst g) i = ex i) /\
  IndicesOk V g.

Lemma map_seq_ext {A} (f g : nat -> A) m : (forall i, i < m -> f i = g i) -> map f (seq 0 m) = map g (seq 0 m).
Proof. intros H. apply map_ext_in. intros i Hi. apply in_seq in Hi. apply H. lia. Qed.

Lemma batch_group_ok bs ex g P C : GroupOk ex g ->
  batch_group V zero bs kinds (fst g) (snd g) (length P, cols ex P, map (assemble_with V zero kinds ex) C) =
  Ok (let st := fold_left (cstep bs) (group_stream V kinds g) (P, C) in
      (length (fst st), cols ex (fst st), map (assemble_with V zero kinds ex) (snd st)),
      map ex (seq 0 (length kinds))).
Proof.
  intros (H1 & H2 & H3). unfold batch_group. rewrite fill_files_ok by exact H1.
  destruct (event_cells_ok (fst g) H1) as (cs & E & HC). rewrite E.
  assert (Hex : map (has (fst g)) (seq 0 (length kinds)) = map ex (seq 0 (length kinds))) by (apply map_seq_ext; exact H2).
  rewrite Hex.
  assert (HC' : CellsOk ex (events_of (fst g)) cs).
  { destruct HC as [C1 C2]. split; [exact C1|]. intros i Hi E'. apply C2; [exact Hi|]. rewrite H2 by exact Hi. exact E'. }
  rewrite (batch_reps_ok bs ex (events_of (fst g)) cs (snd g) HC' P C); [reflexivity|].
  rewrite events_of_length. exact H3.
Qed.

Lemma batch_groups_ok bs ex groups : forall P C ex0, (P <> [] \/ groups <> [] -> True) -> Forall (GroupOk ex) groups ->
  (groups = [] -> ex0 = map ex (seq 0 (length kinds))) ->
  batch_groups V zero bs kinds groups (length P, cols ex P, map (assemble_with V zero kinds ex) C) ex0 =
  Ok (map (assemble_with V zero kinds ex) (cfinal (fold_left (cstep bs) (stream V kinds groups) (P, C)))).
Proof.
  induction groups as [|[files perms] groups IH]; intros P C ex0 _ HF Hex.
  - cbn [batch_groups stream map concat fold_left]. unfold stream. cbn [map concat fold_left]. unfold cfinal. cbn [fst snd].
    destruct P as [|e P]; [reflexivity|]. cbn [length]. rewrite (Hex eq_refl), flush_ok, map_app. reflexivity.
  - inversion HF as [|? ? H1 H2]; subst. cbn [batch_groups].
    pose proof (batch_group_ok bs ex (files, perms) P C H1) as HG. cbn [fst snd] in HG. rewrite HG. cbv zeta.
    unfold stream. cbn [map concat]. rewrite fold_left_app.
    destruct (fold_left (cstep bs) (group_stream V kinds (files, perms)) (P, C)) as [P' C']. cbn [fst snd].
    apply IH; auto.
Qed.

Lemma run_batching_ok bs ex groups : Forall (GroupOk ex) groups ->
  run_batching V zero bs kinds groups =
  Ok (map (assemble_with V zero kinds ex) (cfinal (fold_left (cstep bs) (stream V kinds groups) ([], [])))).
Proof.
  intros HF. unfold run_batching. destruct groups as [|g groups].
  - reflexivity.
  - rewrite <- (batch_groups_ok bs ex (g :: groups) [] [] (map (fun _ => true) kinds)).
    + rewrite cols_nil. reflexivity.
    + auto.
    + exact HF.
    + discriminate.
Qed.

End Lemmas.
