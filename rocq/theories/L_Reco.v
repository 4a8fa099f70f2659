(** Lemmas about the reconstruction. *)
From Verif Require Import RList PyFacts M_Trafo S_Trafo L_Trafo T_Trafo M_Opt M_Reco S_Reco.

Lemma bind_ok {A B} (r : result A) (f : A -> result B) b :
  bind r f = Ok b <-> exists a, r = Ok a /\ f a = Ok b.
Proof.
  split; [destruct r as [a |]; [intros H; exists a; auto | discriminate] |].
  intros (a & -> & H). exact H.
Qed.

Lemma bind_err {A B} (r : result A) (f : A -> result B) e :
  bind r f = Err e <-> r = Err e \/ exists a, r = Ok a /\ f a = Err e.
Proof.
  destruct r as [a | e']; simpl; split.
  - intros H. right. exists a. auto.
  - intros [H | (a' & [= <-] & H)]; [discriminate | exact H].
  - intros H. left. congruence.
  - intros [H | (a' & H & _)]; congruence.
Qed.

(** ** Tables *)

Lemma table_row a n b k : Table a n b -> (k < b)%nat -> length (nth k (ar_rows a) []) = n.
Proof.
  intros (_ & L & F) H. rewrite Forall_forall in F. apply F, nth_In. lia.
Qed.

Lemma table_ext a a' n b : Table a n b -> Table a' n b ->
  (forall k i, (k < b)%nat -> (i < n)%nat -> cell a k i = cell a' k i) -> a = a'.
Proof.
  intros T T' H. pose proof T as (S & L & F). pose proof T' as (S' & L' & F').
  destruct a as [sh rows], a' as [sh' rows']. cbn [ar_shape ar_rows] in *. subst sh sh'.
  f_equal. apply (nth_ext rows rows' [] []); [lia |]. intros k Hk.
  assert (R : length (nth k rows []) = n) by (apply (table_row _ n b k T); lia).
  assert (R' : length (nth k rows' []) = n) by (apply (table_row _ n b k T'); lia).
  apply (nth_ext _ _ 0 0); [lia |].
  intros i Hi. apply (H k i); lia.
Qed.

Lemma table_fits a n b : Table a n b -> Fits a.
Proof.
  intros (S & L & F). unfold Fits. rewrite S. simpl. eapply Forall_impl; [| exact F].
  cbv beta. intros r H. lia.
Qed.

Lemma cell_at a n b k i : Table a n b -> (k < b)%nat -> (i < n)%nat ->
  nth_error (nth k (ar_rows a) []) i = Some (cell a k i) /\
  In (nth k (ar_rows a) []) (ar_rows a).
Proof.
  intros T Hk Hi. pose proof T as (S & L & F). split; [| apply nth_In; lia].
  apply nth_error_nth'. rewrite (table_row a n b k T Hk). exact Hi.
Qed.

Lemma at_cell a n b e i x : Table a n b -> In e (ar_rows a) -> nth_error e i = Some x ->
  exists k, (k < b)%nat /\ (i < n)%nat /\ x = cell a k i.
Proof.
  intros (S & L & F) I E. apply In_nth with (d := []) in I. destruct I as (k & Hk & <-).
  exists k. split; [lia |].
  assert (R : length (nth k (ar_rows a) []) = n)
    by (rewrite Forall_forall in F; apply F, nth_In; exact Hk).
  split; [rewrite <- R; apply nth_error_Some; congruence |].
  unfold cell. symmetry. apply nth_error_nth. exact E.
Qed.

(** ** The transformation, entry by entry *)

Definition logged (t : tinfo) (i : nat) : bool :=
  match ti_log t with Some f => flag_at f (ti_shape t) i | None => false end.

Definition mixed (t : tinfo) : bool :=
  match ti_log t with Some f => negb (forallb (fun b => b) f) | None => false end.

Lemma logged_spec t n i : ti_shape t = [n] -> (i < n)%nat -> (logged t i = true <-> Logged t i).
Proof.
  intros S H. unfold logged. destruct (ti_log t) as [f |] eqn:E.
  - apply flag_logged; [exact E | rewrite S; discriminate | rewrite S; simpl; lia].
  - unfold Logged. rewrite E. split; [discriminate | tauto].
Qed.

Lemma mixed_spec t : mixed t = true <-> Mixed t.
Proof.
  unfold mixed, Mixed. destruct (ti_log t) as [f |].
  - rewrite negb_true_iff, <- partial_flags. split.
    + intros H. exists f. auto.
    + intros (f' & [= <-] & H). exact H.
  - split; [discriminate | intros (f & H & _); discriminate].
Qed.

Definition log_in (t : tinfo) (i : nat) (x : R) : R := if logged t i then ln (1 + x) else x.
Definition exp_out (t : tinfo) (tf : bool) (i : nat) (y : R) : R :=
  if logged t i then exp (if tf && mixed t then clip y else y) - 1 else y.

Lemma fwd_nth t e i x : nth_error e i = Some x ->
  nth_error (fwd t true e) i = Some (log_in t i x).
Proof.
  intros H. unfold fwd, log_in, logged. destruct (ti_log t) as [f |]; [| exact H].
  rewrite (nth_bins _ _ _ _ _ _ _ H). destruct (flag_at f (ti_shape t) i); [| reflexivity].
  destruct (forallb _ f); reflexivity.
Qed.

Lemma back_nth t tf e i x : nth_error e i = Some x ->
  nth_error (back t tf true e) i = Some (exp_out t tf i x).
Proof.
  intros H. unfold back, exp_out, logged, mixed. destruct (ti_log t) as [f |]; [| exact H].
  rewrite (nth_bins _ _ _ _ _ _ _ H). destruct (flag_at f (ti_shape t) i); [| reflexivity].
  destruct (forallb _ f); cbn [negb]; [rewrite andb_false_r | rewrite andb_true_r; destruct tf];
    reflexivity.
Qed.

Definition mean_at (s : stats) (i : nat) : R := nth i (st_mean s) 0.
Definition dev_at (tr : trafo) (s : stats) (i : nat) : R := tr_norm tr + nth i (st_std s) 0.

Section Cells.
  Variables (tr : trafo) (name : string) (t : tinfo) (s : stats) (n : nat).
  Hypothesis HB : Built tr.
  Hypothesis HT : dget name (tr_tensors tr) = Some t.
  Hypothesis HS : dget name (tr_data tr) = Some s.
  Hypothesis SH : ti_shape t = [n].

  Lemma stats_facts : length (st_mean s) = n /\ length (st_std s) = n /\
    Forall (fun x => 0 < x) (st_std s) /\ 0 <= tr_norm tr.
  Proof.
    destruct (built_stats tr name s HB HS) as (t' & E & _ & L1 & L2 & P & _ & N).
    assert (t' = t) by congruence. subst t'. rewrite SH in L1, L2. simpl in L1, L2.
    repeat split; auto; lia.
  Qed.

  Lemma dev_pos i : (i < n)%nat -> 0 < dev_at tr s i.
  Proof.
    intros H. destruct stats_facts as (_ & L & P & N). unfold dev_at.
    rewrite Forall_forall in P. specialize (P (nth i (st_std s) 0)).
    assert (0 < nth i (st_std s) 0) by (apply P, nth_In; lia). lra.
  Qed.

  Lemma norm_nth e i x : length e = n -> nth_error e i = Some x ->
    nth_error (norm tr s true e) i = Some ((x - mean_at s i) / dev_at tr s i) /\
    nth_error (denorm tr s true e) i = Some (x * dev_at tr s i + mean_at s i).
  Proof.
    intros L E. destruct stats_facts as (L1 & L2 & P & N).
    destruct (norm_denorm_at tr s true e i x) as (m & d & D & Em & Ed & R1 & R2);
      try assumption; try lia.
    unfold mean_at, dev_at. rewrite (nth_error_nth _ _ 0 Em).
    unfold div_by in Ed. rewrite nth_error_map in Ed.
    destruct (nth_error (st_std s) i) as [v |] eqn:V; [| discriminate].
    injection Ed as <-. rewrite (nth_error_nth _ _ 0 V). split; assumption.
  Qed.

  Lemma table_map_rows a b f : Table a n b -> (forall e, length e = n -> length (f e) = n) ->
    Table {| ar_shape := ar_shape a; ar_rows := map f (ar_rows a) |} n b.
  Proof.
    intros (S & L & F) H. unfold Table. cbn [ar_shape ar_rows]. rewrite map_length.
    repeat split; [exact S | exact L |]. rewrite Forall_forall in *. intros r I.
    apply in_map_iff in I. destruct I as (e & <- & I). apply H, F, I.
  Qed.

  Lemma cell_map_rows a b f k i : Table a n b -> (k < b)%nat ->
    cell {| ar_shape := ar_shape a; ar_rows := map f (ar_rows a) |} k i =
    nth i (f (nth k (ar_rows a) [])) 0.
  Proof.
    intros (S & L & F) Hk. unfold cell. cbn [ar_rows].
    rewrite (nth_indep (map f (ar_rows a)) [] (f [])) by (rewrite map_length; lia).
    rewrite map_nth. reflexivity.
  Qed.

  Lemma transform_cells a a' b : Table a n b -> transform (Some tr) a name true = Ok a' ->
    Table a' n b /\ forall k i, (k < b)%nat -> (i < n)%nat ->
      cell a' k i = (log_in t i (cell a k i) - mean_at s i) / dev_at tr s i.
  Proof.
    intros TA H. apply transform_ok in H. destruct H as (t' & s' & E1 & E2 & _ & _ & ->).
    assert (t' = t) by congruence. assert (s' = s) by congruence. subst t' s'.
    destruct stats_facts as (L1 & L2 & P & N).
    assert (LN : forall e, length e = n -> length (norm tr s true (fwd t true e)) = n).
    { intros e Le. rewrite (proj1 (norm_length tr s true (fwd t true e) ltac:(rewrite fwd_length; lia)
        ltac:(rewrite fwd_length; lia))). rewrite fwd_length. exact Le. }
    split; [apply table_map_rows; [exact TA | exact LN] |].
    intros k i Hk Hi. rewrite (cell_map_rows a b _ k i TA Hk).
    destruct (cell_at a n b k i TA Hk Hi) as (C & _).
    apply nth_error_nth. apply norm_nth; [| apply fwd_nth; exact C].
    rewrite fwd_length. apply (table_row a n b k TA Hk).
  Qed.

  Lemma inverse_cells tf a a' b : Table a n b ->
    inverse_transform (Some tr) tf a name true = Ok a' ->
    Table a' n b /\ forall k i, (k < b)%nat -> (i < n)%nat ->
      cell a' k i = exp_out t tf i (cell a k i * dev_at tr s i + mean_at s i).
  Proof.
    intros TA H. apply inverse_ok in H. destruct H as (t' & s' & E1 & E2 & _ & _ & ->).
    assert (t' = t) by congruence. assert (s' = s) by congruence. subst t' s'.
    destruct stats_facts as (L1 & L2 & P & N).
    assert (LN : forall e, length e = n -> length (back t tf true (denorm tr s true e)) = n).
    { intros e Le. rewrite back_length.
      rewrite (proj2 (norm_length tr s true e ltac:(lia) ltac:(lia))). exact Le. }
    split; [apply table_map_rows; [exact TA | exact LN] |].
    intros k i Hk Hi. rewrite (cell_map_rows a b _ k i TA Hk).
    destruct (cell_at a n b k i TA Hk Hi) as (C & _).
    apply nth_error_nth. apply back_nth.
    apply norm_nth; [apply (table_row a n b k TA Hk) | exact C].
  Qed.

  (** Success does not depend on the values. *)
  Lemma transform_success a a' d : transform (Some tr) a name true = Ok d ->
    ar_shape a' = ar_shape a ->
    (exists d', transform (Some tr) a' name true = Ok d') /\
    forall tf, exists d', inverse_transform (Some tr) tf a' name true = Ok d'.
  Proof.
    intros H E. apply transform_ok in H. destruct H as (t' & s' & E1 & E2 & E3 & F & _).
    assert (F' : Fine t' true (ar_rows a')).
    { intros flags L B. destruct (F flags L B) as (A & O). split; [exact A |].
      rewrite (on_bins_same flags (ti_shape t') log1p log1p log1p log1p _ (ar_rows a)).
      exact O. }
    split; [| intros tf]; eexists; [apply transform_ok | apply inverse_ok];
      exists t', s'; (split; [exact E1 |]; split; [exact E2 |]; split; [congruence |];
                      split; [exact F' | reflexivity]).
  Qed.

  Lemma inverse_success tf a a' d : inverse_transform (Some tr) tf a name true = Ok d ->
    ar_shape a' = ar_shape a ->
    (exists d', transform (Some tr) a' name true = Ok d') /\
    forall tf', exists d', inverse_transform (Some tr) tf' a' name true = Ok d'.
  Proof.
    intros H E. assert (X : exists d', transform (Some tr) a name true = Ok d').
    { apply inverse_ok in H. destruct H as (t' & s' & R). eexists. apply transform_ok.
      exists t', s'. destruct R as (R1 & R2 & R3 & R4 & _).
      split; [exact R1 |]. split; [exact R2 |]. split; [exact R3 |].
      split; [exact R4 | reflexivity]. }
    destruct X as (d' & X). apply (transform_success a a' d' X E).
  Qed.

  Lemma exp_log tf i x : (logged t i = true -> -1 < x) ->
    (tf && mixed t = true -> logged t i = true -> -60 <= ln (1 + x) <= 60) ->
    exp_out t tf i (log_in t i x) = x.
  Proof.
    intros D C. unfold exp_out, log_in. destruct (logged t i); [| reflexivity].
    assert (P : 0 < 1 + x) by (specialize (D eq_refl); lra).
    destruct (tf && mixed t); [rewrite clip_id by (apply C; reflexivity) |];
      rewrite exp_ln by exact P; ring.
  Qed.

  Lemma round_cell i x : (i < n)%nat ->
    (x - mean_at s i) / dev_at tr s i * dev_at tr s i + mean_at s i = x.
  Proof. intros H. pose proof (dev_pos i H). field. lra. Qed.
End Cells.

(** ** Merging *)

Lemma merge_columns_spec fit : forall i c p s cs, merge_columns fit i c p s = Ok cs ->
  length cs = length fit /\
  forall j, (j < length fit)%nat ->
    get_column (if nth j fit false then p else s)
      (if nth j fit false then c + fitted_before fit j else i + j) = Ok (nth j cs []).
Proof.
  induction fit as [| b fit IH]; intros i c p s cs H; cbn [merge_columns] in H.
  - injection H as <-. split; [reflexivity |]. simpl. intros j Hj. lia.
  - assert (X : exists c0 cs0,
      get_column (if b then p else s) (if b then c else i) = Ok c0 /\
      merge_columns fit (S i) (if b then S c else c) p s = Ok cs0 /\ cs = c0 :: cs0).
    { destruct b; apply bind_ok in H; destruct H as (c0 & G & H); apply bind_ok in H;
        destruct H as (cs0 & M & H); injection H as <-; exists c0, cs0; auto. }
    destruct X as (c0 & cs0 & G & M & ->). destruct (IH _ _ _ _ _ M) as (L & A).
    split; [simpl; lia |]. intros [| j] Hj.
    + cbn [nth fitted_before]. destruct b; rewrite ?Nat.add_0_r; exact G.
    + cbn [nth fitted_before]. specialize (A j ltac:(simpl in Hj; lia)).
      rewrite <- A. destruct b, (nth j fit false); cbv iota; f_equal; lia.
Qed.

Lemma get_column_cell a c col n b : Table a n b -> get_column a c = Ok col ->
  length col = b /\ forall k, (k < b)%nat -> nth k col 0 = cell a k c.
Proof.
  intros (S & L & F) H. unfold get_column in H. destruct (Nat.ltb c _); [| discriminate].
  injection H as <-. rewrite map_length. split; [exact L |]. intros k Hk. unfold cell.
  rewrite (nth_indep (map (fun r => nth c r 0) (ar_rows a)) 0 (nth c [] 0))
    by (rewrite map_length; rewrite <- L in Hk; exact Hk).
  apply (map_nth (fun r => nth c r 0)).
Qed.

Lemma not_all_fitted fit : all_fitted fit = false -> exists i, Held fit i.
Proof.
  unfold all_fitted, Held. induction fit as [| b fit IH]; [discriminate |].
  destruct b; [| intros _; exists 0%nat; reflexivity].
  intros H. destruct (IH H) as (i & E). exists (S i). exact E.
Qed.

Lemma some_fitted fit : (0 < num_fitted fit)%nat -> exists i, Fitted fit i.
Proof.
  unfold num_fitted, Fitted. induction fit as [| b fit IH]; [simpl; lia |].
  destruct b; [intros _; exists 0%nat; reflexivity |].
  intros H. destruct (IH H) as (i & E). exists (S i). exact E.
Qed.

Lemma held_nth fit i : Held fit i -> (i < length fit)%nat /\ nth i fit false = false.
Proof.
  unfold Held. intros H. split; [apply nth_error_Some; congruence | apply nth_error_nth; exact H].
Qed.

Lemma fitted_nth fit i : Fitted fit i -> (i < length fit)%nat /\ nth i fit false = true.
Proof.
  unfold Fitted. intros H. split; [apply nth_error_Some; congruence | apply nth_error_nth; exact H].
Qed.

(** What a successful merge returns. *)
Lemma merge_spec fit p s a k n b b' : all_fitted fit = false ->
  Table p k b' -> Table s n b -> merge fit p s = Ok a ->
  Combined fit p s a b /\ ((0 < num_fitted fit)%nat -> b' = b).
Proof.
  intros NA TP TS H. unfold merge in H. apply bind_ok in H. destruct H as (cs & M & H).
  apply merge_columns_spec in M. destruct M as (L & A).
  unfold stack_columns in H. destruct (forallb _ cs) eqn:FA; [| discriminate].
  injection H as <-. rewrite forallb_forall in FA.
  assert (EQ : forall c, In c cs -> length c = length (hd [] cs))
    by (intros c I; apply Nat.eqb_eq, FA, I).
  assert (LB : length (hd [] cs) = b).
  { destruct (not_all_fitted fit NA) as (i & E). apply held_nth in E. destruct E as (Hi & E).
    specialize (A i Hi). rewrite E in A. destruct (get_column_cell s _ _ n b TS A) as (B & _).
    rewrite <- (EQ (nth i cs [])); [exact B | apply nth_In; lia]. }
  rewrite LB. split.
  - split.
    + unfold table, Table. cbn [ar_shape ar_rows]. rewrite map_length, seq_length, L.
      repeat split. rewrite Forall_forall. intros r I. apply in_map_iff in I.
      destruct I as (j & <- & _). rewrite map_length. exact L.
    + assert (C : forall j i, (j < b)%nat -> (i < length fit)%nat ->
        cell (table (length cs) (map (fun k => map (fun c => nth k c 0) cs) (seq 0 b))) j i =
        nth j (nth i cs []) 0).
      { intros j i Hj Hi. unfold cell, table. cbn [ar_rows].
        rewrite (nth_indep _ [] (map (fun c => nth 0%nat c 0) cs))
          by (rewrite map_length, seq_length; exact Hj).
        rewrite (map_nth (fun k => map (fun c => nth k c 0) cs)), seq_nth by exact Hj.
        cbn [Nat.add]. rewrite (nth_indep _ 0 (nth j [] 0)) by (rewrite map_length; lia).
        apply (map_nth (fun c => nth j c 0)). }
      intros j i Hj. split; intros E.
      * apply fitted_nth in E. destruct E as (Hi & E). rewrite (C j i Hj Hi).
        specialize (A i Hi). rewrite E in A.
        destruct (get_column_cell p _ _ k b' TP A) as (B & G).
        rewrite G; [reflexivity |]. rewrite <- B, (EQ (nth i cs [])); [lia | apply nth_In; lia].
      * apply held_nth in E. destruct E as (Hi & E). rewrite (C j i Hj Hi).
        specialize (A i Hi). rewrite E in A.
        destruct (get_column_cell s _ _ n b TS A) as (B & G). rewrite G; [reflexivity | exact Hj].
  - intros P. destruct (some_fitted fit P) as (i & E). apply fitted_nth in E.
    destruct E as (Hi & E). specialize (A i Hi). rewrite E in A.
    destruct (get_column_cell p _ _ k b' TP A) as (B & _).
    rewrite <- B, (EQ (nth i cs [])); [exact LB | apply nth_In; lia].
Qed.

Lemma fitted_before_lt fit : forall i, Fitted fit i ->
  (fitted_before fit i < num_fitted fit)%nat.
Proof.
  unfold Fitted, num_fitted. induction fit as [| b fit IH]; intros [| i] H; try discriminate.
  - injection H as ->. simpl. lia.
  - cbn [nth_error] in H. specialize (IH i H). cbn [fitted_before filter].
    destruct b; cbn [length]; lia.
Qed.

(** A merge of arrays of matching sizes succeeds. *)
Lemma merge_columns_ok fit : forall i c p s k n b b', Table p k b' -> Table s n b ->
  (c + num_fitted fit <= k)%nat -> (i + length fit <= n)%nat ->
  exists cs, merge_columns fit i c p s = Ok cs.
Proof.
  induction fit as [| f fit IH]; intros i c p s k n b b' TP TS HP HS; [eexists; reflexivity |].
  unfold num_fitted in *. cbn [merge_columns filter length] in *.
  assert (G : forall a m x j, Table a m x -> (j < m)%nat -> exists col, get_column a j = Ok col).
  { intros a m x j (S & _) H. unfold get_column. rewrite S. cbn [last].
    rewrite (proj2 (Nat.ltb_lt _ _) H). eexists. reflexivity. }
  destruct f; cbn [length] in HP.
  - destruct (G p k b' c TP ltac:(lia)) as (c0 & ->). cbn [bind].
    destruct (IH (S i) (S c) p s k n b b' TP TS ltac:(lia) ltac:(lia)) as (cs & ->).
    eexists. reflexivity.
  - destruct (G s n b i TS ltac:(lia)) as (c0 & ->). cbn [bind].
    destruct (IH (S i) c p s k n b b' TP TS ltac:(lia) ltac:(lia)) as (cs & ->).
    eexists. reflexivity.
Qed.

Lemma merge_ok fit p s b : Table p (num_fitted fit) b -> Table s (length fit) b ->
  exists a, merge fit p s = Ok a.
Proof.
  intros TP TS. unfold merge.
  destruct (merge_columns_ok fit 0 0 p s _ _ b b TP TS ltac:(lia) ltac:(lia)) as (cs & E).
  rewrite E. cbn [bind]. pose proof (merge_columns_spec fit 0 0 p s cs E) as (L & A).
  unfold stack_columns.
  assert (X : forall c, In c cs -> length c = b).
  { intros c I. apply In_nth with (d := []) in I. destruct I as (j & Hj & <-).
    specialize (A j ltac:(lia)). destruct (nth j fit false).
    - exact (proj1 (get_column_cell p _ _ _ b TP A)).
    - exact (proj1 (get_column_cell s _ _ _ b TS A)). }
  replace (forallb _ cs) with true; [eexists; reflexivity |].
  symmetry. apply forallb_forall. intros c I. apply Nat.eqb_eq. rewrite (X c I).
  destruct cs as [| c0 cs]; [destruct I |]. symmetry. apply X. left. reflexivity.
Qed.

Lemma combined_unique fit p s a a' b : Combined fit p s a b -> Combined fit p s a' b -> a = a'.
Proof.
  intros (T & C) (T' & C'). apply (table_ext a a' (length fit) b T T'). intros k i Hk Hi.
  destruct (C k i Hk) as (F & H), (C' k i Hk) as (F' & H').
  destruct (nth_error fit i) as [[|] |] eqn:E.
  - rewrite F, F' by exact E. reflexivity.
  - rewrite H, H' by exact E. reflexivity.
  - apply nth_error_None in E. lia.
Qed.

(** ** Reshaping *)

Lemma chunks_concat n : forall rows, Forall (fun r => length r = n) rows ->
  chunks (length rows) n (concat rows) = rows.
Proof.
  induction rows as [| r rows IH]; intros F; [reflexivity |]. inversion F; subst.
  cbn [length chunks concat]. rewrite firstn_app, firstn_all, Nat.sub_diag, firstn_O, app_nil_r.
  rewrite skipn_app, skipn_all, Nat.sub_diag. cbn [skipn app]. rewrite IH by assumption.
  reflexivity.
Qed.

Lemma concat_length_rows n : forall rows : list (list R), Forall (fun r => length r = n) rows ->
  length (concat rows) = (length rows * n)%nat.
Proof.
  induction rows as [| r rows IH]; intros F; [reflexivity |]. inversion F; subst.
  cbn [concat length]. rewrite app_length, IH by assumption. lia.
Qed.

Lemma reshape_concat n a b : (0 < n)%nat -> Table a n b ->
  reshape n (concat (ar_rows a)) = Ok a.
Proof.
  intros P (S & L & F). unfold reshape. destruct (Nat.eqb_spec n 0); [lia |].
  rewrite (concat_length_rows n _ F), Nat.mod_mul by lia. cbn [Nat.eqb].
  rewrite Nat.div_mul by lia. rewrite chunks_concat by exact F.
  destruct a as [sh rows]. cbn in S |- *. subst sh. reflexivity.
Qed.

Lemma chunks_rows n : forall m l, (length l = m * n)%nat ->
  length (chunks m n l) = m /\ Forall (fun r => length r = n) (chunks m n l).
Proof.
  induction m as [| m IH]; intros l H; cbn [chunks]; [split; constructor |].
  assert (L : length (skipn n l) = (m * n)%nat) by (rewrite skipn_length; simpl in H; lia).
  destruct (IH _ L) as (A & B). split; [simpl; lia |]. constructor; [| exact B].
  rewrite firstn_length. simpl in H. lia.
Qed.

Lemma reshape_table n l a : reshape n l = Ok a ->
  (0 < n)%nat /\ (length l mod n = 0)%nat /\ Table a n (length l / n).
Proof.
  unfold reshape. destruct (Nat.eqb_spec n 0); [discriminate |].
  destruct (Nat.eqb_spec (length l mod n) 0) as [E |]; [| discriminate].
  intros [= <-]. split; [lia |]. split; [exact E |].
  assert (L : (length l = length l / n * n)%nat).
  { rewrite Nat.mul_comm. apply Nat.div_exact; [lia | exact E]. }
  destruct (chunks_rows n (length l / n) l L) as (A & B).
  unfold table, Table. cbn [ar_shape ar_rows]. auto.
Qed.

(** ** Selecting the fitted columns *)

Lemma selected_nth fit : forall (r : list R) i, length r = length fit -> Fitted fit i ->
  nth (fitted_before fit i) (map snd (filter fst (combine fit r))) 0 = nth i r 0.
Proof.
  unfold Fitted. induction fit as [| b fit IH]; intros [| x r] [| i] L H; try discriminate.
  - injection H as ->. reflexivity.
  - cbn [nth_error] in H. simpl in L. specialize (IH r i ltac:(lia) H).
    cbn [combine filter fst fitted_before nth]. destruct b; exact IH.
Qed.

Lemma selected_length fit : forall r : list R, length r = length fit ->
  length (map snd (filter fst (combine fit r))) = num_fitted fit.
Proof.
  unfold num_fitted. induction fit as [| b fit IH]; intros [| x r] L; try discriminate;
    [reflexivity |].
  simpl in L. specialize (IH r ltac:(lia)). cbn [combine filter fst].
  destruct b; cbn [map length]; rewrite IH; reflexivity.
Qed.

Lemma all_fitted_num fit : all_fitted fit = true -> num_fitted fit = length fit.
Proof.
  unfold all_fitted, num_fitted. induction fit as [| b fit IH]; [reflexivity |].
  destruct b; [| discriminate]. intros H. cbn [filter length]. rewrite IH by exact H. reflexivity.
Qed.

Lemma fitted_columns_spec fit a b x0 : Table a (length fit) b ->
  fitted_columns false fit a = Ok x0 ->
  Table x0 (num_fitted fit) b /\
  (forall k i, (k < b)%nat -> Fitted fit i -> cell x0 k (fitted_before fit i) = cell a k i) /\
  (all_fitted fit = true -> x0 = a).
Proof.
  intros TA H. pose proof TA as (S & L & F). unfold fitted_columns in H.
  destruct (all_fitted fit) eqn:AF.
  - injection H as <-. rewrite (all_fitted_num fit AF). split; [exact TA |].
    split; [| reflexivity]. intros k i Hk Hi. f_equal.
    clear - AF Hi. revert i Hi. unfold Fitted. induction fit as [| b fit IH]; intros [| i] H;
      try discriminate; [reflexivity |]. cbn [all_fitted forallb] in AF.
    destruct b; [| discriminate]. cbn [fitted_before]. rewrite (IH AF i H). reflexivity.
  - rewrite S in H. cbn [last] in H. rewrite Nat.eqb_refl in H. injection H as <-.
    split; [| split; [| discriminate]].
    + unfold table, Table. cbn [ar_shape ar_rows]. rewrite map_length. repeat split; [exact L |].
      rewrite Forall_forall in *. intros r I. apply in_map_iff in I. destruct I as (r0 & <- & I).
      apply selected_length, F, I.
    + intros k i Hk Hi. unfold cell, table. cbn [ar_rows].
      set (f := fun r : list R => map snd (filter fst (combine fit r))).
      transitivity (nth (fitted_before fit i) (f (nth k (ar_rows a) [])) 0).
      * f_equal. rewrite <- (map_nth f). apply nth_indep. rewrite map_length.
        rewrite <- L in Hk. exact Hk.
      * apply selected_nth; [apply (table_row a _ b k TA Hk) | exact Hi].
Qed.

Lemma fitted_columns_ok fit a b : Table a (length fit) b ->
  exists x0, fitted_columns false fit a = Ok x0.
Proof.
  intros (S & _). unfold fitted_columns. destruct (all_fitted fit); [eexists; reflexivity |].
  rewrite S. cbn [last]. rewrite Nat.eqb_refl. eexists. reflexivity.
Qed.

(** Merging the fitted columns of an array with the array gives it back. *)
Lemma merge_selected fit a x0 b : Table a (length fit) b -> all_fitted fit = false ->
  fitted_columns false fit a = Ok x0 -> merge fit x0 a = Ok a.
Proof.
  intros TA NA H. destruct (fitted_columns_spec fit a b x0 TA H) as (TX & C & _).
  destruct (merge_ok fit x0 a b TX TA) as (m & M). rewrite M. f_equal.
  destruct (merge_spec fit x0 a m _ _ b b NA TX TA M) as (CM & _).
  apply (combined_unique fit x0 a m a b CM). split; [exact TA |].
  intros k i Hk. split; [| reflexivity]. intros E. symmetry. apply C; assumption.
Qed.
