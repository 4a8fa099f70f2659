(** Lemmas for the cascade source for charge quantiles. *)
From Coq Require Import Reals Lra Lia.
From Verif Require Import Py PyFacts PyStr RList M_Source S_Source L_Source M_Basis S_Basis M_Noise S_Noise L_Noise
  M_Cascade S_Cascade L_Cascade M_Quantile S_Quantile.
Open Scope R_scope.

Lemma quantile_components_length n light out : length (quantile_components n light out) = n.
Proof. unfold quantile_components. rewrite map_length, seq_length. reflexivity. Qed.

Lemma quantile_mixture n light out : (1 <= n)%nat -> (4 * n <= length out)%nat ->
  Mixture (quantile_components n light out).
Proof.
  intros N L. unfold quantile_components.
  set (mu := map _ (slice (0 * n) n out)). set (sigma := map _ (slice (1 * n) n out)).
  set (r := map _ (slice (2 * n) n out)). set (sc := map _ (slice (3 * n) n out)).
  assert (LS : length sigma = n) by (unfold sigma; rewrite map_length, slice_length; lia).
  assert (LR : length r = n) by (unfold r; rewrite map_length, slice_length; lia).
  assert (LC : length sc = n) by (unfold sc; rewrite map_length, slice_length; lia).
  assert (PS : Forall (fun s => 1 / 1000 < s) sigma).
  { unfold sigma. apply Forall_map. apply Forall_forall. intros v _. pose proof (elu_lower (3 / 10 + 1 / 10 * v)). lra. }
  assert (PR : Forall (fun s => 1 / 1000 < s) r).
  { unfold r. apply Forall_map. apply Forall_forall. intros v _. pose proof (elu_lower (1 / 1000 * v)). lra. }
  assert (PC : Forall (fun s => 0 < s) sc).
  { unfold sc. apply Forall_map. apply Forall_forall. intros v _. pose proof (elu_lower (1 + 1 * v)). lra. }
  clearbody sigma r sc.
  assert (TP : 0 < Rsum sc).
  { destruct sc as [| s sc]; [cbn in LC; lia |]. rewrite Rsum_cons. pose proof (Forall_inv PC).
    assert (0 <= Rsum sc); [| lra]. apply Rsum_nonneg. eapply Forall_impl; [| exact (Forall_inv_tail PC)]. cbn; intros; lra. }
  set (norm := map (fun s => s / Rsum sc) sc).
  assert (LN : length norm = n) by (unfold norm; rewrite map_length; exact LC).
  split.
  - apply Forall_map. apply Forall_forall. intros i I. apply in_seq in I. cbn [k_scale k_sigma k_r].
    split; [| split; [exact (proj1 (Forall_nth _ _) PS i 0 ltac:(lia)) | exact (proj1 (Forall_nth _ _) PR i 0 ltac:(lia))]].
    apply (proj1 (Forall_nth (fun s => 0 < s) norm)); [| lia]. unfold norm. apply Forall_map.
    eapply Forall_impl; [| exact PC]. intros s P. apply Rdiv_lt_0_compat; assumption.
  - rewrite map_map. cbn [k_scale]. rewrite <- LN. rewrite map_nth_seq. unfold norm.
    rewrite (Rsum_map_ext _ (fun s => / Rsum sc * s)) by (intros; unfold Rdiv; ring).
    rewrite Rsum_map_scal, map_id. field. lra.
Qed.

Lemma nth_error_indexed {A} (l : list A) j :
  nth_error (combine (seq 0 (length l)) l) j = option_map (fun x => (j, x)) (nth_error l j).
Proof.
  assert (Q : forall k, nth_error (combine (seq k (length l)) l) j = option_map (fun x => (k + j, x)%nat) (nth_error l j)).
  { revert j. induction l as [| x l IH]; intros [| j] k; try reflexivity; cbn [length seq combine nth_error option_map].
    - rewrite Nat.add_0_r. reflexivity.
    - rewrite IH, Nat.add_succ_r. reflexivity. }
  apply (Q 0%nat).
Qed.

Lemma nth_firstn_lt {A} (l : list A) n i d : (i < n)%nat -> nth i (firstn n l) d = nth i l d.
Proof.
  revert n i. induction l as [| x l IH]; intros [| n] [| i] H; try lia; cbn; try reflexivity. apply IH. lia.
Qed.

Section Quantile.
  Variable format : string -> nat -> string.
  Variable trafo : nat -> R -> R.
  Variables mean std : nat -> R.
  Variable norm_const : R.
  Variable coords : cell -> R * R * R.
  Variable local_vars : cell -> list R.
  Variable lgamma : R -> R.
  Variable rel_eff : cell -> R.
  Variable net : list (list (list R)) -> nat -> cell -> list R.
  Variable fcnet : list (list R) -> nat -> list R.

  Notation qget := (quantile_get_tensors format trafo mean std norm_const coords local_vars lgamma rel_eff net fcnet).
  Notation input := (event_input trafo mean std norm_const coords local_vars).

  Definition q_out z rows : nat -> cell -> list R := net (map (input (plain z)) rows).
  Definition q_charge z rows i (e : nat) (c : cell) : R :=
    raw_charge rel_eff (plain z) (nth e rows []) (q_out z rows e c) c (nth i (nth e rows []) 0) + 1 / 10000000.
  Definition q_fc z rows (charges : nat -> cell -> R) i pulses : list (list R) :=
    map (fun p => fc_input z (q_out z rows (h_event p) (h_cell p)) (q_charge z rows i (h_event p) (h_cell p))
                    (charges (h_event p) (h_cell p)) p) pulses.

  Record QResult z rows (charges : nat -> cell -> R) pulses (r : quantile_tensors) (i : nat) : Prop := {
    o_filters : (n_charge (mode (plain z)) <= g_filters (z_base z))%nat;
    o_layout : (4 * g_models (z_base z) = z_fc_filters z)%nat;
    o_models : (1 <= g_models (z_base z))%nat;
    o_eff : (if g_global (z_base z) then name_index (quantile_names format z) "DOMEfficiency" else Ok 0%nat) = Ok i;
    o_valid : QValid (length rows) pulses;
    o_charges : forall e c, w_charges r e c = q_charge z rows i e c;
    o_unc : forall e c, w_unc r e c = fst (fst (charge_terms lgamma (plain z) (q_out z rows e c) (w_charges r e c) (charges e c)));
    o_var : forall e c, w_var r e c = snd (fst (charge_terms lgamma (plain z) (q_out z rows e c) (w_charges r e c) (charges e c)));
    o_llh : match w_llh r with
            | Some f => mode (plain z) <> Poisson /\ forall e c,
                Some (f e c) = snd (charge_terms lgamma (plain z) (q_out z rows e c) (w_charges r e c) (charges e c))
            | None => mode (plain z) = Poisson
            end;
    o_comps : forall j p, nth_error pulses j = Some p ->
      w_comps r j = quantile_components (g_models (z_base z)) (propagation coords (nth (h_event p) rows []) (h_cell p) * (1 / 1000))
                      (fcnet (q_fc z rows charges i pulses) j);
    o_length : length (w_pdf r) = length pulses;
    o_pdf : forall j p, nth_error pulses j = Some p ->
      nth_error (w_pdf r) j = Some (pulse_density (w_comps r j) None (nth 6 (nth (h_event p) rows []) 0) (h_time p)) }.

  Lemma qget_inv z rows charges pulses r : qget z rows charges pulses = Ok r -> exists i, QResult z rows charges pulses r i.
  Proof.
    unfold quantile_get_tensors. destruct (existsb (fun row => Nat.ltb (length row) 7) rows); [discriminate |].
    fold (q_out z rows). destruct (existsb _ (map _ rows)); [discriminate |].
    change (g_filters (plain z)) with (g_filters (z_base z)). change (g_global (plain z)) with (g_global (z_base z)).
    change (g_models (plain z)) with (g_models (z_base z)).
    destruct (Nat.ltb_spec (g_filters (z_base z)) (n_charge (mode (plain z)))) as [F | F]; [discriminate |].
    destruct (if g_global (z_base z) then name_index (quantile_names format z) "DOMEfficiency" else Ok 0%nat) as [i |] eqn:EF;
      [| discriminate]. cbn [bind].
    destruct (Nat.eqb_spec (g_models (z_base z) * 4) (z_fc_filters z)) as [LAY | LAY]; [| discriminate]. cbn [negb].
    destruct (Nat.ltb_spec (g_models (z_base z)) 1) as [M | M]; [discriminate |].
    destruct (forallb (fun p => in_range (length rows) (h_event p) (h_cell p)) pulses) eqn:V; [| discriminate]. cbn [negb].
    match goal with |- (if existsb _ ?fc then _ else _) = _ -> _ => change fc with (q_fc z rows charges i pulses) end.
    destruct (existsb _ (q_fc z rows charges i pulses)); [discriminate |].
    intros H. injection H as <-. exists i. split; cbn [w_charges w_unc w_var w_llh w_comps w_pdf].
    - exact F.
    - lia.
    - exact M.
    - exact EF.
    - apply Forall_forall. intros p I. rewrite forallb_forall in V. specialize (V p I). apply in_range_true in V. exact V.
    - reflexivity.
    - reflexivity.
    - reflexivity.
    - destruct (mode (plain z)) eqn:MO; [split; [discriminate |]; intros e c; cbn beta | split; [discriminate |]; intros e c; cbn beta | reflexivity].
      + unfold charge_terms. rewrite MO. reflexivity.
      + unfold charge_terms. rewrite MO. reflexivity.
    - intros j p J. rewrite J. reflexivity.
    - rewrite map_length, combine_length, seq_length. apply Nat.min_id.
    - intros j p J. rewrite nth_error_map, nth_error_indexed, J. cbn [option_map fst snd]. rewrite J. reflexivity.
  Qed.

  Lemma plain_mode z : mode (plain z) = mode (z_base z).
  Proof. reflexivity. Qed.

  Lemma fc_width z out q tq p : length out = g_filters (z_base z) -> (n_charge (mode (z_base z)) <= g_filters (z_base z))%nat ->
    length (fc_input z out q tq p) = num_fc_inputs z.
  Proof.
    intros L N. unfold fc_input, num_fc_inputs. rewrite !app_length, skipn_length, L.
    destruct (mode (z_base z)), (z_predicted z); cbn [n_charge length] in *; lia.
  Qed.

  Lemma plain_parameters z : num_parameters (plain z) = quantile_parameters z.
  Proof. unfold num_parameters, quantile_parameters, plain. cbn. lia. Qed.

  Definition fits z rows := QFits local_vars net fcnet z rows.

  (** The outcome for inputs that fit *)
  Lemma qget_some z rows charges pulses i : fits z rows -> (n_charge (mode (z_base z)) <= g_filters (z_base z))%nat ->
    (4 * g_models (z_base z) = z_fc_filters z)%nat -> (1 <= g_models (z_base z))%nat ->
    (if g_global (z_base z) then name_index (quantile_names format z) "DOMEfficiency" else Ok 0%nat) = Ok i ->
    QValid (length rows) pulses -> exists r, qget z rows charges pulses = Ok r.
  Proof.
    intros (SH & LV & LN & LF) NC LAY M EF V.
    assert (SH' : Forall (fun row => length row = num_parameters (plain z)) rows) by (rewrite plain_parameters; exact SH).
    destruct (shape_ok trafo mean std norm_const coords local_vars (plain z) rows SH' LV) as (E7 & EW).
    unfold quantile_get_tensors. rewrite E7, EW. rewrite plain_mode.
    change (g_filters (plain z)) with (g_filters (z_base z)). change (g_global (plain z)) with (g_global (z_base z)).
    change (g_models (plain z)) with (g_models (z_base z)).
    destruct (Nat.ltb_spec (g_filters (z_base z)) (n_charge (mode (z_base z)))) as [F | F]; [lia |].
    rewrite EF. cbn [bind]. destruct (Nat.eqb_spec (g_models (z_base z) * 4) (z_fc_filters z)) as [_ | X]; [| lia]. cbn [negb].
    destruct (Nat.ltb_spec (g_models (z_base z)) 1) as [X | _]; [lia |].
    assert (VB : forallb (fun p => in_range (length rows) (h_event p) (h_cell p)) pulses = true).
    { apply forallb_forall. intros p I. apply in_range_true. unfold QValid in V. rewrite Forall_forall in V. exact (V p I). }
    rewrite VB. cbn [negb].
    match goal with |- exists r, (if existsb ?f ?l then _ else _) = _ => assert (W : existsb f l = false) end.
    { apply not_true_is_false. intros H. apply existsb_exists in H. destruct H as (v & I & H).
      apply in_map_iff in I. destruct I as (p & <- & I). rewrite fc_width in H by (try apply LN; exact NC).
      rewrite Nat.eqb_refl in H. discriminate H. }
    rewrite W. eexists. reflexivity.
  Qed.
End Quantile.
