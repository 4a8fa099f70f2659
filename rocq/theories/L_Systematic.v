(** Lemmas for the cascade source with systematic parameters: it computes what the
    default cascade computes for some network. *)
From Coq Require Import Reals Lra Lia.
From Verif Require Import Py PyFacts PyStr RList M_Source S_Source L_Source M_Basis S_Basis M_Noise S_Noise L_Noise
  M_Cascade S_Cascade L_Cascade M_Systematic S_Systematic.
From Verif Require L_Batch L_Simulation L_Sphere S_Sphere M_Angles S_Angles T_Angles.
Open Scope R_scope.

Lemma index_in names k : In k names -> exists i, name_index names k = Ok i.
Proof.
  intros I. unfold name_index.
  destruct (fold_dset_some (combine names (seq 0 (length names))) [] k) as (i & E).
  - left. rewrite map_fst_combine by apply seq_length. exact I.
  - exists i. apply lookup_ok. exact E.
Qed.

Lemma index_lt names k i : name_index names k = Ok i -> (i < length names)%nat.
Proof. intros E. apply name_index_nth in E. apply nth_error_Some. congruence. Qed.

(** Of equal names the last counts. *)
Lemma index_last names k i j : name_index names k = Ok i -> nth_error names j = Some k -> (j <= i)%nat.
Proof.
  unfold name_index. intros E. apply lookup_ok in E. revert i j E.
  induction names as [| x l IH] using rev_ind; intros i j E N; [destruct j; discriminate N |].
  rewrite app_length in E. cbn [length] in E. rewrite Nat.add_1_r, seq_S in E.
  rewrite L_Batch.combine_app_eq in E by (rewrite seq_length; reflexivity). rewrite fold_left_app in E. cbn [combine fold_left fst snd Nat.add] in E.
  assert (J : (j < S (length l))%nat).
  { assert (X : (j < length (l ++ [x]))%nat) by (apply nth_error_Some; congruence). rewrite app_length in X. cbn in X. lia. }
  destruct (string_dec k x) as [-> | D].
  - rewrite dget_dset_same in E. injection E as <-. lia.
  - rewrite dget_dset_other in E by congruence.
    destruct (Nat.eq_dec j (length l)) as [-> | NJ].
    + rewrite nth_error_app2, Nat.sub_diag in N by lia. injection N as N. congruence.
    + rewrite nth_error_app1 in N by lia. exact (IH i j E N).
Qed.

Section Systematic.
  Variable format : string -> nat -> string.
  Variable trafo : nat -> R -> R.
  Variables mean std : nat -> R.
  Variable norm_const : R.
  Variable coords : cell -> R * R * R.
  Variable local_vars : cell -> list R.
  Variables erf lgamma : R -> R.
  Variable rel_eff : cell -> R.
  Variables lnet net : list (list (list R)) -> nat -> cell -> list R.

  Notation sys := (systematic_get_tensors format trafo mean std norm_const coords local_vars lgamma rel_eff lnet net).
  Notation shared := (shared_inputs trafo mean std norm_const coords local_vars lnet).
  Notation locals := (local_inputs std norm_const coords local_vars).

  (** The default cascade with the same options *)
  Definition as_cascade (y : systematic_config) : cascade_config :=
    let g := y_base y in
    {| g_labels := g_labels g; g_snowstorm := g_snowstorm g; g_opening := false; g_coordinates := false;
       g_local := 0; g_filters := g_filters g; g_models := g_models g; g_charge := g_charge g; g_sort := false;
       g_scale := g_scale g; g_relative := g_relative g; g_global := has_efficiency format y |}.

  Notation cget rows0 add0 y0 := (cascade_get_tensors format trafo mean std norm_const coords (fun _ => []) erf lgamma rel_eff
    (fun _ => net (shared y0 add0 rows0))).

  Lemma has_efficiency_in y : has_efficiency format y = true <-> In "DOMEfficiency"%string (systematic_names format y).
  Proof.
    unfold has_efficiency. rewrite existsb_exists. split.
    - intros (x & I & E). apply String.eqb_eq in E. subst x. exact I.
    - intros I. exists "DOMEfficiency"%string. split; [exact I | apply String.eqb_refl].
  Qed.

  (** *** The parameters of the second network *)

  Lemma add_spec y : exists add, add_indices format y = Ok add /\
    (length add + efficiencies (systematic_names format y) + 7 = num_parameters (y_base y))%nat /\
    Forall (fun i => (7 <= i < num_parameters (y_base y))%nat /\
      exists name, nth_error (systematic_names format y) i = Some name /\ name <> "DOMEfficiency"%string) add /\
    (forall name, In name (skipn 7 (systematic_names format y)) -> name <> "DOMEfficiency"%string ->
      exists i, In i add /\ nth_error (systematic_names format y) i = Some name).
  Proof.
    unfold add_indices. set (names := systematic_names format y).
    assert (NL : length names = num_parameters (y_base y)) by (unfold names, systematic_names; apply names_length).
    assert (E7 : exists tl, names = app ["x"; "y"; "z"; "zenith"; "azimuth"; "energy"; "time"]%string tl).
    { unfold names, systematic_names, cascade_names. eexists. reflexivity. }
    destruct E7 as (tl & E7).
    assert (SK : skipn 7 names = tl) by (rewrite E7; reflexivity). rewrite SK.
    assert (CE : efficiencies names = count_occ string_dec tl "DOMEfficiency"%string).
    { rewrite E7. unfold efficiencies. rewrite count_occ_app. reflexivity. }
    assert (LT : length tl = (num_parameters (y_base y) - 7)%nat /\ (7 <= num_parameters (y_base y))%nat).
    { rewrite <- NL, E7, app_length. cbn [length]. lia. }
    rewrite CE.
    match goal with |- exists add, ?go tl = _ /\ _ => set (f := go) end.
    assert (Q : forall l, (forall x, In x l -> In x names) -> (forall x, In x l -> In x tl) -> exists add, f l = Ok add /\
      (length add + count_occ string_dec l "DOMEfficiency"%string = length l)%nat /\
      Forall (fun i => (7 <= i < num_parameters (y_base y))%nat /\
        exists name, nth_error names i = Some name /\ name <> "DOMEfficiency"%string) add /\
      (forall name, In name l -> name <> "DOMEfficiency"%string -> exists i, In i add /\ nth_error names i = Some name)).
    { induction l as [| name l IH]; intros H H2.
      - exists []. repeat split; [constructor | intros ? []].
      - destruct IH as (add & F & L & FA & FB); [intros x I; apply H; right; exact I | intros x I; apply H2; right; exact I |].
        change (f (name :: l)) with (if String.eqb name "DOMEfficiency" then f l
          else bind (name_index names name) (fun i => bind (f l) (fun is => Ok (i :: is)))).
        destruct (String.eqb_spec name "DOMEfficiency") as [-> | N].
        + exists add. split; [exact F |]. cbn [count_occ]. destruct (string_dec _ _) as [_ | X]; [| congruence].
          split; [cbn [length]; lia |]. split; [exact FA |].
          intros x [-> | I] X; [congruence | apply FB; assumption].
        + destruct (index_in names name (H name (or_introl eq_refl))) as (i & E). rewrite E, F. cbn [bind].
          exists (i :: add). split; [reflexivity |]. cbn [count_occ]. destruct (string_dec _ _) as [X | _]; [congruence |].
          split; [cbn [length]; lia |]. split.
          * constructor; [| exact FA]. split.
            { split; [| rewrite <- NL; exact (index_lt _ _ _ E)].
              destruct (In_nth_error tl name (H2 name (or_introl eq_refl))) as (j & J).
              assert (X : (7 + j <= i)%nat) by (apply (index_last names name); [exact E | rewrite E7; exact J]). lia. }
            exists name. split; [apply name_index_nth; exact E | exact N].
          * intros x [<- | I] X.
            -- exists i. split; [left; reflexivity | apply name_index_nth; exact E].
            -- destruct (FB x I X) as (j & J & K). exists j. split; [right; exact J | exact K]. }
    destruct (Q tl) as (add & F & L & FA & FB).
    - intros x I. rewrite E7. apply in_or_app. right. exact I.
    - auto.
    - exists add. split; [exact F |]. split; [lia |]. split; [exact FA | exact FB].
  Qed.

  (** *** The widths of the inputs *)

  Lemma local_width row c : length (local_input std norm_const coords local_vars row c) = (4 + length (local_vars c))%nat.
  Proof.
    unfold local_input. destruct (displacement std norm_const coords row c) as [[[nx ny] nz] d]. reflexivity.
  Qed.

  Lemma local_ok y rows : (forall c, length (local_vars c) = g_local (y_base y)) ->
    wrong_width (num_local_inputs y) (locals rows) = false.
  Proof.
    intros LV. apply not_true_is_false. intros H. unfold wrong_width in H. apply existsb_exists in H.
    destruct H as (l & I & H). unfold local_inputs in I. apply in_map_iff in I. destruct I as (row & <- & I).
    apply existsb_exists in H. destruct H as (v & J & H). apply in_map_iff in J. destruct J as (c & <- & J).
    rewrite local_width, LV in H. unfold num_local_inputs in H. rewrite Nat.eqb_refl in H. discriminate H.
  Qed.

  Lemma shared_width y add row c local :
    length (shared_input trafo mean std norm_const coords y add row c local)
    = (8 + (if g_opening (y_base y) then 1 else 0) + (if y_anisotropy y then 1 else 0)
       + (if g_coordinates (y_base y) then 3 else 0) + length add + length local)%nat.
  Proof.
    unfold shared_input. destruct (coords c) as [[x0 y0] z0].
    destruct (displacement std norm_const coords row c) as [[[nx ny] nz] d].
    destruct (direction (nth 3 row 0) (nth 4 row 0)) as [[ux uy] uz].
    rewrite !app_length, map_length.
    destruct (g_opening (y_base y)), (y_anisotropy y), (g_coordinates (y_base y)); cbn [length]; lia.
  Qed.

  Lemma num_shared_eq y : num_shared_inputs format y
    = (8 + (num_parameters (y_base y) - 7) - (if has_efficiency format y then 1 else 0) + y_filters y
       + (if g_opening (y_base y) then 1 else 0) + (if y_anisotropy y then 1 else 0)
       + (if g_coordinates (y_base y) then 3 else 0))%nat.
  Proof.
    unfold num_shared_inputs, num_parameters. destruct (g_labels (y_base y)), (g_snowstorm (y_base y));
      rewrite ?fold_snow; destruct (has_efficiency format y); lia.
  Qed.

  Lemma shared_wrong y add rows : add_indices format y = Ok add -> (forall inputs e c, length (lnet inputs e c) = y_filters y) ->
    wrong_width (num_shared_inputs format y) (shared y add rows)
    = negb (Nat.eqb (length rows) 0) && Nat.ltb 1 (efficiencies (systematic_names format y)).
  Proof.
    intros A LN. destruct (add_spec y) as (add' & A' & L & _). rewrite A in A'. injection A' as <-.
    set (k := efficiencies (systematic_names format y)) in *.
    assert (HK : has_efficiency format y = negb (Nat.eqb k 0)).
    { destruct (has_efficiency format y) eqn:H.
      - apply has_efficiency_in in H. apply (count_occ_In string_dec) in H. fold (efficiencies (systematic_names format y)) in H.
        fold k in H. destruct k; [lia | reflexivity].
      - destruct k eqn:K; [reflexivity |]. exfalso. apply not_true_iff_false in H. apply H. apply has_efficiency_in.
        apply (count_occ_In string_dec). unfold k, efficiencies in K. rewrite K. lia. }
    assert (W : forall row c local, length local = y_filters y ->
      Nat.eqb (length (shared_input trafo mean std norm_const coords y add row c local)) (num_shared_inputs format y)
      = negb (Nat.ltb 1 k)).
    { intros row c local LL. rewrite shared_width, num_shared_eq, HK, LL.
      destruct (Nat.ltb_spec 1 k) as [B | B].
      - apply Nat.eqb_neq. destruct k as [| [| k]]; cbn [Nat.eqb negb] in *; lia.
      - apply Nat.eqb_eq. destruct k as [| [| k]]; cbn [Nat.eqb negb] in *; lia. }
    destruct (Nat.ltb_spec 1 k) as [B | B].
    - rewrite andb_true_r. destruct rows as [| row rows]; [reflexivity |]. cbn [length Nat.eqb negb].
      unfold wrong_width, shared_inputs. cbn [length seq combine map existsb]. apply orb_true_iff. left.
      apply existsb_exists. eexists. split; [apply (in_map _ _ (0, 0)%nat); apply cells_in; split; cbn; lia |].
      cbn beta. rewrite W by apply LN. reflexivity.
    - rewrite andb_false_r. apply not_true_is_false. intros H. unfold wrong_width in H. apply existsb_exists in H.
      destruct H as (l & I & H). unfold shared_inputs in I. apply in_map_iff in I. destruct I as (er & <- & I).
      apply existsb_exists in H. destruct H as (v & J & H). apply in_map_iff in J. destruct J as (c & <- & J).
      rewrite W in H by apply LN. cbn in H. discriminate H.
  Qed.

  (** *** The result *)

  (** The outcome for inputs that fit *)
  Lemma sys_eq y rows charges pulses add : Fits local_vars lnet y rows -> add_indices format y = Ok add ->
    sys y rows charges pulses =
      if Nat.eqb (length add) 0 then Err ValueError
      else if negb (Nat.eqb (length rows) 0) && Nat.ltb 1 (efficiencies (systematic_names format y)) then Err ValueError
      else cget rows add y (as_cascade y) rows charges None pulses.
  Proof.
    intros (SH & LV & LN) A. set (g := as_cascade y).
    assert (SH' : Forall (fun row => length row = num_parameters g) rows) by exact SH.
    destruct (shape_ok trafo mean std norm_const coords (fun _ => []) g rows SH' (fun _ => eq_refl)) as (E7 & EW).
    destruct (add_spec y) as (add' & A' & _ & FA & _). rewrite A in A'. injection A' as <-.
    assert (EI : existsb (fun row => existsb (fun i => Nat.leb (length row) i) add) rows = false).
    { apply not_true_is_false. intros H. apply existsb_exists in H. destruct H as (row & I & H).
      apply existsb_exists in H. destruct H as (i & J & H). apply Nat.leb_le in H.
      rewrite Forall_forall in SH, FA. specialize (SH row I). destruct (FA i J) as (K & _). lia. }
    unfold systematic_get_tensors. rewrite E7, (local_ok y rows LV), A. cbn [bind]. rewrite EI.
    destruct (Nat.eqb (length add) 0); [reflexivity |]. rewrite (shared_wrong y add rows A LN).
    destruct (negb (Nat.eqb (length rows) 0) && Nat.ltb 1 (efficiencies (systematic_names format y))); [reflexivity |].
    cbv beta delta [cascade_get_tensors]. rewrite E7. cbv zeta. rewrite EW.
    change (g_models g) with (g_models (y_base y)). change (mode g) with (mode (y_base y)).
    change (g_filters g) with (g_filters (y_base y)). change (g_global g) with (has_efficiency format y).
    change (cascade_names format g) with (systematic_names format y).
    cbn [bind].
    destruct (has_efficiency format y) eqn:HF.
    - destruct (index_in _ _ (proj1 (has_efficiency_in y) HF)) as (i & EF). rewrite EF. cbn [bind].
      assert (EX : existsb (fun row : list R => Nat.leb (length row) i) rows = false).
      { apply not_true_is_false. intros H. apply existsb_exists in H. destruct H as (row & I & H).
        apply Nat.leb_le in H. rewrite Forall_forall in SH. specialize (SH row I). apply index_lt in EF.
        unfold systematic_names in EF. rewrite names_length in EF. lia. }
      rewrite EX. destruct (negb (Nat.eqb (g_models (y_base y) * 4 + n_charge (mode (y_base y))) (g_filters (y_base y))));
        [reflexivity |]. destruct (Nat.leb (g_models (y_base y)) 1); [reflexivity |]. cbn [bind].
      unfold raw_charge. change (g_global g) with (has_efficiency format y). rewrite HF. reflexivity.
    - cbn [bind].
      assert (EX : existsb (fun _ : list R => false) rows = false).
      { clear. induction rows as [| row rs IH]; [reflexivity | exact IH]. }
      rewrite EX. destruct (negb (Nat.eqb (g_models (y_base y) * 4 + n_charge (mode (y_base y))) (g_filters (y_base y))));
        [reflexivity |]. destruct (Nat.leb (g_models (y_base y)) 1); [reflexivity |]. cbn [bind].
      unfold raw_charge. change (g_global g) with (has_efficiency format y). rewrite HF. reflexivity.
  Qed.
  (** *** Inputs that do not change *)

  Lemma combine_seq {A} (l : list A) d k :
    combine (seq k (length l)) l = map (fun e => (k + e, nth e l d)%nat) (seq 0 (length l)).
  Proof.
    revert k. induction l as [| x l IH]; intros k; [reflexivity |]. cbn [length seq combine map nth].
    rewrite Nat.add_0_r. f_equal. rewrite IH, <- seq_shift, map_map. apply map_ext. intros e. cbn [nth]. f_equal. lia.
  Qed.

  Lemma map_seq {A B} (f : A -> B) (l : list A) d : map f l = map (fun e => f (nth e l d)) (seq 0 (length l)).
  Proof.
    induction l as [| x l IH]; [reflexivity |]. cbn [length seq map nth]. f_equal.
    rewrite IH, <- seq_shift, map_map. reflexivity.
  Qed.

  Lemma displacement_ext row row' c : (forall i, (i < 3)%nat -> nth i row' 0 = nth i row 0) ->
    displacement std norm_const coords row' c = displacement std norm_const coords row c.
  Proof.
    intros H. unfold displacement. rewrite (H 0%nat), (H 1%nat), (H 2%nat) by lia. reflexivity.
  Qed.

  Lemma locals_ext rows rows' : length rows' = length rows ->
    (forall e i, (e < length rows)%nat -> (i < 3)%nat -> nth i (nth e rows' []) 0 = nth i (nth e rows []) 0) ->
    locals rows' = locals rows.
  Proof.
    intros L H. unfold local_inputs. rewrite (map_seq _ rows' []), (map_seq _ rows []), L. apply map_ext_in.
    intros e I. apply in_seq in I. apply map_ext. intros c. unfold local_input.
    rewrite (displacement_ext (nth e rows []) (nth e rows' []) c) by (intros i Hi; apply H; lia). reflexivity.
  Qed.

  Lemma shared_ext y add rows rows' : length rows' = length rows ->
    (forall e, (e < length rows)%nat ->
      (forall i, In i [0; 1; 2; 5]%nat \/ In i add -> nth i (nth e rows' []) 0 = nth i (nth e rows []) 0) /\
      direction (nth 3 (nth e rows' []) 0) (nth 4 (nth e rows' []) 0)
      = direction (nth 3 (nth e rows []) 0) (nth 4 (nth e rows []) 0)) ->
    shared y add rows' = shared y add rows.
  Proof.
    intros L H. unfold shared_inputs.
    assert (LE : locals rows' = locals rows).
    { apply locals_ext; [exact L |]. intros e i E I. destruct (H e E) as (H1 & _). apply H1. left.
      cbn. destruct i as [| [| [| i]]]; lia. }
    rewrite LE, (combine_seq rows' [] 0), (combine_seq rows [] 0), L, !map_map. apply map_ext_in.
    intros e I. apply in_seq in I. destruct (H e ltac:(lia)) as (H1 & H2). cbn [fst snd]. apply map_ext. intros c.
    unfold shared_input. rewrite H2.
    rewrite (displacement_ext (nth e rows []) (nth e rows' []) c).
    2:{ intros i Hi. apply H1. left. cbn. destruct i as [| [| [| i]]]; lia. }
    rewrite (H1 5%nat) by (left; cbn; lia).
    rewrite (map_ext_in (fun i => trafo i (nth i (nth e rows' []) 0)) (fun i => trafo i (nth i (nth e rows []) 0)) add)
      by (intros i J; rewrite H1 by (right; exact J); reflexivity).
    reflexivity.
  Qed.

  (** *** What the networks are told *)

  Lemma add_nodup y : NoDup (systematic_names format y) ->
    add_indices format y = Ok (filter (fun i => negb (String.eqb (nth i (systematic_names format y) ""%string) "DOMEfficiency"%string))
      (seq 7 (length (systematic_names format y) - 7))).
  Proof.
    unfold add_indices. set (names := systematic_names format y). intros ND.
    match goal with |- ?go _ = _ => set (f := go) end.
    assert (Q : forall k, (k <= length names)%nat -> f (skipn k names) =
      Ok (filter (fun i => negb (String.eqb (nth i names ""%string) "DOMEfficiency"%string)) (seq k (length names - k)))).
    { intros k K. remember (length names - k)%nat as m eqn:M. revert k K M. induction m as [| m IH]; intros k K M.
      - rewrite skipn_all2 by lia. reflexivity.
      - assert (SX : exists x, nth_error names k = Some x /\ skipn k names = x :: skipn (S k) names).
        { clear -M. revert k M. induction names as [| x l IH]; intros k M; [cbn in M; lia |].
          destruct k as [| k]; [exists x; split; reflexivity |]. apply (IH k). cbn in M. lia. }
        destruct SX as (x & N & SX). rewrite SX.
        change (f (x :: skipn (S k) names)) with (if String.eqb x "DOMEfficiency" then f (skipn (S k) names)
          else bind (name_index names x) (fun i => bind (f (skipn (S k) names)) (fun is => Ok (i :: is)))).
        rewrite (IH (S k)) by lia. cbn [seq filter]. rewrite (nth_error_nth _ _ ""%string N).
        destruct (String.eqb x "DOMEfficiency"); [reflexivity |]. cbn [negb].
        rewrite (L_Simulation.index_of_nth names k x ND N). reflexivity. }
    apply Q. unfold names, systematic_names. rewrite names_length. unfold num_parameters. lia.
  Qed.

  Lemma azimuth_spec nx ny : 0 <= anisotropy_angle nx ny < 2 * PI /\
    exists rho, 0 <= rho /\ - nx = rho * cos (anisotropy_angle nx ny) /\ - ny = rho * sin (anisotropy_angle nx ny).
  Proof.
    pose proof PI_RGT_0 as PP. unfold anisotropy_angle. split; [apply L_Sphere.fmod_range; lra |].
    set (rho := sqrt ((- nx) ^ 2 + (- ny) ^ 2)). exists rho.
    assert (RN : 0 <= rho) by apply sqrt_pos. split; [exact RN |].
    assert (R2 : rho ^ 2 = (- nx) ^ 2 + (- ny) ^ 2).
    { unfold rho. rewrite <- Rsqr_pow2, Rsqr_sqrt; [reflexivity |].
      pose proof (pow2_ge_0 (- nx)). pose proof (pow2_ge_0 (- ny)). lra. }
    rewrite L_Sphere.cos_fmod, L_Sphere.sin_fmod.
    set (a := M_Sphere.atan2 (- ny) (- nx)).
    assert (C2 : cos (a + 2 * PI) = cos a) by (rewrite <- (L_Sphere.cos_period_Z a 1); f_equal; ring).
    assert (S2 : sin (a + 2 * PI) = sin a) by (rewrite <- (L_Sphere.sin_period_Z a 1); f_equal; ring).
    rewrite C2, S2. destruct RN as [RP | RZ].
    - destruct (L_Sphere.atan2_spec (- nx) (- ny) rho RP R2) as (A & B). unfold a. rewrite A, B. split; field; lra.
    - rewrite <- RZ in *. pose proof (pow2_ge_0 (- nx)). pose proof (pow2_ge_0 (- ny)).
      assert (X : (- nx) ^ 2 = 0) by lra. assert (Y : (- ny) ^ 2 = 0) by lra.
      rewrite <- Rsqr_pow2 in X, Y. apply Rsqr_0_uniq in X. apply Rsqr_0_uniq in Y. rewrite X, Y. split; ring.
  Qed.

  Lemma opening_spec u n : S_Sphere.dot u u = 1 -> S_Sphere.dot n n = 1 ->
    0 <= M_Angles.get_angle u n <= PI /\ cos (M_Angles.get_angle u n) = S_Sphere.dot u n.
  Proof.
    intros U N. rewrite T_Angles.C95_angle.
    - unfold S_Angles.angle_between. rewrite U, N, sqrt_1. replace (S_Sphere.dot u n / (1 * 1)) with (S_Sphere.dot u n) by field.
      split; [apply acos_bound |]. apply cos_acos. destruct u as [[a b] c], n as [[a' b'] c']. unfold S_Sphere.dot in *.
      assert (0 <= (a - a') ^ 2 + (b - b') ^ 2 + (c - c') ^ 2).
      { pose proof (pow2_ge_0 (a - a')). pose proof (pow2_ge_0 (b - b')). pose proof (pow2_ge_0 (c - c')). lra. }
      assert (0 <= (a + a') ^ 2 + (b + b') ^ 2 + (c + c') ^ 2).
      { pose proof (pow2_ge_0 (a + a')). pose proof (pow2_ge_0 (b + b')). pose proof (pow2_ge_0 (c + c')). lra. }
      lra.
    - intros ->. cbn in U. lra.
    - intros ->. cbn in N. lra.
  Qed.

  Lemma told y row c local :
    coords c <> (nth 0 row 0, nth 1 row 0, nth 2 row 0) -> NoDup (systematic_names format y) ->
    forall add, add_indices format y = Ok add ->
    Told trafo mean std norm_const y (systematic_names format y) (coords c) row (local_vars c) local
      (local_input std norm_const coords local_vars row c)
      (shared_input trafo mean std norm_const coords y add row c local).
  Proof.
    intros NE ND add A. rewrite (add_nodup y ND) in A. injection A as <-.
    unfold Told, local_input, shared_input, displacement, direction. destruct (coords c) as [[x0 y0] z0].
    set (dx := x0 - nth 0 row 0). set (dy := y0 - nth 1 row 0). set (dz := z0 - nth 2 row 0).
    set (d := sqrt (dx ^ 2 + dy ^ 2 + dz ^ 2)).
    assert (SP : 0 < dx ^ 2 + dy ^ 2 + dz ^ 2).
    { pose proof (pow2_ge_0 dx). pose proof (pow2_ge_0 dy). pose proof (pow2_ge_0 dz).
      destruct (Req_dec (dx ^ 2 + dy ^ 2 + dz ^ 2) 0) as [Z | Z]; [exfalso | lra]. apply NE.
      assert (X : dx ^ 2 = 0) by lra. assert (Y : dy ^ 2 = 0) by lra. assert (W : dz ^ 2 = 0) by lra.
      rewrite <- Rsqr_pow2 in X, Y, W. apply Rsqr_0_uniq in X. apply Rsqr_0_uniq in Y. apply Rsqr_0_uniq in W.
      unfold dx, dy, dz in *. f_equal; [f_equal |]; lra. }
    assert (DP : 0 < d) by (apply sqrt_lt_R0; exact SP).
    assert (D2 : d ^ 2 = dx ^ 2 + dy ^ 2 + dz ^ 2) by (unfold d; rewrite <- Rsqr_pow2, Rsqr_sqrt; [reflexivity | lra]).
    assert (N1 : (dx / d) ^ 2 + (dy / d) ^ 2 + (dz / d) ^ 2 = 1).
    { replace ((dx / d) ^ 2 + (dy / d) ^ 2 + (dz / d) ^ 2) with ((dx ^ 2 + dy ^ 2 + dz ^ 2) / d ^ 2) by (field; lra).
      rewrite <- D2. field. lra. }
    set (u := (- sin (nth 3 row 0) * cos (nth 4 row 0), - sin (nth 3 row 0) * sin (nth 4 row 0), - cos (nth 3 row 0))).
    assert (U1 : S_Sphere.dot u u = 1).
    { unfold u, S_Sphere.dot. pose proof (sin2_cos2 (nth 3 row 0)) as S3. pose proof (sin2_cos2 (nth 4 row 0)) as S4. unfold Rsqr in *.
      set (s3 := sin (nth 3 row 0)) in *. set (c3 := cos (nth 3 row 0)) in *.
      set (s4 := sin (nth 4 row 0)) in *. set (c4 := cos (nth 4 row 0)) in *.
      replace (- s3 * c4 * (- s3 * c4) + - s3 * s4 * (- s3 * s4) + - c3 * - c3)
        with (s3 * s3 * (s4 * s4 + c4 * c4) + c3 * c3) by ring. rewrite S4. lra. }
    assert (N2 : S_Sphere.dot (dx / d, dy / d, dz / d) (dx / d, dy / d, dz / d) = 1) by (unfold S_Sphere.dot; lra).
    destruct (opening_spec u (dx / d, dy / d, dz / d) U1 N2) as (O1 & O2).
    destruct (azimuth_spec (dx / d) (dy / d)) as (Z1 & Z2).
    exists d, (dx / d), (dy / d), (dz / d), (M_Angles.get_angle u (dx / d, dy / d, dz / d)), (anisotropy_angle (dx / d) (dy / d)).
    split.
    { split; [exact DP |]. split; [exact N1 |]. unfold dx, dy, dz. repeat split; field; lra. }
    split; [exact O1 |]. split; [rewrite O2; unfold u, S_Sphere.dot; ring |]. split; [exact Z1 |]. split; [exact Z2 |].
    split; [reflexivity |]. rewrite <- !Ropp_mult_distr_l. unfold u. rewrite <- !Ropp_mult_distr_l. reflexivity.
  Qed.
End Systematic.
