(** Lemmas for the data transformation. *)
From Coq Require Import Psatz.
From Verif Require Import RList PyFacts M_Trafo S_Trafo.

(** ** Shapes *)

Lemma size_volume sh : size sh = volume sh.
Proof. induction sh as [|d ds IH]; [reflexivity|]. cbn [size volume fold_right]. fold (size ds). rewrite IH. reflexivity. Qed.

Lemma coords_unravel sh i c : Coords sh i c <-> ((i < size sh)%nat /\ c = unravel sh i).
Proof.
  split.
  - intros H. induction H as [|d ds k i c Hk H [IH1 IH2]]; [split; [apply Nat.lt_0_1|reflexivity]|].
    cbn [unravel size fold_right]. fold (size ds). rewrite <- size_volume. split; [nia|].
    assert (Hs : size ds <> 0%nat) by lia.
    rewrite Nat.div_add_l by exact Hs. rewrite (Nat.div_small i) by exact IH1. rewrite Nat.add_0_r.
    rewrite Nat.add_comm, Nat.mod_add by exact Hs. rewrite Nat.mod_small by exact IH1. rewrite IH2. reflexivity.
  - intros [H ->]. revert i H. induction sh as [|d ds IH]; intros i H.
    + cbn in H. assert (i = 0%nat) by lia. subst i. constructor.
    + cbn [unravel size fold_right] in *. fold (size ds) in H.
      assert (Hs : size ds <> 0%nat) by nia.
      assert (HE : (i / size ds * volume ds + i mod size ds)%nat = i)
        by (pose proof (Nat.div_mod i (size ds) Hs); pose proof (size_volume ds); nia).
      assert (H1 : (i / size ds < d)%nat) by (apply Nat.div_lt_upper_bound; [exact Hs|nia]).
      pose proof (co_cons d ds _ _ _ H1 (IH (i mod size ds)%nat (Nat.mod_upper_bound i _ Hs))) as HC.
      rewrite HE in HC. exact HC.
Qed.

Lemma unravel_length sh i : length (unravel sh i) = length sh.
Proof. revert i. induction sh as [|d ds IH]; intros i; [reflexivity|]. cbn [unravel length]. rewrite IH. reflexivity. Qed.

Lemma size_last sh : sh <> [] -> exists m, size sh = (m * last sh 1)%nat.
Proof.
  induction sh as [|d ds IH]; [congruence|]. intros _. cbn [size fold_right]. fold (size ds). destruct ds as [|d' ds].
  - exists 1%nat. cbn. lia.
  - destruct IH as [m Hm]; [discriminate|]. exists (d * m)%nat. rewrite Hm.
    change (last (d :: d' :: ds) 1%nat) with (last (d' :: ds) 1%nat). ring.
Qed.

Lemma last_pos sh i : (i < size sh)%nat -> (0 < last sh 1)%nat.
Proof.
  intros H. destruct sh as [|d ds]; [cbn; lia|]. destruct (size_last (d :: ds)) as [m Hm]; [discriminate|].
  rewrite Hm in H. destruct (last (d :: ds) 1%nat); [rewrite Nat.mul_0_r in H|]; lia.
Qed.

Lemma last_cons' {A} (x d : A) l : l <> [] -> last (x :: l) d = last l d.
Proof. destruct l; [congruence|reflexivity]. Qed.

Lemma unravel_last sh i d0 : sh <> [] -> (i < size sh)%nat -> last (unravel sh i) d0 = (i mod last sh 1)%nat.
Proof.
  revert i. induction sh as [|d ds IH]; intros i Hn Hi; [congruence|]. destruct ds as [|d' ds].
  - cbn [unravel size fold_right last] in *. rewrite Nat.div_1_r, Nat.mod_small by lia. reflexivity.
  - change (unravel (d :: d' :: ds) i) with ((i / size (d' :: ds))%nat :: unravel (d' :: ds) (i mod size (d' :: ds))).
    assert (Hs : size (d' :: ds) <> 0%nat) by (cbn [size fold_right] in Hi |- *; fold (size ds) in *; nia).
    rewrite last_cons' by (cbn [unravel]; discriminate).
    rewrite IH; [|discriminate|apply Nat.mod_upper_bound; exact Hs].
    change (last (d :: d' :: ds) 1%nat) with (last (d' :: ds) 1%nat).
    destruct (size_last (d' :: ds)) as [m Hm]; [discriminate|].
    rewrite Hm. rewrite Hm in Hs. set (l := last (d' :: ds) 1%nat) in *. assert (l <> 0)%nat by nia. assert (m <> 0)%nat by nia.
    rewrite Nat.mul_comm. rewrite Nat.mod_mul_r by assumption.
    rewrite (Nat.mul_comm l). rewrite Nat.mod_add by assumption. apply Nat.mod_mod. assumption.
Qed.

Lemma unravel_inj sh i j : (i < size sh)%nat -> (j < size sh)%nat -> unravel sh i = unravel sh j -> i = j.
Proof.
  revert i j. induction sh as [|d ds IH]; intros i j Hi Hj H; [cbn in *; lia|].
  cbn [unravel] in H. injection H as H1 H2.
  assert (Hs : size ds <> 0%nat) by (cbn [size fold_right] in Hi; fold (size ds) in Hi; nia).
  apply IH in H2; try (apply Nat.mod_upper_bound; exact Hs).
  rewrite (Nat.div_mod i (size ds) Hs), (Nat.div_mod j (size ds) Hs). rewrite H1, H2. reflexivity.
Qed.

Lemma existsb_nat_In k l : existsb (Nat.eqb k) l = true <-> In k l.
Proof.
  rewrite existsb_exists. split.
  - intros (x & Hx & E). apply Nat.eqb_eq in E. subst. exact Hx.
  - intros H. exists k. split; [exact H|apply Nat.eqb_refl].
Qed.

Lemma same_cell_spec sh axes i j : (i < size sh)%nat -> (j < size sh)%nat ->
  (same_cell sh axes i j = true <-> Cell sh axes i j).
Proof.
  intros Hi Hj. unfold Cell, same_cell. destruct axes as [ax|].
  - rewrite forallb_forall. split.
    + intros H. exists (unravel sh i), (unravel sh j). split; [apply coords_unravel; auto|]. split; [apply coords_unravel; auto|].
      intros k Hk. destruct (Nat.lt_ge_cases k (length sh)) as [Hl|Hl].
      * specialize (H k). rewrite in_seq in H. specialize (H (conj (Nat.le_0_l k) Hl)). apply orb_true_iff in H. destruct H as [H|H].
        { apply existsb_nat_In in H. contradiction. }
        apply Nat.eqb_eq in H. rewrite !(nth_error_nth' _ 0%nat) by (rewrite unravel_length; exact Hl). rewrite H. reflexivity.
      * rewrite !(proj2 (nth_error_None _ _)) by (rewrite unravel_length; exact Hl). reflexivity.
    + intros (ci & cj & H1 & H2 & H) k Hk. apply coords_unravel in H1. apply coords_unravel in H2. destruct H1 as [_ ->], H2 as [_ ->].
      apply in_seq in Hk. destruct (existsb (Nat.eqb k) ax) eqn:E; [reflexivity|]. simpl. apply Nat.eqb_eq.
      assert (Hn : ~ In k ax) by (intros HI; apply existsb_nat_In in HI; congruence).
      specialize (H k Hn). rewrite !(nth_error_nth' _ 0%nat) in H by (rewrite unravel_length; lia). congruence.
  - split; [|reflexivity]. intros _. exists (unravel sh i), (unravel sh j).
    split; [apply coords_unravel; auto|]. split; [apply coords_unravel; auto|exact I].
Qed.

Lemma cell_lt sh axes i j : Cell sh axes i j -> (i < size sh)%nat /\ (j < size sh)%nat.
Proof. intros (ci & cj & H1 & H2 & _). apply coords_unravel in H1. apply coords_unravel in H2. tauto. Qed.

Lemma cell_refl sh axes i : (i < size sh)%nat -> Cell sh axes i i.
Proof.
  intros H. exists (unravel sh i), (unravel sh i). split; [apply coords_unravel; auto|]. split; [apply coords_unravel; auto|].
  destruct axes; auto.
Qed.

(** Not reducing at all keeps every element for itself. *)
Lemma cell_none sh i j : (i < size sh)%nat -> (j < size sh)%nat -> (Cell sh (Some []) i j <-> i = j).
Proof.
  intros Hi Hj. split; [|intros <-; apply cell_refl; exact Hi].
  intros (ci & cj & H1 & H2 & H). apply coords_unravel in H1. apply coords_unravel in H2.
  destruct H1 as [_ ->], H2 as [_ ->]. apply (unravel_inj sh i j Hi Hj).
  apply (nth_ext _ _ 0%nat 0%nat); [rewrite !unravel_length; reflexivity|].
  intros k Hk. specialize (H k (fun x => x)). rewrite unravel_length in Hk.
  rewrite !(nth_error_nth' _ 0%nat) in H by (rewrite unravel_length; exact Hk). congruence.
Qed.

(** The elements averaged with element [i]. *)
Definition cell_of (sh : list nat) (axes : option (list nat)) (i : nat) : list nat :=
  filter (same_cell sh axes i) (seq 0 (size sh)).

Lemma cell_of_In sh axes i j : (i < size sh)%nat -> (In j (cell_of sh axes i) <-> Cell sh axes i j).
Proof.
  intros Hi. unfold cell_of. rewrite filter_In, in_seq. split.
  - intros [H1 H2]. apply same_cell_spec; [exact Hi|lia|exact H2].
  - intros H. pose proof (cell_lt sh axes i j H) as [_ Hj]. split; [lia|]. apply same_cell_spec; assumption.
Qed.

Lemma cell_of_NoDup sh axes i : NoDup (cell_of sh axes i).
Proof. apply NoDup_filter. apply seq_NoDup. Qed.

Lemma cell_of_nil sh axes i : (i < size sh)%nat -> cell_of sh axes i <> [].
Proof. intros H E. pose proof (proj2 (cell_of_In sh axes i i H) (cell_refl sh axes i H)) as HI. rewrite E in HI. destruct HI. Qed.

(** ** Means over cells *)

Lemma cell_mean_length sh axes x : length (cell_mean sh axes x) = size sh.
Proof. unfold cell_mean. rewrite map_length, seq_length. reflexivity. Qed.

Lemma nth_error_map_seq' {A} (f : nat -> A) n i : (i < n)%nat -> nth_error (map f (seq 0 n)) i = Some (f i).
Proof.
  intros H. rewrite nth_error_map. replace (nth_error (seq 0 n) i) with (Some i); [reflexivity|]. symmetry.
  rewrite (nth_error_nth' _ 0%nat) by (rewrite seq_length; exact H). rewrite seq_nth by exact H. reflexivity.
Qed.

Lemma nth_cell_mean sh axes x i cls : (i < size sh)%nat -> NoDup cls -> (forall j, In j cls <-> Cell sh axes i j) ->
  nth_error (cell_mean sh axes x) i = Some (Rmean (map (fun j => nth j x 0) cls)).
Proof.
  intros Hi HN HC. unfold cell_mean. rewrite nth_error_map_seq' by exact Hi. f_equal. apply Rmean_perm. apply Permutation_map.
  apply NoDup_Permutation; [apply cell_of_NoDup|exact HN|]. intros j. rewrite HC. apply cell_of_In. exact Hi.
Qed.

(** ** Logarithm on bins *)

(** What happens to one event. *)
Definition bins (flags : list bool) (sh : list nat) (f g : R -> R) (e : event) : event :=
  if forallb (fun b => b) flags then map f e
  else map (fun ix => if nth (fst ix mod last sh 1%nat) flags false then g (snd ix) else snd ix)
           (combine (seq 0 (length e)) e).

Lemma on_bins_ok flags sh f g data rows : on_bins flags sh f g data = Ok rows -> rows = map (bins flags sh f g) data.
Proof.
  unfold on_bins, bins. destruct (forallb (fun b => b) flags); [intros H; injection H as <-; reflexivity|].
  destruct (existsb _ _); [discriminate|]. intros H. injection H as <-. reflexivity.
Qed.

Lemma on_bins_same flags sh f g f' g' data data' : is_ok (on_bins flags sh f g data) = is_ok (on_bins flags sh f' g' data').
Proof. unfold on_bins. destruct (forallb (fun b => b) flags); [reflexivity|]. destruct (existsb _ _); reflexivity. Qed.

Lemma bins_length flags sh f g e : length (bins flags sh f g e) = length e.
Proof.
  unfold bins. destruct (forallb _ flags); rewrite map_length; [reflexivity|]. rewrite combine_length, seq_length. lia.
Qed.

(** The flag that matters for element [i]. *)
Definition flag_at (flags : list bool) (sh : list nat) (i : nat) : bool :=
  forallb (fun b => b) flags || nth (i mod last sh 1%nat) flags false.

Lemma nth_combine_seq (e : list R) i : forall s, nth_error (combine (seq s (length e)) e) i =
  match nth_error e i with Some x => Some ((s + i)%nat, x) | None => None end.
Proof.
  revert i. induction e as [|x e IH]; intros i s; [destruct i; reflexivity|]. cbn [length seq combine].
  destruct i; cbn [nth_error]; [rewrite Nat.add_0_r; reflexivity|]. rewrite IH. destruct (nth_error e i); [|reflexivity].
  rewrite Nat.add_succ_r. reflexivity.
Qed.

Lemma nth_bins flags sh f g e i x : nth_error e i = Some x ->
  nth_error (bins flags sh f g e) i =
  Some (if flag_at flags sh i then (if forallb (fun b => b) flags then f x else g x) else x).
Proof.
  intros H. unfold bins, flag_at. destruct (forallb (fun b => b) flags); cbn [orb].
  - rewrite nth_error_map, H. reflexivity.
  - rewrite nth_error_map, nth_combine_seq, H. reflexivity.
Qed.

Lemma flag_logged t flags i : ti_log t = Some flags -> ti_shape t <> [] -> (i < size (ti_shape t))%nat ->
  (flag_at flags (ti_shape t) i = true <-> Logged t i).
Proof.
  intros HL Hs Hi. unfold Logged, flag_at. rewrite HL, orb_true_iff, forallb_forall. split; (intros [H|H]; [left; exact H|right]).
  - set (u := unravel (ti_shape t) i). assert (Hu : u <> []).
    { intros E. apply (f_equal (@length nat)) in E. unfold u in E. rewrite unravel_length in E. destruct (ti_shape t); [congruence|discriminate]. }
    exists (removelast u), (last u 0%nat). rewrite <- app_removelast_last by exact Hu. split; [apply coords_unravel; auto|].
    unfold u. rewrite unravel_last by assumption.
    set (k := (i mod last (ti_shape t) 1%nat)%nat) in *. destruct (Nat.lt_ge_cases k (length flags)) as [Hk|Hk].
    + rewrite (nth_error_nth' _ false) by exact Hk. congruence.
    + rewrite nth_overflow in H by exact Hk. discriminate.
  - destruct H as (c & k & H1 & H2). apply coords_unravel in H1. destruct H1 as [_ H1].
    rewrite <- (unravel_last (ti_shape t) i 0%nat) by assumption. rewrite <- H1, last_last. apply nth_error_nth. exact H2.
Qed.

(** Data as it enters the statistics. *)
Definition seen_event (t : tinfo) (e : event) : event :=
  match ti_log t with None => e | Some flags => bins flags (ti_shape t) log1p log1p e end.

Lemma seen_event_length t e : length (seen_event t e) = length e.
Proof. unfold seen_event. destruct (ti_log t); [apply bins_length|reflexivity]. Qed.

Lemma seen_event_spec t e i x : ti_shape t <> [] -> (i < size (ti_shape t))%nat -> nth_error e i = Some x ->
  exists v, nth_error (seen_event t e) i = Some v /\ Seen t i x v.
Proof.
  intros Hs Hi Hx. unfold seen_event, Seen. destruct (ti_log t) as [flags|] eqn:HL.
  - rewrite (nth_bins _ _ _ _ _ _ _ Hx). pose proof (flag_logged t flags i HL Hs Hi) as HF.
    destruct (flag_at flags (ti_shape t) i); eexists; (split; [reflexivity|]).
    + split; [|tauto]. intros _. destruct (forallb _ flags); reflexivity.
    + split; [|reflexivity]. intros H. apply HF in H. discriminate.
  - exists x. split; [exact Hx|]. split; [|reflexivity]. unfold Logged. rewrite HL. tauto.
Qed.

(** ** Online mean and variance *)

Definition col (i : nat) (l : list event) : list R := map (fun e => nth i e 0) l.

Lemma col_app i l x : col i (l ++ [x]) = col i l ++ [nth i x 0].
Proof. unfold col. rewrite map_app. reflexivity. Qed.

Record Inv (sz : nat) (l : list event) (a : acc) : Prop := {
  inv_n : a_n a = Rlen l;
  inv_lm : length (a_mean a) = sz;
  inv_lM : length (a_M2 a) = sz;
  inv_mean : forall i, (i < sz)%nat -> Rlen l * nth i (a_mean a) 0 = Rsum (col i l);
  inv_M2 : forall i, (i < sz)%nat ->
    nth i (a_M2 a) 0 = Rsum (map (fun x => x * x) (col i l)) - Rlen l * (nth i (a_mean a) 0 * nth i (a_mean a) 0)
}.

Lemma nth_repeat' {A} (x d : A) n i : (i < n)%nat -> nth i (repeat x n) d = x.
Proof. revert i. induction n; intros i H; [lia|]. destruct i; [reflexivity|]. simpl. apply IHn. lia. Qed.

Lemma inv_init sh : Inv (size sh) [] (acc0 sh).
Proof.
  constructor; unfold acc0; cbn [a_n a_mean a_M2]; try apply repeat_length; try reflexivity; intros i Hi; rewrite !nth_repeat' by exact Hi;
    unfold Rlen, Rsum, col; simpl; ring.
Qed.

Lemma inv_step sz l a x : length x = sz -> Inv sz l a -> Inv sz (l ++ [x]) (update_one a x).
Proof.
  intros Hx [H1 H2 H3 H4 H5].
  assert (HR : Rlen (l ++ [x]) = Rlen l + 1) by (rewrite Rlen_app; unfold Rlen at 2; simpl; ring).
  assert (HP : Rlen l + 1 <> 0) by (pose proof (Rlen_nonneg l); lra).
  assert (L1 : length (zipw (fun m d => m + d / (a_n a + 1)) (a_mean a) (zipw Rminus x (a_mean a))) = sz)
    by (rewrite !zipw_length; lia).
  assert (HM : forall i, (i < sz)%nat -> nth i (a_mean (update_one a x)) 0 =
    nth i (a_mean a) 0 + (nth i x 0 - nth i (a_mean a) 0) / (Rlen l + 1)).
  { intros i Hi. unfold update_one. cbn [a_mean]. rewrite (nth_zipw _ _ _ _ 0 0); [|lia|rewrite zipw_length; lia].
    rewrite (nth_zipw _ _ _ _ 0 0); [|lia|lia]. rewrite H1. reflexivity. }
  constructor.
  - unfold update_one. cbn [a_n]. rewrite H1, HR. reflexivity.
  - exact L1.
  - unfold update_one. cbn [a_M2]. rewrite !zipw_length. lia.
  - intros i Hi. rewrite (HM i Hi), HR, col_app, Rsum_app, <- (H4 i Hi).
    unfold Rsum. cbn [fold_right]. field. exact HP.
  - intros i Hi. rewrite (HM i Hi), HR.
    assert (HN : nth i (a_M2 (update_one a x)) 0 =
      nth i (a_M2 a) 0 + (nth i x 0 - nth i (a_mean a) 0) * (nth i x 0 - nth i (a_mean (update_one a x)) 0)).
    { unfold update_one. cbn [a_M2 a_mean]. rewrite (nth_zipw _ _ _ _ 0 0); [|lia|rewrite !zipw_length; lia].
      f_equal. rewrite (nth_zipw _ _ _ _ 0 0); [|rewrite zipw_length; lia|rewrite zipw_length; lia].
      rewrite (nth_zipw Rminus _ _ _ 0 0); [|lia|lia]. rewrite (nth_zipw Rminus _ _ _ 0 0); [reflexivity|lia|lia]. }
    rewrite HN, (HM i Hi), (H5 i Hi).
    rewrite col_app, map_app, Rsum_app. cbn [map]. unfold Rsum at 3. cbn [fold_right].
    field. exact HP.
Qed.

Lemma inv_fold sz : forall data l a, Forall (fun e => length e = sz) data -> Inv sz l a ->
  Inv sz (l ++ data) (fold_left update_one data a).
Proof.
  induction data as [|x data IH]; intros l a HF HI; [rewrite app_nil_r; exact HI|].
  inversion HF; subst. cbn [fold_left]. replace (l ++ x :: data) with ((l ++ [x]) ++ data) by (rewrite <- app_assoc; reflexivity).
  apply IH; [assumption|]. apply inv_step; [reflexivity|exact HI].
Qed.

Lemma sum_sq_dev l m : Rlen l * m = Rsum l ->
  Rsum (map (fun x => (x - m) * (x - m)) l) = Rsum (map (fun x => x * x) l) - Rlen l * (m * m).
Proof.
  intros H. rewrite (Rsum_map_ext _ (fun x => x * x - (2 * m) * x + m * m)) by (intros; ring).
  rewrite Rsum_map_plus, Rsum_map_minus, Rsum_map_scal, Rsum_map_const, map_id. nra.
Qed.

Lemma inv_stats sz l a i : Inv sz l a -> l <> [] -> (i < sz)%nat ->
  nth i (a_mean a) 0 = pop_mean (col i l) /\ sqrt (nth i (a_M2 a) 0 / a_n a) = pop_std (col i l).
Proof.
  intros [H1 H2 H3 H4 H5] Hl Hi. pose proof (Rlen_pos l Hl) as HP.
  assert (HC : INR (length (col i l)) = Rlen l) by (unfold col; rewrite map_length; reflexivity).
  assert (HM : nth i (a_mean a) 0 = pop_mean (col i l)).
  { unfold pop_mean. rewrite HC, <- (H4 i Hi). field. lra. }
  split; [exact HM|]. unfold pop_std. rewrite HC, <- HM, H1, (H5 i Hi). f_equal. f_equal.
  rewrite sum_sq_dev; [unfold Rlen; rewrite HC; reflexivity|]. unfold Rlen at 1. rewrite HC. apply H4. exact Hi.
Qed.

(** ** The loops *)

Lemma perform_ok t data a a' : perform_update_step t data a = Ok a' ->
  Forall (fun e => length e = size (ti_shape t)) data /\ a' = fold_left update_one (map (seen_event t) data) a.
Proof.
  unfold perform_update_step. destruct (forallb (fun e => Nat.eqb (length e) (size (ti_shape t))) data) eqn:E; cbn [negb]; [|discriminate].
  rewrite forallb_forall in E. intros H. split; [apply Forall_forall; intros e He; apply Nat.eqb_eq; apply E; exact He|].
  unfold seen_event. destruct (ti_log t) as [flags|].
  - destruct (on_bins _ _ _ _ _) as [rows|] eqn:EB; [|discriminate]. apply on_bins_ok in EB. subst. injection H as <-; reflexivity.
  - rewrite map_id. injection H as <-; reflexivity.
Qed.

Definition active (t : tinfo) : bool := ti_exists t && ti_trafo t.

Lemma update_tensors_other ts : forall i b vars vars' n, update_tensors ts i b vars = Ok vars' -> ~ In n (dkeys ts) ->
  dget n vars' = dget n vars.
Proof.
  induction ts as [|[name t] ts IH]; intros i b vars vars' n H Hn; cbn [update_tensors] in H; [congruence|].
  assert (Hn1 : name <> n) by (intros ->; apply Hn; left; reflexivity).
  assert (Hn2 : ~ In n (dkeys ts)) by (intros Hi; apply Hn; right; exact Hi).
  destruct (ti_exists t && ti_trafo t); [|apply (IH _ _ _ _ _ H Hn2)].
  destruct (nth_error b i) as [[data|]|]; try discriminate. destruct (dget name vars) as [a|]; [|discriminate].
  destruct (perform_update_step t data a) as [a'|]; [|discriminate].
  rewrite (IH _ _ _ _ _ H Hn2). apply dget_dset_other. congruence.
Qed.

Lemma update_tensors_at ts : forall i b vars vars' k name t, update_tensors ts i b vars = Ok vars' -> dwf ts ->
  nth_error ts k = Some (name, t) -> active t = true ->
  exists data a, nth_error b (i + k) = Some (Some data) /\ dget name vars = Some a /\
    Forall (fun e => length e = size (ti_shape t)) data /\
    dget name vars' = Some (fold_left update_one (map (seen_event t) data) a).
Proof.
  induction ts as [|[nm tt] ts IH]; intros i b vars vars' k name t H Hwf Hk Ha; [destruct k; discriminate|].
  unfold dwf in Hwf. cbn [dkeys map fst] in Hwf. inversion Hwf as [|? ? Hn Hwf']; subst. cbn [update_tensors] in H. destruct k as [|k].
  - cbn in Hk. injection Hk as -> ->. unfold active in Ha. rewrite Ha in H. rewrite Nat.add_0_r.
    destruct (nth_error b i) as [[data|]|]; try discriminate. destruct (dget name vars) as [a|]; [|discriminate].
    destruct (perform_update_step t data a) as [a'|] eqn:EP; [|discriminate]. apply perform_ok in EP. destruct EP as [HF ->].
    exists data, a. split; [reflexivity|]. split; [reflexivity|]. split; [exact HF|].
    rewrite (update_tensors_other ts _ _ _ _ name H Hn). apply dget_dset_same.
  - cbn in Hk. assert (Hne : name <> nm).
    { intros ->. apply Hn. apply nth_error_In in Hk. apply (in_map fst) in Hk. exact Hk. }
    replace (i + S k)%nat with (S i + k)%nat by lia.
    destruct (ti_exists tt && ti_trafo tt); [|apply (IH _ _ _ _ k name t H Hwf' Hk Ha)].
    destruct (nth_error b i) as [[data|]|]; try discriminate. destruct (dget nm vars) as [a|]; [|discriminate].
    destruct (perform_update_step tt data a) as [a'|]; [|discriminate].
    destruct (IH _ _ _ _ k name t H Hwf' Hk Ha) as (data' & a0 & H1 & H2 & H3 & H4).
    exists data', a0. rewrite (dget_dset_other name nm a' vars Hne) in H2. auto.
Qed.

Lemma update_batches_at ts name t k : dwf ts -> nth_error ts k = Some (name, t) -> active t = true ->
  forall num bs vars vars' l, update_batches ts bs num vars = Ok vars' ->
  (exists a, dget name vars = Some a /\ Inv (size (ti_shape t)) l a) ->
  Forall (fun e => length e = size (ti_shape t)) (events_of k (firstn num bs)) /\
  exists a, dget name vars' = Some a /\
    Inv (size (ti_shape t)) (l ++ map (seen_event t) (events_of k (firstn num bs))) a.
Proof.
  intros Hwf Hk Ha. induction num as [|num IH]; intros bs vars vars' l H (a & Hd & HI); cbn [update_batches] in H.
  - injection H as <-. cbn [firstn]. unfold events_of. cbn [map concat]. split; [constructor|]. exists a. rewrite app_nil_r. auto.
  - destruct bs as [|b bs]; [discriminate|]. destruct (update_tensors ts 0 b vars) as [v1|] eqn:E; [|discriminate].
    destruct (update_tensors_at ts 0 b vars v1 k name t E Hwf Hk Ha) as (data & a0 & H1 & H2 & H3 & H4).
    assert (a0 = a) by congruence. subst a0. cbn [Nat.add] in H1.
    assert (HI1 : Inv (size (ti_shape t)) (l ++ map (seen_event t) data) (fold_left update_one (map (seen_event t) data) a)).
    { apply inv_fold; [|exact HI]. apply Forall_forall. intros e He. apply in_map_iff in He. destruct He as (e0 & <- & He0).
      rewrite seen_event_length. rewrite Forall_forall in H3. apply H3. exact He0. }
    destruct (IH bs v1 vars' _ H (ex_intro _ _ (conj H4 HI1))) as [HF (a' & Hd' & HI')].
    cbn [firstn]. unfold events_of in *. cbn [map concat]. rewrite (nth_error_nth _ _ _ H1).
    split; [apply Forall_app; auto|]. exists a'. split; [exact Hd'|]. rewrite map_app, app_assoc. exact HI'.
Qed.

Lemma init_vars_at ts : forall v name t k, dwf ts -> nth_error ts k = Some (name, t) -> active t = true ->
  dget name (fold_left (fun v nt => if ti_exists (snd nt) && ti_trafo (snd nt)
                                    then dset (fst nt) (acc0 (ti_shape (snd nt))) v else v) ts v) = Some (acc0 (ti_shape t)).
Proof.
  assert (HO : forall ts v n, ~ In n (dkeys ts) ->
    dget n (fold_left (fun v nt => if ti_exists (snd nt) && ti_trafo (snd nt)
                                   then dset (fst nt) (acc0 (ti_shape (snd nt))) v else v) ts v) = dget n v).
  { clear. induction ts as [|[nm t] ts IH]; intros v n Hn; [reflexivity|]. cbn [fold_left fst snd].
    rewrite IH by (intros H; apply Hn; right; exact H). destruct (ti_exists t && ti_trafo t); [|reflexivity].
    apply dget_dset_other. intros ->. apply Hn. left. reflexivity. }
  induction ts as [|[nm tt] ts IH]; intros v name t k Hwf Hk Ha; [destruct k; discriminate|].
  unfold dwf in Hwf. cbn [dkeys map fst] in Hwf. inversion Hwf as [|? ? Hn Hwf']; subst. destruct k as [|k].
  - cbn in Hk. injection Hk as -> ->. cbn [fold_left fst snd]. rewrite HO by exact Hn. unfold active in Ha. rewrite Ha. apply dget_dset_same.
  - cbn [fold_left]. apply (IH _ name t k Hwf' Hk Ha).
Qed.

Lemma finish_all_at ts vars : forall data data' k name t, finish_all ts vars data = Ok data' -> dwf ts ->
  nth_error ts k = Some (name, t) -> active t = true ->
  exists a s, dget name vars = Some a /\ finish t a = Ok s /\ dget name data' = Some s.
Proof.
  assert (HO : forall ts data data' n, finish_all ts vars data = Ok data' -> ~ In n (dkeys ts) -> dget n data' = dget n data).
  { clear. induction ts as [|[nm t] ts IH]; intros data data' n H Hn; cbn [finish_all] in H; [congruence|].
    assert (Hn2 : ~ In n (dkeys ts)) by (intros Hi; apply Hn; right; exact Hi).
    destruct (ti_exists t && ti_trafo t); [|apply (IH _ _ _ H Hn2)].
    destruct (dget nm vars); [|discriminate]. destruct (finish t _) as [s|]; [|discriminate].
    rewrite (IH _ _ _ H Hn2). apply dget_dset_other. intros ->. apply Hn. left. reflexivity. }
  induction ts as [|[nm tt] ts IH]; intros data data' k name t H Hwf Hk Ha; [destruct k; discriminate|].
  unfold dwf in Hwf. cbn [dkeys map fst] in Hwf. inversion Hwf as [|? ? Hn Hwf']; subst. cbn [finish_all] in H. destruct k as [|k].
  - cbn in Hk. injection Hk as -> ->. unfold active in Ha. rewrite Ha in H.
    destruct (dget name vars) as [a|]; [|discriminate]. destruct (finish t a) as [s|] eqn:EF; [|discriminate].
    exists a, s. split; [reflexivity|]. split; [exact EF|]. rewrite (HO _ _ _ _ H Hn). apply dget_dset_same.
  - cbn in Hk. destruct (ti_exists tt && ti_trafo tt); [|apply (IH _ _ k name t H Hwf' Hk Ha)].
    destruct (dget nm vars); [|discriminate]. destruct (finish tt _) as [s|]; [|discriminate].
    apply (IH _ _ k name t H Hwf' Hk Ha).
Qed.

Lemma configure_at self ts c bs num tr name t k : configure self ts c bs num = Ok tr -> dwf ts ->
  nth_error ts k = Some (name, t) -> active t = true ->
  let l := events_of k (firstn num bs) in
  Forall (fun e => length e = size (ti_shape t)) l /\ l <> [] /\
  tr_tensors tr = ts /\ tr_norm tr = c /\
  exists a s, Inv (size (ti_shape t)) (map (seen_event t) l) a /\ finish t a = Ok s /\ dget name (tr_data tr) = Some s.
Proof.
  intros H Hwf Hk Ha l. unfold configure in H. destruct self; [discriminate|].
  match type of H with context [update_batches ts bs num ?v] => set (v0 := v) in H end. destruct (update_batches ts bs num v0) as [v|] eqn:EU; [|discriminate].
  destruct (finish_all ts v []) as [data|] eqn:EF; [|discriminate]. injection H as <-. cbn [tr_tensors tr_norm tr_data].
  destruct (update_batches_at ts name t k Hwf Hk Ha num bs v0 v [] EU) as [HF (a & Hd & HI)].
  { exists (acc0 (ti_shape t)). split; [apply (init_vars_at ts [] name t k Hwf Hk Ha)|apply inv_init]. }
  destruct (finish_all_at ts v [] data k name t EF Hwf Hk Ha) as (a' & s & H1 & H2 & H3).
  assert (a' = a) by congruence. subst a'. fold l in HI, HF. cbn [app] in HI. split; [exact HF|]. split.
  - intros E. rewrite E in HI. destruct HI as [HN _ _ _ _]. unfold finish in H2. rewrite HN in H2.
    replace (Reqb (Rlen (map (seen_event t) [])) 0) with true in H2 by (symmetry; apply Reqb_true; reflexivity). discriminate.
  - split; [reflexivity|]. split; [reflexivity|]. exists a, s. auto.
Qed.
