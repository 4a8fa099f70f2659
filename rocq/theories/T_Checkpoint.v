(** Properties of checkpoints: C25, C26, C27 and C65. *)
From Coq Require Import Sorting.Sorted.
From Verif Require Import Py M_Checkpoint S_Checkpoint L_Checkpoint L_Crash.

Section Theorems.
Variable W : Type.
Variable df : nat -> bool.
Implicit Types (h : list (entry W)) (d : dir W) (e : entry W).

Lemma recorded_iff h d l n : Inv W h d l -> (Recorded d n <-> In n (l ++ prots W h) /\ h <> []).
Proof.
  intros HI. pose proof (i_yaml _ _ _ _ HI) as HY. unfold Recorded. rewrite HY, in_app_iff. destruct h as [|e h].
  - split; [intros (m & H & _); discriminate|intros [_ []]; reflexivity].
  - split.
    + intros (m & H & HR). injection H as <-. cbn [m_unprot m_prot] in HR. fold (nkeys (rec_of (desc_of W (e :: h)) l)) in HR.
      fold (nkeys (rec_of (desc_of W (e :: h)) (prots W (e :: h)))) in HR. rewrite !nkeys_rec in HR. split; [exact HR|discriminate].
    + intros [HR _]. eexists. split; [reflexivity|]. cbn [m_unprot m_prot]. fold (nkeys (rec_of (desc_of W (e :: h)) l)).
      fold (nkeys (rec_of (desc_of W (e :: h)) (prots W (e :: h)))). rewrite !nkeys_rec. exact HR.
Qed.

(** The records after any history: the latest number is the number of saves,
    the protected ones are all listed, and of the unprotected ones exactly
    those that should survive; every entry names its own file and keeps its
    description. *)
Theorem C25_records h d : Hist df h d -> (forall e, In e h -> (0 <= e_keep e)%Z) -> h <> [] ->
  exists m, d_yaml d = Some (Some m) /\ m_latest m = length h /\
    (forall n, In n (map fst (m_unprot m)) <-> Survives h n) /\
    (forall n, In n (map fst (m_prot m)) <-> exists e, number h n e /\ e_prot e = true) /\
    (forall n i x, In (n, (i, x)) (m_unprot m ++ m_prot m) -> i = n /\ exists e, number h n e /\ x = e_desc e).
Proof.
  intros HH HN Hh. destruct (hist_inv W df h d HH) as (l & HI & _). pose proof (i_yaml _ _ _ _ HI) as HY.
  assert (HN' : Nonneg W h) by (apply Forall_forall; exact HN).
  destruct (kept_survives W h l (i_kept _ _ _ _ HI) HN') as [_ HS].
  eexists. split; [rewrite HY; destruct h; [congruence|reflexivity]|]. split; [reflexivity|]. cbn [m_unprot m_prot].
  fold (nkeys (rec_of (desc_of W h) l)). fold (nkeys (rec_of (desc_of W h) (prots W h))). rewrite !nkeys_rec.
  split; [exact HS|]. split; [intros n; apply prots_spec|].
  intros n i x H. rewrite <- rec_of_app in H. unfold rec_of in H. apply in_map_iff in H. destruct H as (k & E & Hk). injection E as E1 E2 E3. subst k i x. split; [reflexivity|].
  destruct (inv_load W h d l n HI Hh) as [A _]. destruct (A Hk) as (e & Hn & _). exists e. split; [exact Hn|].
  destruct Hn as (j & -> & Hj). cbn. rewrite Hj. reflexivity.
Qed.

(** Recorded checkpoints are complete on disk and load their own weights;
    nothing else is left on disk or can be loaded.  Any values of max_keep. *)
Theorem C25_files h d n : Hist df h d ->
  (Recorded d n -> exists e, number h n e /\ Stored d n (e_w e) /\ load_weights d (Some n) = Ok (e_w e)) /\
  (~ Recorded d n -> Absent d n /\ load_weights d (Some n) = Err (match h with [] => IOError | _ => KeyError end)).
Proof.
  intros HH. destruct (hist_inv W df h d HH) as (l & HI & HF). rewrite (recorded_iff h d l n HI). split.
  - intros [Hn Hh]. destruct (inv_load W h d l n HI Hh) as [A _]. destruct (A Hn) as (e & H1 & H2 & H3). exists e. auto.
  - intros Hn.
    assert (HA : Absent d n).
    { assert (HX : ~ In n (l ++ prots W h)).
      { intros H. apply Hn. split; [exact H|]. intros ->. pose proof (i_kept _ _ _ _ HI) as HK. inversion HK; subst; [destruct H|destruct h; discriminate|destruct h; discriminate]. }
      split; [apply (i_index _ _ _ _ HI); exact HX|]. destruct (Nat.eq_dec n (S (length h))) as [->|Hne]; [exact HF|].
      apply (i_data _ _ _ _ HI); assumption. }
    split; [exact HA|]. destruct h as [|e0 h0] eqn:Eh.
    + unfold load_weights. rewrite (i_yaml _ _ _ _ HI). reflexivity.
    + destruct (inv_load W _ d l n HI) as [_ B]; [discriminate|]. apply B. intros H. apply Hn. split; [exact H|discriminate].
Qed.

Lemma last_kept h e l : Kept W (h ++ [e]) l -> e_prot e = true \/ (0 <= e_keep e)%Z -> In (S (length h)) (l ++ prots W (h ++ [e])).
Proof.
  intros HK HC. apply in_app_iff. destruct (e_prot e) eqn:EP.
  - right. rewrite prots_snoc, EP. apply in_or_app. right. left. reflexivity.
  - left. destruct HC as [HC|HC]; [discriminate|].
    inversion HK as [E|h0 l0 e0 H0 He0 E|h0 l0 e0 H0 He0 E]; [destruct h; discriminate| |]; apply app_inj_tail in E; destruct E as [-> ->]; [congruence|].
    unfold cut, drop_last. destruct (Z.ltb_spec (e_keep e) (Z.of_nat (length (l0 ++ [S (length h)])))) as [HL|HL]; [|apply in_or_app; right; left; reflexivity].
    destruct (Z.ltb_spec (e_keep e) 0); [lia|]. destruct (Z.eqb_spec (e_keep e) 0); [apply in_or_app; right; left; reflexivity|].
    rewrite firstn_length, Nat.min_l by lia. rewrite skipn_app. apply in_or_app. right.
    rewrite app_length in *. cbn [length] in *. replace (length l0 + 1 - Z.to_nat (e_keep e) - length l0) with 0 by lia. left. reflexivity.
Qed.

(** Loading without a number gives the last weights. *)
Theorem C25_latest h e d : Hist df (h ++ [e]) d -> e_prot e = true \/ (0 <= e_keep e)%Z ->
  load_weights d None = Ok (e_w e).
Proof.
  intros HH HN. destruct (hist_inv W df _ d HH) as (l & HI & _). rewrite (load_none W _ _ _ HI).
  assert (HE : (match h ++ [e] with [] => Err IOError | _ => load_weights d (Some (length (h ++ [e]))) end) = load_weights d (Some (length (h ++ [e])))).
  { destruct h; reflexivity. }
  rewrite HE. destruct (inv_load W _ _ _ (length (h ++ [e])) HI) as [A _]; [destruct h; discriminate|].
  rewrite app_length in *. cbn [length] in *. rewrite Nat.add_1_r in *.
  destruct A as (x & (k & Ek & Hx) & HL & _); [apply last_kept; [exact (i_kept _ _ _ _ HI)|exact HN]|].
  injection Ek as <-. rewrite nth_error_app2, Nat.sub_diag in Hx by lia. injection Hx as <-. exact HL.
Qed.

(** A save without training records never fails after any history. *)
Theorem C25_next_save h d e : Hist df h d -> e_training e = None -> e_steps e = None ->
  exists ops, save df d true (e_keep e) (e_prot e) (e_desc e) (e_training e) (e_steps e) (e_w e) = (ops, None).
Proof.
  intros HH HT HS. destruct (hist_inv W df h d HH) as (l & HI & _). unfold save. rewrite HT. cbn [run fold_left app].
  destruct (save_weights_inv W df h d l e HI) as [(ops & ex & _ & s & H & _)|(o & _ & ->)]; [congruence|]. eexists. reflexivity.
Qed.

(** With one positive max_keep throughout, the survivors are the max_keep newest
    unprotected checkpoints. *)
Lemma later_snoc h e n : n <= length h -> later (h ++ [e]) n = later h n + (if e_prot e then 0 else 1).
Proof.
  intros Hn. unfold later. rewrite app_length. cbn [length]. rewrite Nat.add_1_r, seq_S, filter_app, app_length. f_equal.
  - f_equal. apply filter_ext_in. intros k Hk. apply in_seq in Hk. rewrite unprotected_snoc by lia. reflexivity.
  - cbn [Nat.add filter]. rewrite unprotected_last. destruct (Nat.ltb_spec n (S (length h))); [|lia].
    destruct (e_prot e); reflexivity.
Qed.

Theorem C25_newest h k : (0 < k)%Z -> (forall e, In e h -> e_keep e = k) ->
  forall n, Survives h n <-> unprotected h n = true /\ (Z.of_nat (later h n) < k)%Z.
Proof.
  intros Hk. induction h as [|e h IH] using rev_ind; intros HK n.
  - split; [intros [H _]; destruct n as [|n]; [discriminate|destruct n; discriminate]|]. intros [H _]. destruct n as [|n]; [discriminate|destruct n; discriminate].
  - assert (HK' : forall x, In x h -> e_keep x = k) by (intros x Hx; apply HK; apply in_or_app; left; exact Hx).
    assert (HKe : e_keep e = k) by (apply HK; apply in_or_app; right; left; reflexivity).
    destruct (Nat.le_gt_cases n (length h)) as [Hn|Hn].
    + rewrite survives_snoc by exact Hn. rewrite IH by exact HK'. rewrite unprotected_snoc by exact Hn.
      rewrite later_snoc by exact Hn. rewrite HKe. destruct (e_prot e).
      * rewrite Nat.add_0_r. split; [tauto|]. intros H. split; [exact H|discriminate].
      * split; [intros [[A B] C]; split; [exact A|apply C; [reflexivity|exact Hk]]|]. intros [A B]. split; [split; [exact A|lia]|]. auto.
    + destruct (Nat.eq_dec n (S (length h))) as [->|Hne].
      * rewrite survives_last, unprotected_last. split.
        -- intros ->. split; [reflexivity|]. replace (later (h ++ [e]) (S (length h))) with 0; [lia|]. unfold later.
           rewrite (filter_ext_in _ (fun _ => false)); [symmetry; induction (seq 1 _); [reflexivity|assumption]|].
           intros j Hj. apply in_seq in Hj. rewrite app_length in Hj. cbn [length] in Hj.
           destruct (Nat.ltb_spec (S (length h)) j); [lia|]. apply andb_false_r.
        -- intros [H _]. destruct (e_prot e); [discriminate|reflexivity].
      * split; intros [H _]; apply unprotected_range in H; rewrite app_length in H; cbn [length] in H; lia.
Qed.

(** *** Interrupted saves *)

(** Interrupted before the index file of the new checkpoint is written: all
    checkpoints load as before, the next save succeeds and its weights are then
    the latest. *)
Theorem C26_before_index h d e ops p q : Hist df h d ->
  save df d true (e_keep e) (e_prot e) (e_desc e) (e_training e) (e_steps e) (e_w e) = (ops, None) ->
  ops = p ++ q -> ~ In (WriteIndex (S (length h))) p ->
  (forall n, load_weights (run p d) n = load_weights d n) /\
  forall e', e_training e' = None -> e_steps e' = None -> e_prot e' = true \/ (0 <= e_keep e')%Z ->
    exists ops', save df (run p d) true (e_keep e') (e_prot e') (e_desc e') (e_training e') (e_steps e') (e_w e') = (ops', None) /\
      load_weights (run ops' (run p d)) None = Ok (e_w e').
Proof.
  intros HH HS -> Hp. destruct (hist_inv W df h d HH) as (l & HI & _). destruct (save_ops W df h d l e _ HI HS) as (t & HT & E).
  assert (HP : (exists t', t = p ++ t') \/ p = t ++ [WriteData (S (length h)) (e_w e)]).
  { apply stages in E. destruct E as [E|[E|[(r & r' & _ & ->)|[->|[_ ->]]]]]; auto; exfalso; apply Hp; apply in_or_app; right; right; left; reflexivity. }
  split; [intros n; eapply load_early; eauto|]. intros e' HT' HS' HK.
  pose proof (inv_early W h d l t p e _ HI eq_refl HT HP) as HI'.
  unfold save. rewrite HT'. cbn [run fold_left app]. fold (run p d).
  destruct (save_weights_inv W df h (run p d) l e' HI') as [(o & ex & _ & s & H & _)|(o & E0 & ->)]; [congruence|].
  rewrite HS' in E0. injection E0 as ->. cbn [app]. eexists. split; [reflexivity|].
  change (run [] (run p d)) with (run p d).
  destruct (inv_next W df h (run p d) l e' HI') as [HX _].
  rewrite (load_none W _ _ _ HX). destruct (h ++ [e']) eqn:Eh; [destruct h; discriminate|]. rewrite <- Eh in *.
  destruct (inv_load W _ _ _ (length (h ++ [e'])) HX) as [A _]; [rewrite Eh; discriminate|].
  rewrite app_length in *. cbn [length] in *. rewrite Nat.add_1_r in *. destruct A as (x & (k & Ek & Hx) & HL & _).
  - apply last_kept; [exact (i_kept _ _ _ _ HX)|exact HK].
  - injection Ek as <-. rewrite nth_error_app2, Nat.sub_diag in Hx by lia. injection Hx as <-. exact HL.
Qed.

Lemma nodup_inv {A} (a b : list A) : NoDup (a ++ b) -> NoDup a.
Proof.
  induction a as [|x a IH]; [constructor|]. cbn. intros H. inversion H; subst. constructor; [|apply IH; assumption].
  intros HI. apply H2. apply in_or_app. left. exact HI.
Qed.

Lemma mid_stage h d l e ops p q : Inv W h d l ->
  save df d true (e_keep e) (e_prot e) (e_desc e) (e_training e) (e_steps e) (e_w e) = (ops, None) ->
  ops = p ++ q -> In (WriteIndex (S (length h))) p -> ~ In TruncYaml p ->
  exists t r r', Forall (fun o => training_op W o = true) t /\ removals W df l h e (run t d) = r ++ r' /\
    p = t ++ [WriteData (S (length h)) (e_w e); WriteIndex (S (length h))] ++ r.
Proof.
  intros HI HS -> Hw Hp. destruct (save_ops W df h d l e _ HI HS) as (t & HT & E).
  apply stages in E. destruct E as [(t' & ->)|[->|[(r & r' & Hr & ->)|[->|[_ ->]]]]].
  - exfalso. eapply (training_not W (p ++ t') (WriteIndex (S (length h))) HT); [reflexivity|]. apply in_or_app. left. exact Hw.
  - exfalso. apply in_app_iff in Hw. destruct Hw as [Hw|[Hw|[]]]; [|discriminate].
    eapply (training_not W t (WriteIndex (S (length h))) HT); [reflexivity|exact Hw].
  - exists t, r, r'. auto.
  - exfalso. apply Hp. rewrite !in_app_iff. right. right. right. left. reflexivity.
  - exfalso. apply Hp. rewrite !in_app_iff. right. right. right. left. reflexivity.
Qed.

(** Interrupted after the index file was written and before the records were
    opened: from then on every save to this directory, whatever is tried in
    between, raises IOError and changes nothing. *)
Theorem C26_after_index h d e ops p q : Hist df h d ->
  save df d true (e_keep e) (e_prot e) (e_desc e) (e_training e) (e_steps e) (e_w e) = (ops, None) ->
  ops = p ++ q -> In (WriteIndex (S (length h))) p -> ~ In TruncYaml p -> ~ Touched p (S (length h)) ->
  forall d', Later df (run p d) d' ->
    (forall k pr de s w, save_weights df d' true k pr de s w = ([], Some IOError)) /\
    (forall e' ok, snd (save df d' ok (e_keep e') (e_prot e') (e_desc e') (e_training e') (e_steps e') (e_w e')) <> None) /\
    forall n, load_weights d' n = load_weights (run p d) n.
Proof.
  intros HH HS HP Hw Hp Ht d' HL. destruct (hist_inv W df h d HH) as (l & HI & _).
  destruct (mid_stage h d l e ops p q HI HS HP Hw Hp) as (t & r & r' & HT & Hr & ->).
  destruct (removals_mid W df h d l e t r r' HI HT Hr) as (HY & HX & _).
  assert (HM : (match d_yaml d with None => Some {| m_latest := 0; m_unprot := []; m_prot := [] |} | Some m => m end) =
    Some {| m_latest := length h; m_unprot := rec_of (desc_of W h) l; m_prot := rec_of (desc_of W h) (prots W h) |}).
  { rewrite (i_yaml _ _ _ _ HI). destruct h; [|reflexivity]. pose proof (i_kept _ _ _ _ HI) as HK.
    inversion HK; [reflexivity| |]; destruct h; discriminate. }
  set (d1 := run _ d) in *.
  assert (HK : Stuck W d1).
  { right. rewrite HY, HM. eexists. split; [reflexivity|]. cbn [m_latest]. apply HX. intros H. apply Ht. right. rewrite !in_app_iff. right. right. exact H. }
  destruct (stuck_later W df d1 d' HL HK) as [HC HK']. split; [|split].
  - intros k pr de s w. rewrite (stuck_save W df d' k pr de s w HK'). f_equal. f_equal. unfold stuck_error.
    destruct HC as (-> & _ & _). rewrite HY. destruct (d_yaml d) as [[m|]|]; [reflexivity|discriminate|reflexivity].
  - intros e' ok. destruct (save df d' ok _ _ _ _ _ _) as [o x] eqn:E. apply (stuck_ops W df _ _ _ _ _ HK' E).
  - intros n. destruct HC as (C1 & C2 & C3). unfold load_weights, restore. rewrite C1, C2, C3. reflexivity.
Qed.

(** In that state the recorded checkpoints are still listed; one loads exactly if
    none of its files was removed. *)
Theorem C26_loads h d e ops p q n : Hist df h d ->
  save df d true (e_keep e) (e_prot e) (e_desc e) (e_training e) (e_steps e) (e_w e) = (ops, None) ->
  ops = p ++ q -> In (WriteIndex (S (length h))) p -> ~ In TruncYaml p -> Recorded d n ->
  (~ Touched p n -> load_weights (run p d) (Some n) = load_weights d (Some n)) /\
  (Touched p n -> load_weights (run p d) (Some n) = Err RuntimeError).
Proof.
  intros HH HS HP Hw Hp Hn. destruct (hist_inv W df h d HH) as (l & HI & _).
  destruct (mid_stage h d l e ops p q HI HS HP Hw Hp) as (t & r & r' & HT & Hr & ->).
  destruct (removals_mid W df h d l e t r r' HI HT Hr) as (HY & _ & HX).
  apply (recorded_iff h d l n HI) in Hn. destruct Hn as [Hn Hh].
  assert (Hne : n <> S (length h)).
  { apply in_app_iff in Hn. pose proof (kept_range W h l (i_kept _ _ _ _ HI)) as [_ HR]. rewrite Forall_forall in HR.
    destruct Hn as [Hn|Hn]; [apply HR in Hn|apply prots_range in Hn]; lia. }
  destruct (HX n Hne) as (X1 & X2 & X3 & X4). clear HX.
  set (p0 := t ++ [WriteData (S (length h)) (e_w e); WriteIndex (S (length h))] ++ r) in *. set (d1 := run p0 d) in *.
  assert (HTO : forall n, Touched p0 n <-> In (RemoveData n) r \/ In (RemoveIndex n) r).
  { intros k. unfold Touched, p0. rewrite !in_app_iff. split.
    - intros [[H|[H|H]]|[H|[H|H]]]; auto; exfalso;
        try (eapply (training_not W t _ HT); [|exact H]; reflexivity); cbn in H; intuition discriminate.
    - tauto. }
  rewrite HTO.
  assert (HLD : forall dd : dir W, d_yaml dd = d_yaml d -> load_weights dd (Some n) = restore dd n).
  { intros dd E. unfold load_weights. rewrite E, (i_yaml _ _ _ _ HI). destruct h as [|e0 h0] eqn:Eh; [congruence|]. rewrite <- Eh in *. cbn [m_unprot m_prot].
    rewrite !nget_rec. apply in_app_iff in Hn. destruct (existsb (Nat.eqb n) l) eqn:E1; [reflexivity|].
    destruct Hn as [Hn|Hn]; [apply existsb_in in Hn; congruence|]. apply existsb_in in Hn. rewrite Hn. reflexivity. }
  rewrite (HLD d1 HY), (HLD d eq_refl). unfold restore. split.
  - intros H. rewrite X2, X4 by tauto. reflexivity.
  - intros [H|H]; [rewrite (X3 H); destruct (d_index d1 n); reflexivity|]. rewrite (X1 H). reflexivity.
Qed.

(** The latest recorded checkpoint stays loadable whenever the limit of the
    interrupted save is not one, that save or the previous one is protected. *)
Theorem C26_latest_safe h x e d ops p q : Hist df (h ++ [x]) d -> (forall y, In y (h ++ [x; e]) -> (0 <= e_keep y)%Z) ->
  e_keep e <> 1%Z \/ e_prot e = true \/ e_prot x = true ->
  save df d true (e_keep e) (e_prot e) (e_desc e) (e_training e) (e_steps e) (e_w e) = (ops, None) ->
  ops = p ++ q -> ~ In TruncYaml p -> load_weights (run p d) None = Ok (e_w x).
Proof.
  intros HH HN HC HS HP Hp.
  assert (HN1 : forall y, In y (h ++ [x]) -> (0 <= e_keep y)%Z).
  { intros y Hy. apply HN. apply in_app_iff in Hy. apply in_app_iff. destruct Hy as [Hy|[<-|[]]]; [left; exact Hy|right; left; reflexivity]. }
  assert (HX0 : e_prot x = true \/ (0 <= e_keep x)%Z) by (right; apply HN1; apply in_or_app; right; left; reflexivity).
  pose proof (C25_latest h x d HH HX0) as HL0.
  destruct (in_dec (fun a b : bool => Bool.bool_dec a b) true (map (fun o => match o with WriteIndex k => Nat.eqb k (S (length (h ++ [x]))) | _ => false end) p)) as [Hw|Hw].
  2: { assert (HNW : ~ In (WriteIndex (S (length (h ++ [x])))) p).
       { intros H. apply Hw. apply in_map_iff. exists (WriteIndex (S (length (h ++ [x])))). split; [apply Nat.eqb_refl|exact H]. }
       rewrite (proj1 (C26_before_index _ _ _ _ _ _ HH HS HP HNW)). exact HL0. }
  assert (Hw' : In (WriteIndex (S (length (h ++ [x])))) p).
  { apply in_map_iff in Hw. destruct Hw as (o & E & Ho). destruct o; try discriminate. apply Nat.eqb_eq in E. subst. exact Ho. }
  destruct (hist_inv W df _ d HH) as (l & HI & _).
  assert (HNE : h ++ [x] <> []) by (destruct h; discriminate).
  assert (HLn : load_weights (run p d) None = load_weights (run p d) (Some (length (h ++ [x])))).
  { destruct (mid_stage _ d l e ops p q HI HS HP Hw' Hp) as (t & r & r' & HT & Hr & ->).
    destruct (removals_mid W df _ d l e t r r' HI HT Hr) as (HY & _ & _). unfold load_weights. rewrite HY, (i_yaml _ _ _ _ HI).
    destruct (h ++ [x]) eqn:E; [congruence|]. reflexivity. }
  assert (HL1 : load_weights d None = load_weights d (Some (length (h ++ [x])))).
  { rewrite (load_none W _ _ _ HI). destruct (h ++ [x]) eqn:E; [congruence|]. reflexivity. }
  assert (HN' : Nonneg W (h ++ [x])) by (apply Forall_forall; exact HN1).
  destruct (kept_survives W _ l (i_kept _ _ _ _ HI) HN') as [_ HSV].
  assert (Hlen : length (h ++ [x]) = S (length h)) by (rewrite app_length; cbn; lia).
  assert (HR : Recorded d (length (h ++ [x]))).
  { apply (recorded_iff _ d l _ HI). split; [|exact HNE]. apply in_app_iff. rewrite Hlen. destruct (e_prot x) eqn:EP.
    - right. rewrite prots_snoc, EP. apply in_or_app. right. left. reflexivity.
    - left. apply HSV. apply survives_last; exact EP. }
  destruct (C26_loads _ _ _ _ _ _ _ HH HS HP Hw' Hp HR) as [A _]. rewrite HLn, A, <- HL1; [exact HL0|].
  intros HTc. destruct (mid_stage _ d l e ops p q HI HS HP Hw' Hp) as (t & r & r' & HT & Hr & ->).
  assert (HRM : In (length (h ++ [x])) (removed W l (h ++ [x]) e)).
  { assert (HTr : exists o, In o r /\ removal W o (length (h ++ [x]))).
    { destruct HTc as [H|H]; rewrite !in_app_iff in H; destruct H as [H|[H|H]];
        try (exfalso; eapply (training_not W t _ HT); [|exact H]; reflexivity); try (exfalso; cbn in H; intuition discriminate);
        eexists; (split; [exact H|constructor]). }
    destruct HTr as (o & Ho & Hrm). assert (HO : In o (removals W df l (h ++ [x]) e (run t d))) by (rewrite Hr; apply in_or_app; left; exact Ho).
    apply removals_of in HO. destruct HO as (k & Hk & Hrk). assert (E : k = length (h ++ [x])) by (destruct Hrm; inversion Hrk; reflexivity).
    rewrite <- E. exact Hk. }
  destruct (removed_split W _ d l e HI) as [R1 R2].
  destruct (R1 _ HRM) as [Hin|[Hin _]]; [|lia].
  assert (HNX : ~ In (length (h ++ [x])) (next_list W l (h ++ [x]) e)) by (rewrite R2; tauto).
  apply HNX. unfold next_list. unfold removed in HRM. destruct (e_prot e) eqn:EP; [destruct HRM|].
  assert (HK0 : (0 <= e_keep e)%Z) by (apply HN; apply in_app_iff; right; right; left; reflexivity).
  assert (HKP : Kept W ((h ++ [x]) ++ [e]) (cut (e_keep e) (l ++ [S (length (h ++ [x]))]))) by (apply k_unprot; [exact (i_kept _ _ _ _ HI)|exact EP]).
  assert (HN2 : Nonneg W ((h ++ [x]) ++ [e])) by (apply Forall_app; split; [exact HN'|constructor; [exact HK0|constructor]]).
  apply (kept_survives W _ _ HKP HN2). apply survives_snoc; [lia|]. split; [apply HSV; exact Hin|].
  intros _ HK1. rewrite later_snoc by lia. rewrite EP.
  assert (HLT : later (h ++ [x]) (length (h ++ [x])) = 0).
  { unfold later. rewrite (filter_ext_in _ (fun _ => false)); [induction (seq 1 _); [reflexivity|assumption]|].
    intros j Hj. apply in_seq in Hj. destruct (Nat.ltb_spec (length (h ++ [x])) j); [lia|]. apply andb_false_r. }
  rewrite HLT. destruct HC as [HC|[HC|HC]]; [lia|congruence|].
  exfalso. apply HSV in Hin. destruct Hin as [Hin _]. rewrite Hlen, unprotected_last, HC in Hin. discriminate.
Qed.

(** With a limit of one and both unprotected, there is a crash point at which the
    new weights are on disk but not recorded and the recorded ones are gone. *)
Theorem C26_latest_lost h x e d ops : Hist df (h ++ [x]) d -> (forall y, In y (h ++ [x]) -> (0 <= e_keep y)%Z) ->
  e_keep e = 1%Z -> e_prot e = false -> e_prot x = false ->
  save df d true (e_keep e) (e_prot e) (e_desc e) (e_training e) (e_steps e) (e_w e) = (ops, None) ->
  exists p q, ops = p ++ q /\ ~ In TruncYaml p /\ Stored (run p d) (length h + 2) (e_w e) /\ ~ Recorded (run p d) (length h + 2) /\
    load_weights (run p d) None = Err RuntimeError.
Proof.
  intros HH HN1 HK HE HX HS. destruct (hist_inv W df _ d HH) as (l & HI & _).
  assert (HN' : Nonneg W (h ++ [x])) by (apply Forall_forall; exact HN1).
  destruct (kept_survives W _ l (i_kept _ _ _ _ HI) HN') as [_ HSV].
  assert (Hlen : length (h ++ [x]) = S (length h)) by (rewrite app_length; cbn; lia).
  assert (HNE : h ++ [x] <> []) by (destruct h; discriminate).
  assert (Hin : In (length (h ++ [x])) l) by (rewrite Hlen; apply HSV; apply survives_last; exact HX).
  destruct (save_ops W df _ d l e _ HI HS) as (t & HT & E).
  set (i := S (length (h ++ [x]))) in *.
  set (rm := removals W df l (h ++ [x]) e (run t d)) in *.
  set (p := t ++ [WriteData i (e_w e); WriteIndex i] ++ rm).
  assert (HPQ : ops = p ++ [TruncYaml; DumpYaml (next_meta W l (h ++ [x]) e)]) by (rewrite E; unfold p; rewrite <- !app_assoc; reflexivity).
  assert (HRM : forall n, In n (removed W l (h ++ [x]) e) <-> In n l).
  { pose proof (kept_range W _ l (i_kept _ _ _ _ HI)) as [HA HR].
    intros n. unfold removed. rewrite HE, HK. fold i.
    assert (HLl : 1 <= length l) by (destruct l; [destruct Hin|cbn; lia]).
    cbv zeta. rewrite app_length. cbn [length]. destruct (Z.ltb_spec 1 (Z.of_nat (length l + 1))); [|lia].
    unfold drop_last. cbn [Z.ltb Z.eqb Z.compare]. rewrite app_length. cbn [length]. replace (length l + 1 - Z.to_nat 1) with (length l) by lia.
    rewrite firstn_app, firstn_all, Nat.sub_diag, app_nil_r. reflexivity. }
  assert (HI' : Inv W (h ++ [x]) (run t d) l) by (eapply inv_same; [apply run_training; exact HT|exact HI]).
  assert (HRi : forall o n, In o rm -> removal W o n -> In n l).
  { intros o n Ho Hrm. apply removals_of in Ho. destruct Ho as (k & Hk & Hrk). assert (k = n) by (destruct Hrm; inversion Hrk; reflexivity). subst k. apply HRM. exact Hk. }
  pose proof (kept_range W _ l (i_kept _ _ _ _ HI)) as [_ HR]. rewrite Forall_forall in HR.
  assert (Hil : ~ In i l) by (intros H; apply HR in H; unfold i in H; lia).
  assert (HTY : ~ In TruncYaml p).
  { unfold p. rewrite !in_app_iff. intros [H|[H|H]]; [eapply (training_not W t _ HT); [|exact H]; reflexivity|cbn in H; intuition discriminate|].
    apply removals_of in H. destruct H as (k & _ & H). inversion H. }
  assert (Hw : In (WriteIndex i) p) by (unfold p; rewrite !in_app_iff; right; left; right; left; reflexivity).
  exists p, [TruncYaml; DumpYaml (next_meta W l (h ++ [x]) e)]. split; [exact HPQ|]. split; [exact HTY|].
  assert (Ei : length h + 2 = i) by (unfold i; lia). rewrite Ei.
  destruct (removals_mid W df _ d l e t rm [] HI HT (eq_sym (app_nil_r _))) as (HY & HX1 & _). fold i in HY, HX1. fold p in HY, HX1.
  split; [split|].
  - apply HX1. intros H. apply Hil. eapply HRi; [exact H|constructor].
  - unfold p. rewrite !run_app.
    assert (HRMr : forall o, In o rm -> exists n, removal W o n) by (intros o Ho; apply removals_of in Ho; destruct Ho as (k & _ & Hk); exists k; exact Hk).
    destruct (run_removals W rm (run [WriteData i (e_w e); WriteIndex i] (run t d)) HRMr) as (_ & _ & _ & B).
    destruct (B i) as (B1 & _). rewrite B1; [cbn [run fold_left apply d_data]; rewrite Nat.eqb_refl; reflexivity|].
    intros H. apply Hil. eapply HRi; [exact H|constructor].
  - split.
    + intros (m & Em & Hm). rewrite HY, (i_yaml _ _ _ _ HI) in Em. destruct (h ++ [x]) as [|y0 z0] eqn:EHX; [congruence|]. rewrite <- EHX in *. injection Em as <-. cbn [m_unprot m_prot] in Hm.
      fold (nkeys (rec_of (desc_of W (h ++ [x])) l)) in Hm. fold (nkeys (rec_of (desc_of W (h ++ [x])) (prots W (h ++ [x])))) in Hm.
      rewrite !nkeys_rec in Hm. destruct Hm as [Hm|Hm]; [contradiction|]. apply prots_range in Hm. unfold i in Hm. lia.
    + assert (HRc : Recorded d (length (h ++ [x]))) by (apply (recorded_iff _ d l _ HI); split; [apply in_app_iff; left; exact Hin|exact HNE]).
      destruct (C26_loads _ _ _ _ _ _ _ HH HS HPQ Hw HTY HRc) as [_ B].
      assert (HLn : load_weights (run p d) None = load_weights (run p d) (Some (length (h ++ [x])))).
      { unfold load_weights. rewrite HY, (i_yaml _ _ _ _ HI). destruct (h ++ [x]) eqn:E0; [congruence|]. reflexivity. }
      rewrite HLn. apply B. left. unfold p. rewrite !in_app_iff. right. right. unfold rm, removals. fold i.
      apply in_concat. exists (remove_files df (run [WriteData i (e_w e); WriteIndex i] (run t d)) (length (h ++ [x]))).
      split; [apply in_map; apply HRM; exact Hin|].
      assert (Hne : length (h ++ [x]) <> i) by (unfold i; lia).
      destruct (i_stored _ _ _ _ HI' (length (h ++ [x]))) as (S1 & _ & S3); [apply in_app_iff; left; exact Hin|].
      apply in_remove_files; [| |reflexivity]; cbn [run fold_left apply d_index d_data]; fold (run t d);
        (destruct (Nat.eqb_spec (length (h ++ [x])) i); [contradiction|assumption]).
Qed.

(** Interrupted between opening and writing the records: all records are lost;
    every load and every later save raises. *)
Theorem C26_records_lost h d e ops p q : Hist df h d ->
  save df d true (e_keep e) (e_prot e) (e_desc e) (e_training e) (e_steps e) (e_w e) = (ops, None) ->
  ops = p ++ q -> In TruncYaml p -> q <> [] ->
  forall d', Later df (run p d) d' ->
    (forall n, load_weights d' n = Err TypeError) /\
    (forall k pr de s w, save_weights df d' true k pr de s w = ([], Some TypeError)) /\
    forall e' ok, snd (save df d' ok (e_keep e') (e_prot e') (e_desc e') (e_training e') (e_steps e') (e_w e')) <> None.
Proof.
  intros HH HS HP Hp Hq d' HL. destruct (hist_inv W df h d HH) as (l & HI & _).
  destruct (save_ops W df h d l e _ HI HS) as (t & HT & E). rewrite HP in E.
  assert (HTR : forall r r', removals W df l h e (run t d) = r ++ r' -> ~ In TruncYaml r).
  { intros r r' Hr H. assert (HO : In TruncYaml (removals W df l h e (run t d))) by (rewrite Hr; apply in_or_app; left; exact H).
    apply removals_of in HO. destruct HO as (k & _ & HO). inversion HO. }
  apply stages in E. destruct E as [(t' & Et)|[->|[(r & r' & Hr & ->)|[->|[-> _]]]]]; [exfalso|exfalso|exfalso| |congruence].
  - rewrite Et in HT. eapply (training_not W (p ++ t') TruncYaml HT); [reflexivity|apply in_or_app; left; exact Hp].
  - apply in_app_iff in Hp. destruct Hp as [Hp|[Hp|[]]]; [|discriminate]. eapply (training_not W t TruncYaml HT); [reflexivity|exact Hp].
  - rewrite !in_app_iff in Hp. destruct Hp as [Hp|[Hp|Hp]]; [eapply (training_not W t TruncYaml HT); [reflexivity|exact Hp]|cbn in Hp; intuition discriminate|].
    exact (HTR _ _ Hr Hp).
  - clear HTR. match type of HL with Later _ ?z _ => set (d1 := z) in * end.
    assert (HY : d_yaml d1 = Some None) by (unfold d1; rewrite !run_app; reflexivity).
    destruct (stuck_later W df d1 d' HL (or_introl HY)) as [(C1 & _ & _) HK]. split; [|split].
    + intros n. unfold load_weights. rewrite C1, HY. reflexivity.
    + intros k pr de s w. rewrite (stuck_save W df d' k pr de s w HK). unfold stuck_error. rewrite C1, HY. reflexivity.
    + intros e' ok. destruct (save df d' ok _ _ _ _ _ _) as [o y] eqn:EE. apply (stuck_ops W df _ _ _ _ _ HK EE).
Qed.

(** *** Limits that are not positive *)

Definition removing (o : op W) : Prop := exists n, o = RemoveData n \/ o = RemoveIndex n.

(** A limit of zero removes nothing, whatever the history. *)
Theorem C27_zero_removes_nothing h d e ops : Hist df h d -> e_keep e = 0%Z ->
  save df d true (e_keep e) (e_prot e) (e_desc e) (e_training e) (e_steps e) (e_w e) = (ops, None) ->
  (forall o, In o ops -> ~ removing o) /\ (forall n, Recorded d n -> Recorded (run ops d) n) /\ Recorded (run ops d) (S (length h)).
Proof.
  intros HH HK HS. destruct (hist_inv W df h d HH) as (l & HI & _).
  assert (HR : removed W l h e = []) by (unfold removed; rewrite HK; destruct (e_prot e); [reflexivity|]; cbv zeta; destruct (_ <? _)%Z; reflexivity).
  destruct (save_ops W df h d l e _ HI HS) as (t & HT & E).
  assert (HI2 : Inv W (h ++ [e]) (run ops d) (next_list W l h e)).
  { destruct (save_ok W df h d l e ops HI HS) as (t2 & HT2 & ->). rewrite run_app. apply inv_next. eapply inv_same; [apply run_training; exact HT2|exact HI]. }
  assert (HNE : h ++ [e] <> []) by (destruct h; discriminate).
  destruct (removed_split W h d l e HI) as [_ R2]. rewrite HR in R2. split; [|split].
  - intros o Ho (n & Hn). rewrite E in Ho. unfold removals in Ho. rewrite HR in Ho. cbn [map concat] in Ho. rewrite app_nil_r in Ho.
    apply in_app_iff in Ho. destruct Ho as [Ho|Ho].
    + destruct Hn as [->| ->]; eapply (training_not W t _ HT); try exact Ho; reflexivity.
    + cbn in Ho. destruct Hn as [->| ->]; intuition discriminate.
  - intros n Hn. apply (recorded_iff h d l n HI) in Hn. destruct Hn as [Hn _]. apply (recorded_iff _ _ _ n HI2). split; [|exact HNE].
    rewrite in_app_iff, R2, prots_snoc, in_app_iff. apply in_app_iff in Hn. destruct Hn as [Hn|Hn]; [|tauto]. left. split; [tauto|intros []].
  - apply (recorded_iff _ _ _ _ HI2). split; [|exact HNE]. rewrite in_app_iff, R2, prots_snoc, in_app_iff.
    destruct (e_prot e); [right; right; left; reflexivity|]. left. split; [right; auto|intros []].
Qed.

(** A negative limit -k removes the k oldest unprotected checkpoints at every
    unprotected save, including the one just written if there are not more than
    k; loading the latest then fails. *)
Theorem C27_negative h d e ops k : Hist df h d -> e_keep e = (- Z.of_nat k)%Z -> 0 < k -> e_prot e = false ->
  save df d true (e_keep e) (e_prot e) (e_desc e) (e_training e) (e_steps e) (e_w e) = (ops, None) ->
  exists old, StronglySorted lt old /\
    (forall n, In n old <-> (Recorded d n /\ unprotected h n = true) \/ n = S (length h)) /\
    (forall n, unprotected (h ++ [e]) n = true -> (Recorded (run ops d) n <-> In n (skipn k old))) /\
    (length old <= k -> load_weights (run ops d) None = Err KeyError).
Proof.
  intros HH HK Hk HE HS. destruct (hist_inv W df h d HH) as (l & HI & _). exists (l ++ [S (length h)]).
  pose proof (kept_range W h l (i_kept _ _ _ _ HI)) as [HA HR]. rewrite Forall_forall in HR.
  assert (HI2 : Inv W (h ++ [e]) (run ops d) (next_list W l h e)).
  { destruct (save_ok W df h d l e ops HI HS) as (t2 & HT2 & ->). rewrite run_app. apply inv_next. eapply inv_same; [apply run_training; exact HT2|exact HI]. }
  assert (HNE : h ++ [e] <> []) by (destruct h; discriminate).
  assert (HNL : next_list W l h e = skipn k (l ++ [S (length h)])).
  { unfold next_list. rewrite HE. unfold cut. rewrite HK. destruct (Z.ltb_spec (- Z.of_nat k) (Z.of_nat (length (l ++ [S (length h)])))); [|lia].
    unfold drop_last. destruct (Z.ltb_spec (- Z.of_nat k) 0); [|lia]. replace (Z.to_nat (- - Z.of_nat k)) with k by lia.
    rewrite firstn_length. destruct (Nat.min_spec k (length (l ++ [S (length h)]))) as [[_ ->]|[HL ->]]; [reflexivity|].
    rewrite skipn_all. symmetry. apply skipn_all2. exact HL. }
  assert (HREC : forall n, unprotected (h ++ [e]) n = true -> (Recorded (run ops d) n <-> In n (skipn k (l ++ [S (length h)])))).
  { intros n Hu. rewrite (recorded_iff _ _ _ n HI2), in_app_iff, HNL. split; [|tauto].
    intros [[H|H] _]; [exact H|]. exfalso. exact (unprot_not_prot W _ _ Hu H). }
  split; [|split; [|split; [exact HREC|]]].
  - apply asc_snoc; [exact HA|]. apply Forall_forall. intros n Hn. specialize (HR _ Hn). lia.
  - intros n. rewrite in_app_iff, (recorded_iff h d l n HI), in_app_iff. cbn [In]. split.
    + intros [H|[<-|[]]]; [|tauto]. left. split; [|apply HR; exact H]. split; [tauto|]. intros ->. apply HR in H. cbn in H. lia.
    + intros [[[[H|H] _] Hu]| ->]; [tauto| |tauto]. exfalso. exact (unprot_not_prot W _ _ Hu H).
  - intros HL. rewrite (load_none W _ _ _ HI2). destruct (h ++ [e]) eqn:EH; [congruence|]. rewrite <- EH in *.
    destruct (inv_load W _ _ _ (length (h ++ [e])) HI2 HNE) as [_ B]. apply B. rewrite in_app_iff, HNL, skipn_all2 by exact HL.
    intros [[]|H]. rewrite app_length in H. cbn [length] in H. rewrite Nat.add_1_r, prots_snoc, HE, app_nil_r in H. apply prots_range in H. lia.
Qed.

(** *** Training settings *)

(** As long as every component could be saved, the step directories are exactly
    the recorded ones and the next settings can be saved. *)
Theorem C65_consistent k d cs : THist df k d -> (forall c, In c cs -> snd c = None) ->
  (forall n, d_step d n = true <-> 1 <= n <= k) /\
  match d_train d with None => k = 0 | Some None => False | Some (Some t) => t_latest t = k end /\
  exists ops t, save_training_settings d cs = (ops, None) /\ d_train (run ops d) = Some (Some t) /\ t_latest t = S k.
Proof.
  intros H HC. apply thist_inv in H. pose proof H as [H1 H2]. split; [exact H1|]. split.
  - destruct (d_train d) as [[t|]|]; [apply H2|exact H2|exact H2].
  - destruct (tinv_training W k d cs H HC) as (ops & E & HT & HT2). exists ops.
    destruct (d_train (run ops d)) as [[t|]|]; [|destruct HT2|discriminate]. exists t. split; [exact E|]. split; [reflexivity|apply HT2].
Qed.

(** Once a step directory exists that is not recorded, because a component
    failed to save or the process died, no later save with training settings
    ever succeeds in this directory. *)
Theorem C65_stuck d cs ops ex p q i : save_training_settings d cs = (ops, ex) -> ops = p ++ q ->
  In (MakeStep i) p -> (forall t, ~ In (DumpTrain t) p) ->
  forall d' cs', Later df (run p d) d' ->
    exists x, save_training_settings d' cs' = ([], Some x) /\ (x = IOError \/ x = TypeError).
Proof.
  intros HS -> Hi Hp d' cs' HL. apply tstuck_save. eapply tstuck_later; [exact HL|]. clear d' cs' HL.
  unfold save_training_settings in HS.
  destruct (match d_train d with None => Some {| t_latest := 0; t_steps := [] |} | Some t => t end) as [t|] eqn:ET;
    [|injection HS as HS _; symmetry in HS; apply app_eq_nil in HS; destruct HS as [-> _]; destruct Hi].
  destruct (d_step d (S (t_latest t))) eqn:ES; [injection HS as HS _; symmetry in HS; apply app_eq_nil in HS; destruct HS as [-> _]; destruct Hi|].
  assert (HG : forall rest, MakeStep (S (t_latest t)) :: rest = p ++ q ->
    (forall o, In o rest -> (exists j f, o = StepFile j f) \/ o = TruncTrain \/ exists t, o = DumpTrain t) -> TStuck W (run p d)).
  { intros rest HE HO. destruct p as [|o p]; [destruct Hi|]. cbn [app] in HE. injection HE as <- ->. cbn [run fold_left].
    set (d1 := apply d (MakeStep (S (t_latest t)))).
    assert (HD : forall dd, TStuck W dd -> (forall o, In o p -> (exists j f, o = StepFile j f) \/ o = TruncTrain) -> TStuck W (run p dd)).
    { clear. induction p as [|o p IH]; intros dd HT HO; [exact HT|]. cbn [run fold_left]. apply IH; [|intros o' Ho; apply HO; right; exact Ho].
      destruct (HO o (or_introl eq_refl)) as [(j & f & ->)| ->]; [exact HT|]. left. reflexivity. }
    apply HD.
    - right. exists t. cbn [d1 apply d_train d_step]. rewrite ET, Nat.eqb_refl. auto.
    - intros o Ho. destruct (HO o) as [H|[H|(t' & ->)]]; [apply in_or_app; left; exact Ho|left; exact H|right; exact H|].
      exfalso. apply (Hp t'). right. exact Ho. }
  assert (HSC : forall j c o, In o (fst (save_components (W := W) j c)) -> exists j' f, o = StepFile j' f).
  { clear. intros j c. induction c as [|[nm x] c IH]; [intros o []|]. cbn [save_components]. intros o. destruct x.
    - intros [<-|[]]. eauto.
    - destruct (save_components j c) as [a b]. cbn [fst] in *. intros [<-|Ho]; [eauto|apply IH; exact Ho]. }
  destruct (has_key (S (t_latest t)) (t_steps t)).
  - injection HS as HS _. apply (HG [] HS). intros o [].
  - specialize (HSC (S (t_latest t)) cs). destruct (save_components (S (t_latest t)) cs) as [a b]. cbn [fst] in HSC. destruct b.
    + injection HS as HS _. apply (HG _ HS). intros o [<-|Ho]; [left; eauto|left; apply HSC; exact Ho].
    + injection HS as HS _. apply (HG _ HS). intros o [<-|Ho]; [left; eauto|]. apply in_app_iff in Ho.
      destruct Ho as [Ho|[<-|[<-|[]]]]; [left; apply HSC; exact Ho|right; left; reflexivity|right; right; eauto].
Qed.

(** In particular a component that cannot be saved. *)
Theorem C65_failing_component d cs ops ex : save_training_settings d cs = (ops, Some ex) -> ops <> [] ->
  forall d' cs', Later df (run ops d) d' ->
    exists x, save_training_settings d' cs' = ([], Some x) /\ (x = IOError \/ x = TypeError).
Proof.
  intros HS HO. assert (HX : exists i, In (MakeStep i) ops /\ forall t, ~ In (DumpTrain t) ops).
  { unfold save_training_settings in HS.
    destruct (match d_train d with None => Some {| t_latest := 0; t_steps := [] |} | Some t => t end) as [t|]; [|injection HS as <- _; congruence].
    destruct (d_step d (S (t_latest t))); [injection HS as <- _; congruence|]. exists (S (t_latest t)).
    destruct (has_key _ _); [injection HS as <- _; split; [left; reflexivity|intros t' [H|[]]; discriminate]|].
    assert (HSC : forall j c o, In o (fst (save_components (W := W) j c)) -> exists j' f, o = StepFile j' f).
    { clear. intros j c. induction c as [|[nm x] c IH]; [intros o []|]. cbn [save_components]. intros o. destruct x.
      - intros [<-|[]]. eauto.
      - destruct (save_components j c) as [a b]. cbn [fst] in *. intros [<-|Ho]; [eauto|apply IH; exact Ho]. }
    specialize (HSC (S (t_latest t)) cs). destruct (save_components (S (t_latest t)) cs) as [a b]. cbn [fst] in HSC. destruct b; [|discriminate].
    injection HS as <- _. split; [left; reflexivity|]. intros t' [H|[H|H]]; try discriminate. apply HSC in H. destruct H as (j & f & H). discriminate. }
  destruct HX as (i & H1 & H2). eapply C65_stuck; [exact HS|symmetry; apply app_nil_r|exact H1|exact H2].
Qed.

(** Saving training settings succeeds only if every component is saved; then a
    new record with zero steps is added and all others are kept. *)
Theorem C65_settings_recorded d cs ops : save_training_settings d cs = (ops, None) ->
  (forall c, In c cs -> snd c = None) /\
  exists t, d_train (run ops d) = Some (Some t) /\
    let old := match d_train d with Some (Some t0) => t0 | _ => {| t_latest := 0; t_steps := [] |} end in
    t_latest t = S (t_latest old) /\
    forall j, nget j (t_steps t) = if Nat.eqb j (S (t_latest old)) then Some 0 else nget j (t_steps old).
Proof.
  intros HS. unfold save_training_settings in HS.
  destruct (match d_train d with None => Some {| t_latest := 0; t_steps := [] |} | Some t => t end) as [t|] eqn:ET; [|discriminate].
  destruct (d_step d (S (t_latest t))); [discriminate|]. destruct (has_key _ _); [discriminate|].
  destruct (save_components (S (t_latest t)) cs) as [a [b|]] eqn:EC; [discriminate|]. injection HS as <-. split.
  - revert a EC. induction cs as [|[nm [x|]] cs IH]; intros a EC c Hc; [destruct Hc|discriminate|].
    cbn [save_components] in EC. destruct (save_components (S (t_latest t)) cs) as [a' b'] eqn:E2. injection EC as <- ->.
    destruct Hc as [<-|Hc]; [reflexivity|]. exact (IH a' eq_refl c Hc).
  - exists {| t_latest := S (t_latest t); t_steps := nset (S (t_latest t)) 0 (t_steps t) |}.
    split.
    { change (MakeStep (S (t_latest t)) :: StepFile (S (t_latest t)) "training_config.yaml" :: a ++
        [TruncTrain; DumpTrain {| t_latest := S (t_latest t); t_steps := nset (S (t_latest t)) 0 (t_steps t) |}])
        with ((MakeStep (S (t_latest t)) :: StepFile (S (t_latest t)) "training_config.yaml" :: a) ++
        [TruncTrain; DumpTrain {| t_latest := S (t_latest t); t_steps := nset (S (t_latest t)) 0 (t_steps t) |}]).
      rewrite run_app. reflexivity. }
    assert (HO : match d_train d with Some (Some t0) => t0 | _ => {| t_latest := 0; t_steps := [] |} end = t).
    { destruct (d_train d) as [[t0|]|]; congruence. }
    rewrite HO. cbn zeta. split; [reflexivity|]. intros j. cbn [t_steps]. apply nget_nset.
Qed.

(** Updating the number of steps changes the entry of the latest training only;
    without any recorded training it raises and changes nothing. *)
Theorem C65_update_steps d n ops ex : update_num_training_steps d n = (ops, ex) ->
  (d_train d = None -> ops = [] /\ ex = Some IOError) /\
  (ex <> None -> ops = []) /\
  (ex = None -> exists t t', d_train d = Some (Some t) /\ d_train (run ops d) = Some (Some t') /\
     t_latest t' = t_latest t /\ map fst (t_steps t') = map fst (t_steps t) /\
     forall j, nget j (t_steps t') = if Nat.eqb j (t_latest t) then Some n else nget j (t_steps t)).
Proof.
  intros HS. unfold update_num_training_steps in HS. destruct (d_train d) as [[t|]|] eqn:ET.
  - destruct (nget (t_latest t) (t_steps t)) as [o|] eqn:EG; injection HS as <- <-; (split; [discriminate|]); (split; [congruence|]); [|discriminate].
    intros _. exists t. eexists. split; [reflexivity|]. split; [reflexivity|]. split; [reflexivity|]. cbn [t_steps]. split; [|intros j; apply nget_nset].
    clear ET. revert EG. generalize (t_latest t) as k. intros k. unfold nget.
    induction (t_steps t) as [|[k' v'] l IH]; cbn [find nset fst]; [discriminate|].
    destruct (Nat.eqb k' k) eqn:E; [reflexivity|]. intros EG. cbn [map fst]. f_equal. apply IH. exact EG.
  - injection HS as <- <-. split; [discriminate|]. split; [reflexivity|discriminate].
  - injection HS as <- <-. split; [auto|]. split; [reflexivity|discriminate].
Qed.

(** Weights are not written if their number of steps cannot be recorded. *)
Theorem C65_steps_without_training d ok k pr de n w : d_train d = None ->
  exists x, save_weights df d ok k pr de (Some n) w = ([], Some x).
Proof.
  intros HT. unfold save_weights. destruct (negb ok); [eauto|].
  destruct (match d_yaml d with None => _ | Some m => m end) as [m|]; [|eauto].
  destruct (d_index d (S (m_latest m))); [eauto|]. destruct (_ || _); [eauto|].
  unfold update_num_training_steps. rewrite HT. eauto.
Qed.

End Theorems.

(** *** Examples *)

Definition ex_df (_ : nat) : bool := true.
Definition mk (p : bool) (k : Z) (w : nat) : entry nat :=
  {| e_prot := p; e_keep := k; e_desc := None; e_training := None; e_steps := None; e_w := w |}.
Definition ops_of (d : dir nat) (e : entry nat) : list (op nat) :=
  fst (save ex_df d true (e_keep e) (e_prot e) (e_desc e) (e_training e) (e_steps e) (e_w e)).
Fixpoint after (h : list (entry nat)) (d : dir nat) : dir nat :=
  match h with [] => d | e :: h' => after h' (run (ops_of d e) d) end.

Lemma hist_after h' : forall h d, Hist ex_df h d ->
  (forall h1 e h2, h' = h1 ++ e :: h2 -> snd (save ex_df (after h1 d) true (e_keep e) (e_prot e) (e_desc e) (e_training e) (e_steps e) (e_w e)) = None) ->
  Hist ex_df (h ++ h') (after h' d).
Proof.
  induction h' as [|e h' IH]; intros h d HH HS; [rewrite app_nil_r; exact HH|].
  cbn [after]. replace (h ++ e :: h') with ((h ++ [e]) ++ h') by (rewrite <- app_assoc; reflexivity). apply IH.
  - specialize (HS [] e h' eq_refl). cbn [after] in HS. unfold ops_of.
    destruct (save ex_df d true (e_keep e) (e_prot e) (e_desc e) (e_training e) (e_steps e) (e_w e)) as [ops x] eqn:E. cbn [snd] in HS. subst x.
    cbn [fst]. eapply h_save; eassumption.
  - intros h1 e1 h2 E. apply (HS (e :: h1) e1 h2). rewrite E. reflexivity.
Qed.

Lemma hist_plain h : (forall e, In e h -> e_training e = None /\ e_steps e = None) -> Hist ex_df h (after h empty_dir).
Proof.
  intros H. change h with ([] ++ h) at 1. apply hist_after; [constructor|].
  intros h1 e h2 ->. revert H.
  assert (HX : forall h1, (forall x, In x h1 -> e_training x = None /\ e_steps x = None) -> Hist ex_df h1 (after h1 empty_dir)).
  { clear. intros h1 H. induction h1 as [|x h1 IH] using rev_ind; [constructor|].
    assert (HH : Hist ex_df h1 (after h1 empty_dir)) by (apply IH; intros y Hy; apply H; apply in_or_app; left; exact Hy).
    destruct (H x) as [A B]; [apply in_or_app; right; left; reflexivity|].
    destruct (C25_next_save nat ex_df _ _ x HH A B) as (ops & E).
    assert (EA : forall l (d : dir nat), after (l ++ [x]) d = after [x] (after l d)) by (induction l as [|y l IHl]; intros d; [reflexivity|apply IHl]).
    rewrite EA. cbn [after]. unfold ops_of. rewrite E. eapply h_save; eassumption. }
  intros H. destruct (H e) as [A B]; [apply in_or_app; right; left; reflexivity|].
  assert (HH : Hist ex_df h1 (after h1 empty_dir)) by (apply HX; intros x Hx; apply H; apply in_or_app; left; exact Hx).
  destruct (C25_next_save nat ex_df _ _ e HH A B) as (ops & ->). reflexivity.
Qed.

Definition ex_h : list (entry nat) := [mk false 2 10; mk true 2 20; mk false 2 30; mk false 2 40].

Example checkpoint_ex :
  Hist ex_df ex_h (after ex_h empty_dir) /\ (forall e, In e ex_h -> (0 <= e_keep e)%Z) /\
  load_weights (after ex_h empty_dir) None = Ok 40 /\ load_weights (after ex_h empty_dir) (Some 1) = Err KeyError /\
  load_weights (after ex_h empty_dir) (Some 2) = Ok 20 /\ load_weights (after ex_h empty_dir) (Some 3) = Ok 30 /\
  Recorded (after ex_h empty_dir) 3.
Proof.
  split; [apply hist_plain; intros e He; repeat (destruct He as [<-|He]; [split; reflexivity|]); destruct He|].
  split; [intros e He; repeat (destruct He as [<-|He]; [cbn; lia|]); destruct He|].
  do 4 (split; [vm_compute; reflexivity|]). eexists. split; [vm_compute; reflexivity|]. cbn. auto.
Qed.

(** The save that is interrupted: limit one, the previous one unprotected. *)
Definition ex_last : entry nat := mk false 1 50.
Example crash_ex :
  let d := after ex_h empty_dir in
  save ex_df d true 1 false None None None 50 =
    ([WriteData 5 50; WriteIndex 5; RemoveData 3; RemoveIndex 3; RemoveData 4; RemoveIndex 4; TruncYaml;
      DumpYaml {| m_latest := 5; m_unprot := [(5, (5, None))]; m_prot := [(2, (2, None))] |}], None) /\
  load_weights (run [WriteData 5 50; WriteIndex 5; RemoveData 3; RemoveIndex 3] d) None = Ok 40 /\
  load_weights (run [WriteData 5 50; WriteIndex 5; RemoveData 3] d) (Some 3) = Err RuntimeError /\
  load_weights (run [WriteData 5 50; WriteIndex 5; RemoveData 3; RemoveIndex 3; RemoveData 4] d) None = Err RuntimeError /\
  snd (save ex_df (run [WriteData 5 50; WriteIndex 5] d) true 1 false None None None 60) = Some IOError.
Proof. vm_compute. repeat (split; [reflexivity|]). reflexivity. Qed.

(** A limit of zero does not mean that no unprotected checkpoint is kept. *)
Theorem C27_zero_keeps_none_refuted : exists h (d : dir nat) m, Hist ex_df h d /\
  (forall e, In e h -> e_keep e = 0%Z /\ e_prot e = false) /\ d_yaml d = Some (Some m) /\ length (m_unprot m) = 3.
Proof.
  exists [mk false 0 1; mk false 0 2; mk false 0 3]. eexists. eexists. split; [apply hist_plain; intros e He; repeat (destruct He as [<-|He]; [split; reflexivity|]); destruct He|].
  split; [intros e He; repeat (destruct He as [<-|He]; [split; reflexivity|]); destruct He|].
  split; [vm_compute; reflexivity|reflexivity].
Qed.

Example negative_ex :
  Hist ex_df [mk false 3 1] (after [mk false 3 1] empty_dir) /\
  save ex_df (after [mk false 3 1] empty_dir) true (-2) false None None None 7 =
    ([WriteData 2 7; WriteIndex 2; RemoveData 1; RemoveIndex 1; RemoveData 2; RemoveIndex 2; TruncYaml;
      DumpYaml {| m_latest := 2; m_unprot := []; m_prot := [] |}], None).
Proof.
  split; [apply hist_plain; intros e He; repeat (destruct He as [<-|He]; [split; reflexivity|]); destruct He|vm_compute; reflexivity].
Qed.

(** A component that cannot be saved. *)
Example training_ex :
  let cs := [("loss_module", None); ("evaluation_module", Some TypeError)] in
  save_training_settings (W := nat) empty_dir cs =
    ([MakeStep 1; StepFile 1 "training_config.yaml"; StepFile 1 "loss_module"; StepFile 1 "evaluation_module"], Some TypeError) /\
  save_training_settings (run (fst (save_training_settings (W := nat) empty_dir cs)) empty_dir) [("loss_module", None)] = ([], Some IOError) /\
  THist ex_df 1 (run (fst (save ex_df (W := nat) empty_dir true 3 false None (Some [("loss_module", None)]) (Some 100) 9)) empty_dir).
Proof.
  split; [vm_compute; reflexivity|]. split; [vm_compute; reflexivity|].
  eapply (th_new nat ex_df 0 empty_dir {| e_prot := false; e_keep := 3; e_desc := None; e_training := Some [("loss_module", None)]; e_steps := Some 100; e_w := 9 |} true).
  - constructor.
  - reflexivity.
  - intros c [<-|[]]. reflexivity.
  - cbn [e_keep e_prot e_desc e_training e_steps e_w]. apply surjective_pairing.
Qed.

Example steps_ex :
  let d0 : dir nat := run (fst (save_training_settings (empty_dir (W := nat)) [("data_handler", None)])) empty_dir in
  snd (save_training_settings d0 [("loss_module", Some IOError)]) = Some IOError /\
  update_num_training_steps d0 7 =
    ([TruncTrain; DumpTrain {| t_latest := 1; t_steps := [(1, 7)] |}], None) /\
  update_num_training_steps (empty_dir (W := nat)) 7 = ([], Some IOError).
Proof. vm_compute. repeat split. Qed.

Print Assumptions C25_records.
Print Assumptions C25_files.
Print Assumptions C25_latest.
Print Assumptions C25_next_save.
Print Assumptions C25_newest.
Print Assumptions C26_before_index.
Print Assumptions C26_after_index.
Print Assumptions C26_loads.
Print Assumptions C26_latest_safe.
Print Assumptions C26_latest_lost.
Print Assumptions C26_records_lost.
Print Assumptions C27_zero_removes_nothing.
Print Assumptions C27_negative.
Print Assumptions C27_zero_keeps_none_refuted.
Print Assumptions C65_consistent.
Print Assumptions C65_stuck.
Print Assumptions C65_failing_component.
Print Assumptions C65_settings_recorded.
Print Assumptions C65_update_steps.
Print Assumptions C65_steps_without_training.
