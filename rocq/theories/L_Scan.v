(** Lemmas on likelihood scans. *)
From Coq Require Import Psatz.
From Verif Require Import RList PyFacts PyStr M_Trafo S_Trafo L_Trafo T_Trafo M_Opt M_Reco S_Reco L_Reco T_Reco M_Scan S_Scan.

Lemma all2_length {A B} {P : A -> B -> Prop} {l m} : Forall2 P l m -> length l = length m.
Proof. intros H. induction H; cbn; congruence. Qed.

Lemma all2_nth {A B} (P : A -> B -> Prop) l m : Forall2 P l m -> forall i y, nth_error m i = Some y -> exists x, nth_error l i = Some x /\ P x y.
Proof.
  intros H. induction H as [| x y l m Q H IH]; intros [| i] z E; cbn in *; try discriminate; [injection E as <-; eauto | exact (IH i z E)].
Qed.

Lemma put_length v : forall l i, length (put i v l) = length l.
Proof. induction l as [| x l IH]; intros [| i]; cbn [put length]; auto. Qed.

Lemma put_same v : forall l i, (i < length l)%nat -> nth_error (put i v l) i = Some v.
Proof. induction l as [| x l IH]; intros [| i] H; cbn [put length nth_error] in *; try lia; auto. apply IH. lia. Qed.

Lemma put_other v : forall l i j, j <> i -> nth_error (put i v l) j = nth_error l j.
Proof.
  induction l as [| x l IH]; intros [| i] [| j] H; cbn [put nth_error]; try reflexivity; try congruence. apply IH. congruence.
Qed.

Lemma put_replaced row i x : (i < length row)%nat -> Replaced row i x (put i x row).
Proof. intros H. split; [apply put_length |]. split; [apply put_same, H |]. intros j N. apply put_other, N. Qed.

Lemma put_nth l i v j : (i < length l)%nat -> nth j (put i v l) 0 = if Nat.eqb j i then v else nth j l 0.
Proof.
  intros H. destruct (Nat.eqb_spec j i) as [-> | N].
  - apply nth_error_nth, put_same, H.
  - rewrite !nth_default_eq || idtac. destruct (nth_error l j) as [x |] eqn:E.
    + rewrite (nth_error_nth l j 0 E). apply nth_error_nth. rewrite put_other by exact N. exact E.
    + rewrite (nth_overflow l) by (apply nth_error_None; exact E).
      apply nth_overflow. rewrite put_length. apply nth_error_None, E.
Qed.

(** A table of one row *)
Lemma one_row a n : Table a n 1 -> exists r, a = single r /\ length r = n.
Proof.
  intros (S & L & F). destruct a as [sh [| r [| r' rs]]]; cbn in *; try discriminate. subst sh.
  exists r. inversion F; subst. split; reflexivity.
Qed.

Lemma single_table r : Table (single r) (length r) 1.
Proof. split; [reflexivity |]. split; [reflexivity |]. repeat constructor. Qed.

Lemma cell_single r i : cell (single r) 0 i = nth i r 0.
Proof. reflexivity. Qed.

Lemma set_entry_single r i v a : set_entry (single r) i v = Ok a <-> (i < length r)%nat /\ a = single (put i v r).
Proof.
  unfold set_entry, single. cbn [ar_rows ar_shape]. destruct (Nat.ltb_spec i (length r)) as [H | H].
  - rewrite put_length. split; [intros E; injection E as <-; auto | intros (_ & ->); reflexivity].
  - split; [discriminate | intros (H' & _); lia].
Qed.

Lemma entry_single r i x : entry (single r) i = Ok x <-> nth_error r i = Some x.
Proof.
  unfold entry, single. cbn [ar_rows]. destruct (nth_error r i); split; congruence.
Qed.

Lemma collect_ok {A B} (f : A -> result B) : forall l ys, collect f l = Ok ys <-> Forall2 (fun x y => f x = Ok y) l ys.
Proof.
  induction l as [| x l IH]; intros ys; cbn [collect].
  - split; [intros H; injection H as <-; constructor | intros H; inversion H; reflexivity].
  - rewrite bind_ok. split.
    + intros (y & E & H). apply bind_ok in H. destruct H as (ys' & E' & H). injection H as <-. constructor; [exact E | apply IH, E'].
    + intros H. inversion H; subst. eexists. split; [eassumption |]. apply bind_ok. eexists. split; [apply IH; eassumption | reflexivity].
Qed.

Lemma collect_total {A B} (f : A -> result B) l : (forall x, In x l -> exists y, f x = Ok y) -> exists ys, collect f l = Ok ys.
Proof.
  induction l as [| x l IH]; intros H; cbn [collect]; [eexists; reflexivity |].
  destruct (H x (or_introl eq_refl)) as (y & ->). destruct IH as (ys & ->); [intros z I; apply H; right; exact I |]. eexists; reflexivity.
Qed.

Lemma linspace_length a b n : length (linspace a b n) = n.
Proof. unfold linspace. rewrite map_length, seq_length. reflexivity. Qed.

Lemma linspace_nth a b n k : (k < n)%nat -> nth_error (linspace a b n) k = Some (a + INR k * ((b - a) / INR (n - 1))).
Proof.
  intros H. unfold linspace. rewrite nth_error_map. rewrite (nth_error_nth' _ 0%nat) by (rewrite seq_length; exact H).
  rewrite seq_nth by exact H. reflexivity.
Qed.

Lemma thousand : INR (Z.to_nat 1000 - 1) = 999.
Proof.
  replace (Z.to_nat 1000 - 1)%nat with (Z.to_nat 999) by lia. rewrite INR_IZR_INZ, Z2Nat.id by lia. reflexivity.
Qed.

(** ** Values in units of the standard deviation *)

Section Cells.
  Variables (tr : trafo) (name : string) (t : tinfo) (s : stats) (n : nat).
  Hypothesis HB : Built tr.
  Hypothesis HT : dget name (tr_tensors tr) = Some t.
  Hypothesis HS : dget name (tr_data tr) = Some s.
  Hypothesis SH : ti_shape t = [n].

  Lemma scaled_iff i x z : (i < n)%nat ->
    (Scaled tr name i x z <-> z * dev_at tr s i = log_in t i x - mean_at s i).
  Proof.
    intros Hi. destruct (stats_facts tr name t s n HB HT HS SH) as (L1 & L2 & _ & _).
    pose proof (logged_spec t n i SH Hi) as LS.
    assert (EM : nth_error (st_mean s) i = Some (mean_at s i)) by (apply nth_error_nth'; lia).
    assert (ES : nth_error (st_std s) i = Some (nth i (st_std s) 0)) by (apply nth_error_nth'; lia).
    unfold Scaled, dev_at, log_in, Seen. split.
    - intros (t' & s' & m & d & y & E1 & E2 & E3 & E4 & (Y1 & Y2) & Z).
      assert (t' = t) by congruence. assert (s' = s) by congruence. subst t' s'.
      assert (m = mean_at s i) by congruence. assert (d = nth i (st_std s) 0) by congruence. subst m d. rewrite Z. f_equal.
      destruct (logged t i) eqn:EL; [apply Y1, LS; reflexivity | apply Y2; intros L; apply LS in L; discriminate].
    - intros Z. exists t, s, (mean_at s i), (nth i (st_std s) 0), (if logged t i then ln (1 + x) else x).
      repeat split; try assumption.
      + intros L. apply LS in L. rewrite L. reflexivity.
      + intros L. destruct (logged t i); [exfalso; apply L, LS; reflexivity | reflexivity].
  Qed.

  Lemma scaled_unique i x z z' : (i < n)%nat -> Scaled tr name i x z -> Scaled tr name i x z' -> z = z'.
  Proof.
    intros Hi H H'. apply scaled_iff in H, H'; try exact Hi. pose proof (dev_pos tr name t s n HB HT HS SH i Hi).
    apply (Rmult_eq_reg_r (dev_at tr s i)); lra.
  Qed.

  (** The inverse transformation of a single event *)
  Lemma inverse_single tf r d : length r = n -> inverse_transform (Some tr) tf (single r) name true = Ok d ->
    exists r', d = single r' /\ length r' = n /\
      forall j, (j < n)%nat -> nth j r' 0 = exp_out t tf j (nth j r 0 * dev_at tr s j + mean_at s j).
  Proof.
    intros L H. destruct (inverse_cells tr name t s n HB HT HS SH tf (single r) d 1) as (TD & C); [rewrite <- L; apply single_table | exact H |].
    destruct (one_row d n TD) as (r' & -> & L'). exists r'. split; [reflexivity |]. split; [exact L' |].
    intros j Hj. apply (C 0%nat j); [lia | exact Hj].
  Qed.

  Lemma inverse_total tf tf' r r' d : length r = n -> length r' = n ->
    inverse_transform (Some tr) tf (single r) name true = Ok d ->
    exists d', inverse_transform (Some tr) tf' (single r') name true = Ok d'.
  Proof.
    intros L L' H. destruct (inverse_success tr name tf (single r) (single r') d H) as (_ & X); [| apply X].
    cbn. congruence.
  Qed.

  Lemma transform_single r d : length r = n -> transform (Some tr) (single r) name true = Ok d ->
    exists r', d = single r' /\ length r' = n /\
      forall j, (j < n)%nat -> nth j r' 0 = (log_in t j (nth j r 0) - mean_at s j) / dev_at tr s j.
  Proof.
    intros L H. destruct (transform_cells tr name t s n HB HT HS SH (single r) d 1) as (TD & C); [rewrite <- L; apply single_table | exact H |].
    destruct (one_row d n TD) as (r' & -> & L'). exists r'. split; [reflexivity |]. split; [exact L' |].
    intros j Hj. apply (C 0%nat j); [lia | exact Hj].
  Qed.

  Lemma log_exp i y : log_in t i (exp_out t false i y) = y.
  Proof.
    unfold log_in, exp_out. destruct (logged t i); [| reflexivity]. cbn [andb].
    replace (1 + (exp y - 1)) with (exp y) by ring. apply ln_exp.
  Qed.

  Lemma exp_out_inside i y : (logged t i = true -> mixed t = true -> -60 <= y <= 60) -> exp_out t true i y = exp_out t false i y.
  Proof.
    intros H. unfold exp_out. cbn [andb]. destruct (logged t i); [| reflexivity]. destruct (mixed t); [| reflexivity].
    rewrite clip_id by (apply H; reflexivity). reflexivity.
  Qed.

  (** What the loss function is evaluated at for a point of the scan *)
  Lemma scan_parameters is_tf r i v res : length r = n -> (i < n)%nat ->
    inverse_transform (Some tr) is_tf (single r) name true = Ok (single res) -> length res = n ->
    let x := exp_out t false i (v * dev_at tr s i + mean_at s i) in
    Inside t (put i x res) -> 
    inverse_transform (Some tr) true (single (put i v r)) name true = Ok (single (put i x res)).
  Proof.
    intros L Hi H LR x IN.
    destruct (inverse_single is_tf r (single res) L H) as (res' & E & _ & C). injection E as _ <-.
    destruct (inverse_total is_tf true r (put i v r) (single res) L) as (d & D); [rewrite put_length; exact L | exact H |].
    rewrite D. f_equal. destruct (inverse_single true (put i v r) d ltac:(rewrite put_length; exact L) D) as (r' & -> & L' & C').
    f_equal. apply (nth_ext r' (put i x res) 0 0); [rewrite put_length; congruence |]. intros j Hj. rewrite L' in Hj.
    rewrite C', !put_nth by (try assumption; lia).
    assert (IJ : forall y, nth_error (put i x res) j = Some y -> logged t j = true -> mixed t = true -> -60 <= ln (1 + y) <= 60).
    { intros y Y LG MX. apply (IN (proj1 (mixed_spec t) MX) j y Y). apply (logged_spec t n j SH Hj). exact LG. }
    destruct (Nat.eqb_spec j i) as [-> | N].
    - apply exp_out_inside. intros LG MX. rewrite put_same in IJ by lia. specialize (IJ x eq_refl LG MX).
      pose proof (log_exp i (v * dev_at tr s i + mean_at s i)) as LE. fold x in LE. unfold log_in in LE. rewrite LG in LE. rewrite LE in IJ. exact IJ.
    - rewrite C by exact Hj. destruct is_tf; [reflexivity |]. apply exp_out_inside. intros LG MX.
      rewrite put_other in IJ by exact N. assert (HJ : (j < length res)%nat) by lia. specialize (IJ _ (nth_error_nth' res 0 HJ) LG MX). rewrite C in IJ by exact Hj.
      pose proof (log_exp j (nth j r 0 * dev_at tr s j + mean_at s j)) as LE. unfold log_in in LE. rewrite LG in LE. rewrite LE in IJ. exact IJ.
  Qed.

  Lemma same_parameters is_tf r res : length r = n ->
    inverse_transform (Some tr) is_tf (single r) name true = Ok (single res) -> length res = n -> Inside t res ->
    inverse_transform (Some tr) true (single r) name true = Ok (single res).
  Proof.
    intros L H LR IN. destruct (inverse_single is_tf r (single res) L H) as (res' & E & _ & C). injection E as _ <-.
    destruct (inverse_total is_tf true r r (single res) L L H) as (d & D). rewrite D. f_equal.
    destruct (inverse_single true r d L D) as (r' & -> & L' & C'). f_equal. apply (nth_ext r' res 0 0); [congruence |].
    intros j Hj. rewrite L' in Hj. rewrite C' by exact Hj. rewrite C by exact Hj. destruct is_tf; [reflexivity |]. apply exp_out_inside.
    intros LG MX. assert (HJ : (j < length res)%nat) by lia. specialize (IN (proj1 (mixed_spec t) MX) j _ (nth_error_nth' res 0 HJ) (proj1 (logged_spec t n j SH Hj) LG)).
    rewrite C in IN by exact Hj.
    pose proof (log_exp j (nth j r 0 * dev_at tr s j + mean_at s j)) as LE. unfold log_in in LE. rewrite LG in LE. rewrite LE in IN. exact IN.
  Qed.
End Cells.

(** ** Losses *)

Lemma loss_in_trafo tr name fit e params l : all_fitted fit = true ->
  loss_function (Some tr) name fit true e params = Ok l -> exists p, inverse_transform (Some tr) true params name true = Ok p /\
    total_loss (e_losses e) p = Ok l.
Proof.
  intros AF. unfold loss_function. destruct (list_eqb _ _ _); [| discriminate]. unfold parameter_loss, loss_parameters.
  rewrite AF. cbn [bind]. intros H. apply bind_ok in H. exact H.
Qed.

Lemma total_loss_at losses row l : total_loss losses (single row) = Ok l -> LossAt losses row l.
Proof. intros H. exact (total_loss_sum _ _ _ H). Qed.

(** ** The loop over the parameters *)

Lemma scans_ok tr name fit in_trafo template e tt rt truth res counter : forall ns i f f',
  scans tr name fit in_trafo template e tt rt truth res counter i ns f = (f', None) <->
  exists figs fs, Forall2 (fun j fig => scan tr name fit in_trafo e tt rt truth res j = Ok fig) (seq i (length ns)) figs /\
    Forall2 (fun n file => format template n counter = Ok file) ns fs /\
    f' = fold_left (fun acc kv => dset (fst kv) (snd kv) acc) (combine fs figs) f.
Proof.
  induction ns as [| n ns IH]; intros i f f'; cbn [scans length seq].
  - split; [intros H; injection H as <-; exists [], []; repeat split; constructor |].
    intros (figs & fs & F1 & F2 & ->). inversion F1; inversion F2; subst. reflexivity.
  - destruct (bind _ _) as [(file, fig) | x] eqn:E.
    + apply bind_ok in E. destruct E as (fig' & E1 & E). apply bind_ok in E. destruct E as (file' & E2 & E). injection E as -> ->.
      rewrite IH. split.
      * intros (figs & fs & F1 & F2 & ->). exists (fig :: figs), (file :: fs). repeat split; try (constructor; assumption).
      * intros (figs & fs & F1 & F2 & ->). inversion F1; subst. inversion F2; subst.
        assert (y = fig) by congruence. assert (y0 = file) by congruence. subst. eexists _, _. repeat split; [eassumption | eassumption].
    + split; [discriminate |]. intros (figs & fs & F1 & F2 & _). inversion F1 as [| j0 fig0 js0 figs0 S0 F1' E0 E1]; subst. inversion F2 as [| n0 file0 ns0 fs0 N0 F2' E0 E1]; subst.
      rewrite S0 in E. cbn [bind] in E. rewrite N0 in E. discriminate.
Qed.
