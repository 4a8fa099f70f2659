(** Theorems on likelihood scans (C177-C181). *)
From Coq Require Import Psatz DecimalString DecimalNat Decimal.
From Verif Require Import RList PyFacts PyStr PyStrFacts M_Trafo S_Trafo L_Trafo T_Trafo M_Opt M_Reco S_Reco L_Reco T_Reco
  M_Scan S_Scan L_Scan.

Lemma replaced_put row i x row' : Replaced row i x row' -> row' = put i x row.
Proof.
  intros (L & S & O). assert (Hi : (i < length row)%nat) by (rewrite <- L; apply nth_error_Some; congruence).
  apply nth_error_ext_R; [rewrite put_length; exact L |]. intros j y H. destruct (Nat.eq_dec j i) as [-> | N].
  - rewrite put_same by exact Hi. congruence.
  - rewrite put_other by exact N. rewrite <- O by exact N. exact H.
Qed.

(** ** C177: what is drawn *)

Section Figure.
  Variables (tr : trafo) (name : string) (t : tinfo) (n : nat) (fit : list bool).
  Hypothesis RD : Ready tr name t n.
  Hypothesis AF : all_fitted fit = true.

  Lemma prepared e reco_key cov tt rt truth best : Table (e_truth e) n 1 ->
    (forall r b, dget reco_key (e_results e) = Some (Some (r, b)) -> exists m, Table r m (length (ar_rows r))) ->
    LogDomain t (e_truth e) -> prepare (Some tr) name reco_key cov e = Ok (tt, rt, truth, best) ->
    exists s row zt zr is_tf r', dget name (tr_data tr) = Some s /\ e_truth e = single row /\ length row = n /\ tt = single zt /\ length zt = n /\
      rt = single zr /\ length zr = n /\ truth = single row /\ best = single r' /\ length r' = n /\
      dget reco_key (e_results e) = Some (Some (rt, is_tf)) /\ inverse_transform (Some tr) is_tf rt name true = Ok best /\
      inverse_transform (Some tr) false tt name true = Ok truth /\
      (forall j, (j < n)%nat -> nth j zt 0 = (log_in t j (nth j row 0) - mean_at s j) / dev_at tr s j) /\
      (forall k, cov = Some k -> dget k (e_results e) <> None).
  Proof.
    intros TT TR LD H. destruct RD as (HB & HT & SH). unfold prepare in H.
    destruct (dget reco_key (e_results e)) as [[(rt0, is_tf) |] |] eqn:ER; try discriminate. cbn [bind] in H.
    apply bind_ok in H. destruct H as ([] & EC & H). apply bind_ok in H. destruct H as (tt0 & ET & H).
    destruct (Nat.eqb_spec (length (ar_rows rt0)) 1) as [L1 | _]; [| discriminate]. cbn [negb] in H.
    destruct (Nat.eqb_spec (length (ar_rows tt0)) 1) as [L2 | _]; [| discriminate]. cbn [negb] in H.
    apply bind_ok in H. destruct H as (truth0 & E1 & H). apply bind_ok in H. destruct H as (best0 & E2 & H).
    injection H as -> -> -> ->. destruct (transform_known _ _ _ _ ET) as (s & HS).
    destruct (one_row _ _ TT) as (row & ETR & LR). rewrite ETR in *.
    destruct (transform_single tr name t s n HB HT HS SH row tt LR ET) as (zt & -> & LZ & CZ).
    destruct (TR rt is_tf eq_refl) as (m & TM). rewrite L1 in TM. destruct (one_row _ _ TM) as (zr & -> & LZR).
    assert (LN : length zr = n).
    { apply inverse_ok in E2. destruct E2 as (t' & s' & T' & _ & SH' & _). assert (t' = t) by congruence. subst t'.
      cbn in SH'. rewrite SH in SH'. congruence. }
    destruct (inverse_single tr name t s n HB HT HS SH is_tf zr best LN E2) as (r' & -> & LR' & _).
    destruct (inverse_single tr name t s n HB HT HS SH false zt truth LZ E1) as (row' & ER' & LRW & CR).
    assert (row' = row).
    { apply (nth_ext row' row 0 0); [congruence |]. intros j Hj. rewrite LRW in Hj. rewrite CR, CZ by exact Hj.
      rewrite (round_cell tr name t s n HB HT HS SH) by exact Hj. apply exp_log; [| discriminate].
      intros LG. apply (LD row j); [left; reflexivity | apply nth_error_nth'; lia | apply (logged_spec t n j SH Hj), LG]. }
    subst row' truth.
    exists s, row, zt, zr, is_tf, r'. repeat split; try assumption; try reflexivity.
    intros k ->. destruct (dget k (e_results e)); [discriminate | discriminate EC].
  Qed.

  Lemma scan_shows e s row zt zr is_tf r' i fig : dget name (tr_data tr) = Some s -> length row = n -> length zt = n -> length zr = n -> length r' = n ->
    inverse_transform (Some tr) is_tf (single zr) name true = Ok (single r') ->
    inverse_transform (Some tr) false (single zt) name true = Ok (single row) ->
    (forall j, (j < n)%nat -> nth j zt 0 = (log_in t j (nth j row 0) - mean_at s j) / dev_at tr s j) ->
    scan (Some tr) name fit true e (single zt) (single zr) (single row) (single r') i = Ok fig ->
    Shows tr name t (e_losses e) row r' i (f_points fig) (f_level_truth fig) (f_level_reco fig) (f_truth fig) (f_reco fig).
  Proof.
    intros HS L1 L2 L3 L4 IR IT CZ H. pose proof RD as (HB & HT & SH). unfold scan in H.
    apply bind_ok in H. destruct H as (z0 & E0 & H). apply entry_single in E0.
    assert (Hi : (i < n)%nat) by (rewrite <- L2; apply nth_error_Some; congruence).
    apply bind_ok in H. destruct H as (points & EP & H). apply bind_ok in H. destruct H as (lt & ELT & H).
    apply bind_ok in H. destruct H as (lr & ELR & H). apply bind_ok in H. destruct H as (x & EX & H).
    apply bind_ok in H. destruct H as (y & EY & H). injection H as <-. cbn [f_points f_level_truth f_level_reco f_truth f_reco].
    apply entry_single in EX, EY. apply collect_ok in EP. split; [exact EX |]. split; [exact EY |].
    split.
    { intros LG. apply (logged_spec t n i SH Hi) in LG.
      destruct (inverse_single tr name t s n HB HT HS SH is_tf zr _ L3 IR) as (r1 & E1 & _ & C1). injection E1 as _ <-.
      rewrite <- (nth_error_nth r' i 0 EY), C1 by exact Hi. unfold exp_out. rewrite LG.
      match goal with |- _ < exp ?a - 1 => pose proof (exp_pos a); lra end. }
    destruct (loss_in_trafo _ _ _ _ _ _ AF ELT) as (p1 & P1 & T1). destruct (loss_in_trafo _ _ _ _ _ _ AF ELR) as (p2 & P2 & T2).
    split. { intros IN. rewrite (same_parameters tr name t s n HB HT HS SH false zt row L2 IT L1 IN) in P1. injection P1 as <-. apply total_loss_at, T1. }
    split. { intros IN. rewrite (same_parameters tr name t s n HB HT HS SH is_tf zr r' L3 IR L4 IN) in P2. injection P2 as <-. apply total_loss_at, T2. }
    split.
    { rewrite <- (all2_length EP) , linspace_length. rewrite INR_IZR_INZ, Z2Nat.id by lia. reflexivity. }
    pose proof (dev_pos tr name t s n HB HT HS SH i Hi) as DP.
    exists z0. split.
    { apply (scaled_iff tr name t s n HB HT HS SH i x z0 Hi). rewrite <- (nth_error_nth zt i 0 E0), CZ by exact Hi.
      rewrite (nth_error_nth row i 0 EX). field. lra. }
    intros k xk ltk lbk N. 
    assert (Hk : (k < Z.to_nat 1000)%nat).
    { rewrite <- (linspace_length (z0 - 1) (z0 + 1) (Z.to_nat 1000)), (all2_length EP). apply nth_error_Some. congruence. }
    set (v := z0 - 1 + INR k * 2 / 999).
    assert (PT : scan_point (Some tr) name fit true e (single zt) (single zr) i v = Ok (xk, ltk, lbk)).
    { destruct (all2_nth _ _ _ EP k _ N) as (v' & NV & PV). rewrite linspace_nth, thousand in NV by exact Hk.
      injection NV as <-. replace v with (z0 - 1 + INR k * ((z0 + 1 - (z0 - 1)) / 999)) by (unfold v; field). exact PV. }
    clear - PT RD AF HS L1 L2 L3 L4 IR IT Hi DP HB HT SH. unfold scan_point in PT.
    apply bind_ok in PT. destruct PT as (q1 & Q1 & PT). apply set_entry_single in Q1. destruct Q1 as (_ & ->).
    apply bind_ok in PT. destruct PT as (lr & ELR & PT).
    apply bind_ok in PT. destruct PT as (q2 & Q2 & PT). apply set_entry_single in Q2. destruct Q2 as (_ & ->).
    apply bind_ok in PT. destruct PT as (lt & ELT & PT). apply bind_ok in PT. destruct PT as (p & EP & PT).
    apply bind_ok in PT. destruct PT as (x & EX & PT). injection PT as -> -> ->.
    assert (LP : length (put i v zt) = n) by (rewrite put_length; exact L2).
    destruct (inverse_single tr name t s n HB HT HS SH false _ p LP EP) as (pr & -> & LPR & CP). apply entry_single in EX.
    assert (XV : xk = exp_out t false i (v * dev_at tr s i + mean_at s i)).
    { rewrite <- (nth_error_nth pr i 0 EX), CP by exact Hi. rewrite (nth_error_nth _ i 0 (put_same v zt i ltac:(lia))). reflexivity. }
    split. { apply (scaled_iff tr name t s n HB HT HS SH i xk v Hi). rewrite XV, log_exp. ring. }
    split.
    { intros LG. apply (logged_spec t n i SH Hi) in LG. rewrite XV. unfold exp_out. rewrite LG. cbn [andb].
      pose proof (exp_pos (v * dev_at tr s i + mean_at s i)). lra. }
    destruct (loss_in_trafo _ _ _ _ _ _ AF ELT) as (p1 & P1 & T1). destruct (loss_in_trafo _ _ _ _ _ _ AF ELR) as (p2 & P2 & T2).
    split; intros row' RP IN; apply replaced_put in RP; subst row'; rewrite XV in IN |- *.
    - rewrite (scan_parameters tr name t s n HB HT HS SH false zt i v row L2 Hi IT L1 IN) in P1. injection P1 as <-. apply total_loss_at, T1.
    - rewrite (scan_parameters tr name t s n HB HT HS SH is_tf zr i v r' L3 Hi IR L4 IN) in P2. injection P2 as <-. apply total_loss_at, T2.
  Qed.
End Figure.

(** A scan that succeeds writes one figure per parameter, which shows the loss
    around the truth. *)
Theorem C177_figures tr name t n fit template reco_key cov names e counter f f' c' : Ready tr name t n -> all_fitted fit = true ->
  Table (e_truth e) n 1 -> LogDomain t (e_truth e) ->
  (forall r b, dget reco_key (e_results e) = Some (Some (r, b)) -> exists m, Table r m (length (ar_rows r))) ->
  execute (Some tr) name fit true template reco_key cov names e counter f = (f', c', None) ->
  c' = S counter /\
  exists rt is_tf truth best figs fs, dget reco_key (e_results e) = Some (Some (rt, is_tf)) /\
    e_truth e = single truth /\ inverse_transform (Some tr) is_tf rt name true = Ok (single best) /\
    length figs = length names /\ Forall2 (fun p file => format template p counter = Ok file) names fs /\
    f' = fold_left (fun acc kv => dset (fst kv) (snd kv) acc) (List.combine fs figs) f /\
    forall i fig, nth_error figs i = Some fig ->
      Shows tr name t (e_losses e) truth best i (f_points fig) (f_level_truth fig) (f_level_reco fig) (f_truth fig) (f_reco fig).
Proof.
  intros RD AF TT LD TR H. unfold execute in H. destruct (prepare _ _ _ _ e) as [(((tt & rt) & truth) & best) | x] eqn:EP; [| discriminate].
  destruct (scans _ _ _ _ _ _ _ _ _ _ _ _ _ _) as (f1, [x |]) eqn:ES; [discriminate |]. injection H as <- <-. split; [reflexivity |].
  destruct (prepared tr name t n RD e reco_key cov tt rt truth best TT TR LD EP)
    as (s & row & zt & zr & is_tf & r' & HS & ETR & L1 & -> & L2 & -> & L3 & -> & -> & L4 & ER & IR & IT & CZ & _).
  apply scans_ok in ES. destruct ES as (figs & fs & F1 & F2 & ->).
  exists (single zr), is_tf, row, r', figs, fs. split; [exact ER |]. split; [exact ETR |]. split; [exact IR |].
  split; [rewrite <- (all2_length F1), seq_length; reflexivity |]. split; [exact F2 |]. split; [reflexivity |].
  intros i fig N. destruct (all2_nth _ _ _ F1 i fig N) as (j & NJ & SC).
  assert (Hi : (i < length names)%nat) by (rewrite <- (seq_length (length names) 0); apply nth_error_Some; congruence).
  rewrite (nth_error_nth' _ 0%nat) in NJ by (rewrite seq_length; exact Hi). rewrite seq_nth in NJ by exact Hi. injection NJ as <-.
  exact (scan_shows tr name t n fit RD AF e s row zt zr is_tf r' i fig HS L1 L2 L3 L4 IR IT CZ SC).
Qed.

(** When it succeeds. *)
Lemma total_loss_total losses p : losses <> [] -> (forall m, In m losses -> exists v, m p = Ok v) -> exists l, total_loss losses p = Ok l.
Proof.
  intros NE H. destruct losses as [| m ms]; [congruence |]. unfold total_loss. destruct (H m (or_introl eq_refl)) as (v & ->).
  assert (H' : forall m, In m ms -> exists v, m p = Ok v) by (intros; apply H; right; assumption). clear H NE. revert v.
  induction ms as [| m' ms IH]; intros v; cbn [fold_left]; [eexists; reflexivity |].
  destruct (H' m' (or_introl eq_refl)) as (w & ->). cbn [bind]. apply IH. intros; apply H'; right; assumption.
Qed.

Lemma format_total template p c : (forall x, ~ In (Field x) template) -> exists s, format template p c = Ok s.
Proof.
  induction template as [| q ts IH]; intros H; cbn [format]; [eexists; reflexivity |].
  destruct IH as (r & R); [intros x I; apply (H x); right; exact I |].
  destruct q; cbn [bind]; rewrite ?R; try (eexists; reflexivity). destruct (H name); left; reflexivity.
Qed.

Definition Total (losses : list (array -> result R)) (n : nat) : Prop :=
  losses <> [] /\ forall m row, In m losses -> length row = n -> exists v, m (single row) = Ok v.

Lemma loss_total tr name t n fit (in_trafo : bool) e row d : Ready tr name t n -> all_fitted fit = true -> length fit = n ->
  inverse_transform (Some tr) false (single row) name true = Ok d ->
  Total (e_losses e) n -> length row = n -> exists l, loss_function (Some tr) name fit in_trafo e (single row) = Ok l.
Proof.
  intros (HB & HT & SH) AF LF ID (NE & TL) L. unfold loss_function. rewrite (all_fitted_num fit AF), LF. cbn [ar_shape single].
  rewrite L, list_eqb_nat_refl. unfold parameter_loss, loss_parameters. rewrite AF. cbn [bind].
  assert (HS : exists s, dget name (tr_data tr) = Some s).
  { apply inverse_ok in ID. destruct ID as (_ & s & _ & HS & _). exists s. exact HS. }
  destruct HS as (s & HS). destruct in_trafo.
  - destruct (inverse_total tr name t n SH false true row row d L L ID) as (p & P). rewrite P. cbn [bind].
    destruct (inverse_single tr name t s n HB HT HS SH true row p L P) as (r' & -> & L' & _).
    apply total_loss_total; [exact NE |]. intros m I. apply TL; assumption.
  - cbn [bind]. apply total_loss_total; [exact NE |]. intros m I. apply TL; assumption.
Qed.

Theorem C177_succeeds tr name t n fit (in_trafo : bool) template reco_key cov names e counter f rt is_tf d :
  Ready tr name t n -> all_fitted fit = true -> length fit = n -> Table (e_truth e) n 1 ->
  transform (Some tr) (e_truth e) name true = Ok d ->
  dget reco_key (e_results e) = Some (Some (rt, is_tf)) -> Table rt n 1 ->
  (forall k, cov = Some k -> dget k (e_results e) <> None) ->
  Total (e_losses e) n -> (length names <= n)%nat -> (forall x, ~ In (Field x) template) ->
  exists f', execute (Some tr) name fit in_trafo template reco_key cov names e counter f = (f', S counter, None).
Proof.
  intros RD AF LF TT ET ER TR CV TL LN NF. pose proof RD as (HB & HT & SH). unfold execute, prepare. rewrite ER. cbn [bind].
  replace (match cov with Some k => match dget k (e_results e) with Some _ => Ok tt | None => Err KeyError end | None => Ok tt end) with (Ok tt).
  2:{ destruct cov as [k |]; [| reflexivity]. specialize (CV k eq_refl). destruct (dget k (e_results e)); [reflexivity | congruence]. }
  cbn [bind]. rewrite ET. cbn [bind]. destruct (transform_known _ _ _ _ ET) as (s & HS).
  destruct (one_row _ _ TT) as (row & ETR & LR). rewrite ETR in ET.
  destruct (transform_single tr name t s n HB HT HS SH row d LR ET) as (zt & -> & LZ & _).
  destruct (one_row _ _ TR) as (zr & -> & LZR). cbn [single ar_rows length Nat.eqb negb].
  change {| ar_shape := [length zt]; ar_rows := [zt] |} with (single zt). change {| ar_shape := [length zr]; ar_rows := [zr] |} with (single zr).
  destruct (transform_success tr name (single row) (single zt) _ ET) as (_ & X1); [cbn; congruence |].
  destruct (transform_success tr name (single row) (single zr) _ ET) as (_ & X2); [cbn; congruence |].
  destruct (X1 false) as (d1 & D1). destruct (X2 is_tf) as (d2 & D2). rewrite D1. cbn [bind]. rewrite D2. cbn [bind].
  destruct (inverse_single tr name t s n HB HT HS SH false zt d1 LZ D1) as (r1 & -> & L1 & _).
  destruct (inverse_single tr name t s n HB HT HS SH is_tf zr d2 LZR D2) as (r2 & -> & L2 & _).
  assert (IA : forall r, length r = n -> exists r', inverse_transform (Some tr) false (single r) name true = Ok (single r') /\ length r' = n).
  { intros r L. destruct (inverse_total tr name t n SH false false zt r _ LZ L D1) as (q & Q).
    destruct (inverse_single tr name t s n HB HT HS SH false r q L Q) as (r' & -> & L' & _). exists r'. auto. }
  assert (LA : forall r, length r = n -> exists l, loss_function (Some tr) name fit in_trafo e (single r) = Ok l).
  { intros r L. destruct (IA r L) as (r' & Q & _). exact (loss_total tr name t n fit in_trafo e r _ RD AF LF Q TL L). }
  assert (SC : forall i, (i < n)%nat -> exists fig, scan (Some tr) name fit in_trafo e (single zt) (single zr) (single r1) (single r2) i = Ok fig).
  { intros i Hi. unfold scan.
    assert (EN : forall r, length r = n -> exists x, entry (single r) i = Ok x).
    { intros r L. exists (nth i r 0). apply entry_single, nth_error_nth'. lia. }
    destruct (EN zt LZ) as (z0 & ->). cbn [bind].
    destruct (collect_total (scan_point (Some tr) name fit in_trafo e (single zt) (single zr) i) (linspace (z0 - 1) (z0 + 1) (Z.to_nat 1000))) as (ps & ->).
    { intros v _. unfold scan_point.
      assert (SE : forall r, length r = n -> set_entry (single r) i v = Ok (single (put i v r))) by (intros r L; apply set_entry_single; split; [lia | reflexivity]).
      rewrite (SE zr LZR), (SE zt LZ). cbn [bind]. destruct (LA (put i v zr)) as (l1 & ->); [rewrite put_length; exact LZR |].
      cbn [bind]. destruct (LA (put i v zt)) as (l2 & ->); [rewrite put_length; exact LZ |]. cbn [bind].
      destruct (IA (put i v zt)) as (r' & -> & L'); [rewrite put_length; exact LZ |]. cbn [bind].
      destruct (EN r' L') as (x & ->). eexists. reflexivity. }
    cbn [bind]. destruct (LA zt LZ) as (l1 & ->). destruct (LA zr LZR) as (l2 & ->). cbn [bind].
    destruct (EN r1 L1) as (x1 & ->). destruct (EN r2 L2) as (x2 & ->). eexists. reflexivity. }
  assert (SL : forall ns i f, (i + length ns <= n)%nat -> exists f', scans (Some tr) name fit in_trafo template e (single zt) (single zr) (single r1) (single r2) counter i ns f = (f', None)).
  { induction ns as [| p ns IH]; intros i f0 Hi; cbn [scans length] in *; [eexists; reflexivity |].
    destruct (SC i ltac:(lia)) as (fig & ->). destruct (format_total template p counter NF) as (file & F). cbn [bind]. rewrite F. cbn [bind].
    apply IH. lia. }
  destruct (SL names 0%nat f LN) as (f' & ->). exists f'. reflexivity.
Qed.

(** ** C178: scans that are refused *)

Lemma num_fitted_lt fit : all_fitted fit = false -> (num_fitted fit < length fit)%nat.
Proof.
  unfold all_fitted, num_fitted. assert (LE : forall l : list bool, (length (filter (fun b => b) l) <= length l)%nat).
  { induction l as [| [|] l IH]; cbn; lia. }
  induction fit as [| [|] fit IH]; cbn; [discriminate | intros H; specialize (IH H); lia |]. intros _. specialize (LE fit). lia.
Qed.

(** Nothing is drawn if a parameter is held, whatever the fit returned. *)
Theorem C178_held tr name fit (in_trafo : bool) template reco_key cov names e counter f i :
  Held fit i -> Table (e_truth e) (length fit) 1 -> names <> [] ->
  exists x, execute (Some tr) name fit in_trafo template reco_key cov names e counter f = (f, counter, Some x).
Proof.
  intros HF TT NN. unfold execute. destruct (prepare _ _ _ _ e) as [(((tt & rt) & truth) & best) | x] eqn:EP; [| exists x; reflexivity].
  destruct names as [| p names]; [congruence |]. cbn [scans].
  assert (SE : exists x, scan (Some tr) name fit in_trafo e tt rt truth best 0 = Err x).
  2:{ destruct SE as (x & ->). exists x. reflexivity. }
  unfold prepare in EP. destruct (dget reco_key (e_results e)) as [[(rt0, is_tf) |] |] eqn:ER; try discriminate. cbn [bind] in EP.
  apply bind_ok in EP. destruct EP as ([] & _ & EP). apply bind_ok in EP. destruct EP as (tt0 & ET & EP).
  destruct (Nat.eqb_spec (length (ar_rows rt0)) 1) as [L1 | _]; [| discriminate]. cbn [negb] in EP.
  destruct (Nat.eqb_spec (length (ar_rows tt0)) 1) as [L2 | _]; [| discriminate]. cbn [negb] in EP.
  apply bind_ok in EP. destruct EP as (truth0 & E1 & EP). apply bind_ok in EP. destruct EP as (best0 & E2 & EP). injection EP as -> -> -> ->.
  assert (SH : ar_shape rt = [length fit]).
  { apply inverse_ok in E2. destruct E2 as (t2 & s2 & T2 & _ & S2 & _). apply transform_ok in ET. destruct ET as (t1 & s1 & T1 & _ & S1 & _).
    destruct TT as (TS & _). congruence. }
  pose proof (num_fitted_lt fit (held_not_all fit i HF)) as LT.
  assert (LF : forall a, ar_shape a = [length fit] -> loss_function (Some tr) name fit in_trafo e a = Err ValueError).
  { intros a SA. unfold loss_function. rewrite SA. cbn [list_eqb]. destruct (Nat.eqb_spec (length fit) (num_fitted fit)); [lia | reflexivity]. }
  unfold scan. destruct (entry tt 0) as [z0 | x]; cbn [bind]; [| exists x; reflexivity].
  change (linspace (z0 - 1) (z0 + 1) (Z.to_nat 1000)) with
    ((z0 - 1 + INR 0 * ((z0 + 1 - (z0 - 1)) / INR (Z.to_nat 1000 - 1))) ::
     map (fun k => z0 - 1 + INR k * ((z0 + 1 - (z0 - 1)) / INR (Z.to_nat 1000 - 1))) (seq 1 (Z.to_nat 999))).
  cbn [collect]. unfold scan_point at 1. destruct (set_entry rt 0 _) as [q | x] eqn:Q; [| exists x; reflexivity]. cbn [bind].
  assert (SQ : ar_shape q = [length fit]).
  { unfold set_entry in Q. destruct (ar_rows rt); [discriminate |]. destruct (Nat.ltb _ _); [| discriminate]. injection Q as <-. exact SH. }
  rewrite (LF q SQ). exists ValueError. reflexivity.
Qed.

(** Only batches of one event are accepted. *)
Theorem C178_events tr name fit (in_trafo : bool) template reco_key cov names e counter f rt is_tf d :
  transform (Some tr) (e_truth e) name true = Ok d -> dget reco_key (e_results e) = Some (Some (rt, is_tf)) ->
  (forall k, cov = Some k -> dget k (e_results e) <> None) ->
  (length (ar_rows (e_truth e)) <> 1%nat \/ length (ar_rows rt) <> 1%nat) ->
  execute (Some tr) name fit in_trafo template reco_key cov names e counter f = (f, counter, Some AssertionError).
Proof.
  intros ET ER CV LN. unfold execute, prepare. rewrite ER. cbn [bind].
  replace (match cov with Some k => match dget k (e_results e) with Some _ => Ok tt | None => Err KeyError end | None => Ok tt end) with (Ok tt).
  2:{ destruct cov as [k |]; [| reflexivity]. specialize (CV k eq_refl). destruct (dget k (e_results e)); [reflexivity | congruence]. }
  cbn [bind]. rewrite ET. cbn [bind].
  assert (LD : length (ar_rows d) = length (ar_rows (e_truth e))).
  { apply transform_ok in ET. destruct ET as (t & s & _ & _ & _ & _ & ->). cbn. apply map_length. }
  rewrite LD. destruct (Nat.eqb_spec (length (ar_rows rt)) 1) as [A | A]; cbn [negb]; [| reflexivity].
  destruct (Nat.eqb_spec (length (ar_rows (e_truth e))) 1) as [B | B]; cbn [negb]; [| reflexivity]. destruct LN; contradiction.
Qed.

(** Results that are looked up but missing; covariances are not drawn. *)
Theorem C178_results tr name fit (in_trafo : bool) template reco_key cov names e counter f :
  (dget reco_key (e_results e) = None -> 
     execute tr name fit in_trafo template reco_key cov names e counter f = (f, counter, Some KeyError)) /\
  (forall k rt, cov = Some k -> dget reco_key (e_results e) = Some (Some rt) -> dget k (e_results e) = None ->
     execute tr name fit in_trafo template reco_key cov names e counter f = (f, counter, Some KeyError)) /\
  (forall k, cov = Some k -> dget k (e_results e) <> None ->
     execute tr name fit in_trafo template reco_key cov names e counter f =
     execute tr name fit in_trafo template reco_key None names e counter f).
Proof.
  unfold execute, prepare. split; [intros ->; reflexivity |]. split.
  - intros k (rt, b) -> -> ->. reflexivity.
  - intros k -> H. destruct (dget k (e_results e)) eqn:E; [reflexivity | congruence].
Qed.

(** ** C179: the range of the scan *)

(** The figure of a parameter, in the file none of the later parameters shares. *)
Lemma kept_after {A} (fs : list string) (vs : list A) f i file v :
  nth_error fs i = Some file -> nth_error vs i = Some v -> (forall j, nth_error fs j = Some file -> (j <= i)%nat) ->
  dget file (fold_left (fun acc kv => dset (fst kv) (snd kv) acc) (List.combine fs vs) f) = Some v.
Proof.
  revert vs f i. induction fs as [| g fs IH]; intros [| w vs] f [| i] N1 N2 L; try discriminate.
  - cbn in N1, N2. injection N1 as ->. injection N2 as ->. cbn [List.combine fold_left fst snd].
    assert (NI : ~ In file fs).
    { intros I. apply In_nth_error in I. destruct I as (j & J). specialize (L (S j) J). lia. }
    assert (K : forall l (d : dict A), (forall kv, In kv l -> In (fst kv) fs) ->
              dget file (fold_left (fun acc kv => dset (fst kv) (snd kv) acc) l d) = dget file d).
    { induction l as [| kv l IHl]; intros d H; cbn [fold_left]; [reflexivity |].
      rewrite IHl by (intros; apply H; right; assumption). apply dget_dset_other. intros ->. apply NI, H. left. reflexivity. }
    rewrite K. { apply dget_dset_same. } intros (k, x) I. apply in_combine_l in I. exact I.
  - cbn in N1, N2. cbn [List.combine fold_left]. apply (IH vs _ i); try assumption. intros j J. specialize (L (S j) J). lia.
Qed.

Definition LastTo (template : list piece) (names : list string) (counter i : nat) (file : string) : Prop :=
  (exists p, nth_error names i = Some p /\ format template p counter = Ok file) /\
  forall j q, nth_error names j = Some q -> format template q counter = Ok file -> (j <= i)%nat.

Lemma figure_of tr name t n fit template reco_key cov names e counter f f' c' i file : Ready tr name t n -> all_fitted fit = true ->
  Table (e_truth e) n 1 -> LogDomain t (e_truth e) ->
  (forall r b, dget reco_key (e_results e) = Some (Some (r, b)) -> exists m, Table r m (length (ar_rows r))) ->
  execute (Some tr) name fit true template reco_key cov names e counter f = (f', c', None) -> LastTo template names counter i file ->
  exists rt is_tf truth best fig, dget reco_key (e_results e) = Some (Some (rt, is_tf)) /\
    e_truth e = single truth /\ inverse_transform (Some tr) is_tf rt name true = Ok (single best) /\
    dget file f' = Some fig /\
    Shows tr name t (e_losses e) truth best i (f_points fig) (f_level_truth fig) (f_level_reco fig) (f_truth fig) (f_reco fig).
Proof.
  intros RD AF TT LD TR H ((p & NP & FP) & LT).
  destruct (C177_figures _ _ _ _ _ _ _ _ _ _ _ _ _ _ RD AF TT LD TR H) as (_ & rt & is_tf & truth & best & figs & fs & E1 & E2 & E3 & LF & F2 & -> & SHW).
  assert (Hi : (i < length names)%nat) by (apply nth_error_Some; congruence).
  destruct (nth_error figs i) as [fig |] eqn:NF; [| apply nth_error_None in NF; lia].
  exists rt, is_tf, truth, best, fig. split; [exact E1 |]. split; [exact E2 |]. split; [exact E3 |]. split; [| apply SHW, NF].
  assert (FS : forall j g, nth_error fs j = Some g -> exists q, nth_error names j = Some q /\ format template q counter = Ok g).
  { intros j g N. exact (all2_nth _ _ _ F2 j g N). }
  destruct (nth_error fs i) as [g |] eqn:NG.
  2:{ apply nth_error_None in NG. rewrite <- (all2_length F2) in NG. lia. }
  destruct (FS i g NG) as (q & NQ & FQ). assert (q = p) by congruence. subst q. assert (g = file) by congruence. subst g.
  apply (kept_after fs figs f i); try assumption.
  intros j J. destruct (FS j file J) as (q & NQ' & FQ'). exact (LT j q NQ' FQ').
Qed.

Section Range.
  Variables (tr : trafo) (name : string) (t : tinfo) (n : nat).
  Hypothesis RD : Ready tr name t n.

  Lemma scaled_known i x z : Scaled tr name i x z -> exists s, dget name (tr_data tr) = Some s /\ (i < n)%nat.
  Proof.
    intros (t' & s & m & d & y & T & S & M & _). exists s. split; [exact S |]. destruct RD as (HB & HT & SH).
    destruct (stats_facts tr name t s n HB HT S SH) as (L1 & _). rewrite <- L1. apply nth_error_Some. congruence.
  Qed.

  Lemma scaled_lt i x z x' z' : Scaled tr name i x z -> Scaled tr name i x' z' -> (Logged t i -> -1 < x) -> (Logged t i -> -1 < x') ->
    (x < x' <-> z < z').
  Proof.
    intros H H' D D'. destruct (scaled_known i x z H) as (s & HS & Hi). pose proof RD as (HB & HT & SH).
    apply (scaled_iff tr name t s n HB HT HS SH i _ _ Hi) in H, H'. pose proof (dev_pos tr name t s n HB HT HS SH i Hi) as DP.
    assert (E : z < z' <-> log_in t i x < log_in t i x').
    { split; intros L.
      - apply (Rmult_lt_compat_r _ _ _ DP) in L. lra.
      - apply (Rmult_lt_reg_r _ _ _ DP). lra. }
    rewrite E. unfold log_in. pose proof (logged_spec t n i SH Hi) as LS. destruct (logged t i); [| reflexivity].
    specialize (D (proj1 LS eq_refl)). specialize (D' (proj1 LS eq_refl)). split; intros L.
    - apply ln_increasing; lra.
    - apply ln_lt_inv in L; lra.
  Qed.

  Lemma scaled_le i x z x' z' : Scaled tr name i x z -> Scaled tr name i x' z' -> (Logged t i -> -1 < x) -> (Logged t i -> -1 < x') ->
    (x <= x' <-> z <= z').
  Proof.
    intros H H' D D'. pose proof (scaled_lt i x' z' x z H' H D' D) as E. split; intros L.
    - destruct (Rle_lt_dec z z') as [A | A]; [exact A |]. apply E in A. lra.
    - destruct (Rle_lt_dec x x') as [A | A]; [exact A |]. apply E in A. lra.
  Qed.
End Range.

Theorem C179_range tr name t n fit template reco_key cov names e counter f f' c' i file : Ready tr name t n -> all_fitted fit = true ->
  Table (e_truth e) n 1 -> LogDomain t (e_truth e) ->
  (forall r b, dget reco_key (e_results e) = Some (Some (r, b)) -> exists m, Table r m (length (ar_rows r))) ->
  execute (Some tr) name fit true template reco_key cov names e counter f = (f', c', None) -> LastTo template names counter i file ->
  exists fig z0 first last, dget file f' = Some fig /\ Scaled tr name i (f_truth fig) z0 /\
    PointAt (f_points fig) 0 first /\ PointAt (f_points fig) (Z.to_nat 999) last /\
    first < f_truth fig < last /\
    (forall k k' x x', PointAt (f_points fig) k x -> PointAt (f_points fig) k' x' -> (k < k')%nat -> x < x') /\
    (forall k x z, PointAt (f_points fig) k x -> Scaled tr name i x z -> 1 / 999 <= Rabs (z - z0) <= 1) /\
    (forall z, Scaled tr name i (f_reco fig) z -> (first <= f_reco fig <= last <-> Rabs (z - z0) <= 1)).
Proof.
  intros RD AF TT LD TR H LT. pose proof RD as (HB & HT & SH).
  destruct (figure_of tr name t n fit template reco_key cov names e counter f f' c' i file RD AF TT LD TR H LT)
    as (rt & is_tf & truth & best & fig & _ & ETR & _ & DF & NT & NB & DB & _ & _ & LEN & z0 & S0 & PTS).
  assert (LE : length (f_points fig) = Z.to_nat 1000).
  { apply INR_eq. rewrite LEN, INR_IZR_INZ, Z2Nat.id by lia. reflexivity. }
  assert (K9 : INR (Z.to_nat 999) = 999) by (rewrite INR_IZR_INZ, Z2Nat.id by lia; reflexivity).
  assert (EX : forall k, (k < Z.to_nat 1000)%nat -> exists x, PointAt (f_points fig) k x).
  { intros k Hk. destruct (nth_error (f_points fig) k) as [((x, lt), lb) |] eqn:E; [exists x, lt, lb; exact E |].
    apply nth_error_None in E. lia. }
  assert (BD : forall k x, PointAt (f_points fig) k x -> (k <= Z.to_nat 999)%nat).
  { intros k x (lt & lb & N). assert (k < Z.to_nat 1000)%nat by (rewrite <- LE; apply nth_error_Some; congruence). lia. }
  assert (PT : forall k x, PointAt (f_points fig) k x -> Scaled tr name i x (z0 - 1 + INR k * 2 / 999) /\ (Logged t i -> -1 < x)).
  { intros k x (lt & lb & N). destruct (PTS k x lt lb N) as (A & B & _). split; assumption. }
  assert (D0 : Logged t i -> -1 < f_truth fig).
  { intros LG. apply (LD truth i); [rewrite ETR; left; reflexivity | exact NT | exact LG]. }
  destruct (EX 0%nat ltac:(lia)) as (first & PF). destruct (EX (Z.to_nat 999) ltac:(lia)) as (last & PL).
  destruct (PT _ _ PF) as (SF & DF0). destruct (PT _ _ PL) as (SL & DL0). rewrite K9 in SL. cbn [INR] in SF.
  exists fig, z0, first, last. split; [exact DF |]. split; [exact S0 |]. split; [exact PF |]. split; [exact PL |]. split; [split |]; [| | split; [| split]].
  - apply (scaled_lt tr name t n RD i _ _ _ _ SF S0 DF0 D0). lra.
  - apply (scaled_lt tr name t n RD i _ _ _ _ S0 SL D0 DL0). lra.
  - intros k k' x x' P P' L. destruct (PT _ _ P) as (A & B). destruct (PT _ _ P') as (A' & B').
    apply (scaled_lt tr name t n RD i _ _ _ _ A A' B B'). apply lt_INR in L. lra.
  - intros k x z P SZ. destruct (PT _ _ P) as (A & _). destruct (scaled_known tr name t n RD i x z SZ) as (s & HS & Hi).
    rewrite (scaled_unique tr name t s n HB HT HS SH i x _ _ Hi SZ A).
    replace (z0 - 1 + INR k * 2 / 999 - z0) with ((INR k * 2 - 999) / 999) by field.
    pose proof (le_INR _ _ (BD k x P)) as U. rewrite K9 in U. pose proof (pos_INR k) as U0.
    destruct (Nat.le_gt_cases k (Z.to_nat 499)) as [C | C].
    + apply le_INR in C. rewrite (INR_IZR_INZ (Z.to_nat 499)), Z2Nat.id in C by lia. rewrite Rabs_left by lra. lra.
    + assert (C' : (Z.to_nat 500 <= k)%nat) by lia. apply le_INR in C'. rewrite (INR_IZR_INZ (Z.to_nat 500)), Z2Nat.id in C' by lia.
      rewrite Rabs_right by lra. lra.
  - intros z SZ. rewrite (scaled_le tr name t n RD i _ _ _ _ SF SZ DF0 DB), (scaled_le tr name t n RD i _ _ _ _ SZ SL DB DL0).
    split; intros L; [apply Rabs_le; lra |]. unfold Rabs in L. destruct (Rcase_abs (z - z0)); lra.
Qed.

(** *** The transformation of the examples: its second parameter has mean 3 *)

Definition ex_loss (a : array) : result R := match ar_rows a with r :: _ => Ok (nth 1 r 0) | [] => Err IndexError end.
Definition ex_event (rt : list R) : event_data :=
  {| e_truth := single [0; 3]; e_seed := single [0; 3]; e_losses := [ex_loss]; e_results := [("reco", Some (single rt, false))] |}.
Definition ex_names : list string := ["a"; "b"].
Definition ex_template : list piece := scan_template [Text "out"].

Lemma ex_total rt n : Total (e_losses (ex_event rt)) n.
Proof. split; [discriminate |]. intros m row [<- | []] _. eexists. reflexivity. Qed.

Lemma ex_domain rt : LogDomain ex_t (e_truth (ex_event rt)).
Proof.
  intros row i x [<- | []] N L. destruct i as [| [| i]]; cbn in N; [injection N as <-; lra | | destruct i; discriminate].
  injection N as <-. lra.
Qed.

Example scan_trafo : exists tr s zt, Ready tr "x" ex_t 2 /\ dget "x" (tr_data tr) = Some s /\ ~ Logged ex_t 1 /\
  transform (Some tr) (single [0; 3]) "x" true = Ok (single zt) /\ length zt = 2%nat /\ nth 1 zt 0 = 0 /\ mean_at s 1 = 3 /\ 0 < dev_at tr s 1.
Proof.
  destruct trafo_ex as (tr & HC & B & WF & HT & _ & _ & L1 & d & E). assert (SH : ti_shape ex_t = [2%nat]) by reflexivity.
  destruct (C22_no_reduction None ex_ts _ ex_bs 2 tr 1 "x" ex_t HC WF eq_refl eq_refl eq_refl ltac:(discriminate) eq_refl) as (s & HS & ST).
  destruct (ST 1%nat [1; 5]) as (M & _); [cbn; lia | |].
  { repeat constructor; [exists 1 | exists 5]; (split; [reflexivity |]; split; [intros; contradiction | reflexivity]). }
  destruct (transform_success tr "x" _ (single [0; 3]) d E eq_refl) as ((d' & E') & _).
  destruct (transform_single tr "x" ex_t s 2 B HT HS SH [0; 3] d' eq_refl E') as (zt & -> & LZ & CZ).
  assert (MA : mean_at s 1 = 3).
  { unfold mean_at. rewrite (nth_error_nth _ _ 0 M). unfold pop_mean. cbn. field. }
  exists tr, s, zt. split; [split; [exact B | split; [exact HT | reflexivity]] |]. split; [exact HS |]. split; [exact L1 |]. split; [exact E' |]. split; [exact LZ |].
  assert (LF : logged ex_t 1 = false) by (destruct (logged ex_t 1) eqn:LE; [apply (logged_spec ex_t 2 1 SH ltac:(lia)) in LE; contradiction | reflexivity]).
  split; [| split; [exact MA | apply (dev_pos tr "x" ex_t s 2 B HT HS SH); lia]].
  rewrite CZ by lia. unfold log_in. rewrite LF, MA. cbn [nth]. unfold Rdiv. ring.
Qed.

Lemma ex_table rt : Table (e_truth (ex_event rt)) 2 1.
Proof. split; [reflexivity |]. split; [reflexivity |]. repeat constructor. Qed.

Lemma ex_runs tr zt (in_trafo : bool) rt counter f : Ready tr "x" ex_t 2 -> transform (Some tr) (single [0; 3]) "x" true = Ok (single zt) -> length rt = 2%nat ->
  exists f', execute (Some tr) "x" [true; true] in_trafo ex_template "reco" None ex_names (ex_event rt) counter f = (f', S counter, None).
Proof.
  intros RD ET L. apply (C177_succeeds tr "x" ex_t 2 [true; true] in_trafo ex_template "reco" None ex_names (ex_event rt) counter f (single rt) false (single zt));
    try assumption; try reflexivity.
  - apply ex_table.
  - split; [cbn; congruence |]. split; [reflexivity |]. constructor; [exact L | constructor].
  - intros k; discriminate.
  - apply ex_total.
  - intros x I. cbn in I. intuition discriminate.
Qed.

Lemma ex_tables rt r b : dget "reco" (e_results (ex_event rt)) = Some (Some (r, b)) -> exists m, Table r m (length (ar_rows r)).
Proof. intros H. cbn in H. injection H as <- _. exists (length rt). split; [reflexivity |]. split; [reflexivity |]. constructor; [reflexivity | constructor]. Qed.

Lemma ex_last counter i p : nth_error ex_names i = Some p ->
  exists file, format ex_template p counter = Ok file /\ LastTo ex_template ex_names counter i file.
Proof.
  intros N. destruct (format_total ex_template p counter) as (file & F); [intros x I; cbn in I; intuition discriminate |].
  exists file. split; [exact F |]. split; [exists p; split; assumption |].
  intros j q NQ FQ. assert (q = p) as ->.
  { assert (E : format ex_template q counter = format ex_template p counter) by congruence.
    cbn in E. injection E as E. apply append_inj_l in E. injection E as E. rewrite !append_nil_r in E. exact E. }
  destruct j as [| [| [|]]], i as [| [| [|]]]; cbn in N, NQ; try discriminate; try lia; congruence.
Qed.

(** The best fit need not be in the figure: all points may lie on one side. *)
Theorem C179_best_fit_refuted : exists tr e f' c' file fig, Ready tr "x" ex_t 2 /\ Table (e_truth e) 2 1 /\ LogDomain ex_t (e_truth e) /\
  execute (Some tr) "x" [true; true] true ex_template "reco" None ex_names e 0 [] = (f', c', None) /\
  format ex_template "b" 0 = Ok file /\ dget file f' = Some fig /\
  forall k x, PointAt (f_points fig) k x -> x < f_reco fig.
Proof.
  destruct scan_trafo as (tr & s & zt & RD & HS & NL & ET & LZ & Z1 & MA & DP). pose proof RD as (HB & HT & SH).
  destruct (ex_runs tr zt true [0; 2] 0%nat [] RD ET eq_refl) as (f' & EX).
  destruct (ex_last 0%nat 1%nat "b" eq_refl) as (file & FF & LT).
  destruct (figure_of tr "x" ex_t 2 [true; true] ex_template "reco" None ex_names (ex_event [0; 2]) 0 [] f' 1 1 file RD eq_refl (ex_table [0; 2]) (ex_domain [0; 2]) (ex_tables [0; 2]) EX LT)
    as (rt & is_tf & truth & best & fig & ER & ETR & IR & DF & NT & NB & _ & _ & _ & LEN & z0 & S0 & PTS).
  cbn in ER. injection ER as <- <-. assert (TE : truth = [0; 3]) by (injection ETR; intros; congruence). subst truth.
  exists tr, (ex_event [0; 2]), f', 1%nat, file, fig. split; [exact RD |]. split; [apply ex_table |]. split; [apply ex_domain |]. split; [exact EX |].
  split; [exact FF |]. split; [exact DF |]. intros k x (lt & lb & N). destruct (PTS k x lt lb N) as (SX & _ & _).
  assert (HK : INR k <= 999).
  { assert (L : (k < length (f_points fig))%nat) by (apply nth_error_Some; congruence). apply Nat.le_succ_l, le_INR in L. rewrite LEN, S_INR in L. lra. }
  destruct (inverse_single tr "x" ex_t s 2 HB HT HS SH false [0; 2] _ eq_refl IR) as (r' & E' & _ & CR). injection E' as _ <-.
  apply (scaled_iff tr "x" ex_t s 2 HB HT HS SH 1 _ _ ltac:(lia)) in SX, S0.
  assert (LF : logged ex_t 1 = false) by (destruct (logged ex_t 1) eqn:LE; [apply (logged_spec ex_t 2 1 SH ltac:(lia)) in LE; contradiction | reflexivity]).
  unfold log_in in SX, S0. rewrite LF in SX, S0. rewrite <- (nth_error_nth best 1 0 NB), CR by lia. unfold exp_out. rewrite LF. cbn [nth].
  cbn in NT. injection NT as NT. rewrite <- NT, MA in S0. rewrite MA in SX |- *.
  assert (z0 = 0). { apply (Rmult_eq_reg_r (dev_at tr s 1)); lra. } subst z0.
  replace x with ((0 - 1 + INR k * 2 / 999) * dev_at tr s 1 + 3) by lra.
  apply Rplus_lt_compat_r, Rmult_lt_compat_r; [exact DP |]. lra.
Qed.

(** ** C180: fits in the original space *)

(** The figure of a parameter in that case.  [best] is what the fit returned. *)
Theorem C180_original_space tr name t n fit template reco_key cov names e counter f f' c' i file : Ready tr name t n -> all_fitted fit = true ->
  Table (e_truth e) n 1 -> LogDomain t (e_truth e) ->
  (forall r b, dget reco_key (e_results e) = Some (Some (r, b)) -> exists m, Table r m (length (ar_rows r))) ->
  execute (Some tr) name fit false template reco_key cov names e counter f = (f', c', None) -> LastTo template names counter i file ->
  exists truth ztruth best is_tf unscaled fig, dget reco_key (e_results e) = Some (Some (single best, is_tf)) /\ e_truth e = single truth /\
    dget file f' = Some fig /\
    ShowsUntransformed tr name (e_losses e) truth ztruth best i (f_points fig) (f_level_truth fig) (f_level_reco fig) (f_truth fig) /\
    inverse_transform (Some tr) is_tf (single best) name true = Ok (single unscaled) /\ nth_error unscaled i = Some (f_reco fig).
Proof.
  intros RD AF TT LD TR H ((p & NP & FP) & LT). pose proof RD as (HB & HT & SH). unfold execute in H.
  destruct (prepare _ _ _ _ e) as [(((tt & rt) & truth) & best) | x] eqn:EP; [| discriminate].
  destruct (scans _ _ _ _ _ _ _ _ _ _ _ _ _ _) as (f1, [x |]) eqn:ES; [discriminate |]. injection H as <- <-.
  destruct (prepared tr name t n RD e reco_key cov tt rt truth best TT TR LD EP)
    as (s & row & zt & zr & is_tf & r' & HS & ETR & L1 & -> & L2 & -> & L3 & -> & -> & L4 & ER & IR & IT & CZ & _).
  apply scans_ok in ES. destruct ES as (figs & fs & F1 & F2 & ->).
  assert (Hn : (i < length names)%nat) by (apply nth_error_Some; congruence).
  destruct (nth_error figs i) as [fig |] eqn:NF; [| apply nth_error_None in NF; rewrite <- (all2_length F1), seq_length in NF; lia].
  destruct (all2_nth _ _ _ F1 i fig NF) as (j & NJ & SC).
  rewrite (nth_error_nth' _ 0%nat) in NJ by (rewrite seq_length; exact Hn). rewrite seq_nth in NJ by exact Hn. injection NJ as <-. cbn [Nat.add] in SC.
  exists row, zt, zr, is_tf, r', fig. split; [exact ER |]. split; [exact ETR |]. split.
  { assert (FS : forall j g, nth_error fs j = Some g -> exists q, nth_error names j = Some q /\ format template q counter = Ok g).
    { intros j g N. exact (all2_nth _ _ _ F2 j g N). }
    destruct (nth_error fs i) as [g |] eqn:NG; [| apply nth_error_None in NG; rewrite <- (all2_length F2) in NG; lia].
    destruct (FS i g NG) as (q & NQ & FQ). assert (q = p) by congruence. subst q. assert (g = file) by congruence. subst g.
    apply (kept_after fs figs f i); try assumption. intros j J. destruct (FS j file J) as (q & NQ' & FQ'). exact (LT j q NQ' FQ'). }
  clear F1 F2 EP NF. unfold scan in SC.
  apply bind_ok in SC. destruct SC as (z0 & E0 & SC). apply entry_single in E0.
  assert (Hi : (i < n)%nat) by (rewrite <- L2; apply nth_error_Some; congruence).
  apply bind_ok in SC. destruct SC as (points & EP & SC). apply bind_ok in SC. destruct SC as (lt & ELT & SC).
  apply bind_ok in SC. destruct SC as (lr & ELR & SC). apply bind_ok in SC. destruct SC as (x & EX & SC).
  apply bind_ok in SC. destruct SC as (y & EY & SC). injection SC as <-. cbn [f_points f_level_truth f_level_reco f_truth f_reco].
  apply entry_single in EX, EY. apply collect_ok in EP. split; [| split; [exact IR | exact EY]].
  assert (LO : forall q l, loss_function (Some tr) name fit false e (single q) = Ok l -> LossAt (e_losses e) q l).
  { intros q l. unfold loss_function. destruct (list_eqb _ _ _); [| discriminate]. unfold parameter_loss, loss_parameters. rewrite AF. cbn [bind].
    apply total_loss_at. }
  split; [exact EX |]. split; [congruence |]. split.
  { intros j xj zj NX NZ. assert (Hj : (j < n)%nat) by (rewrite <- L1; apply nth_error_Some; congruence).
    apply (scaled_iff tr name t s n HB HT HS SH j xj zj Hj). rewrite <- (nth_error_nth zt j 0 NZ), CZ by exact Hj. rewrite (nth_error_nth row j 0 NX).
    pose proof (dev_pos tr name t s n HB HT HS SH j Hj). field. lra. }
  split; [apply LO, ELT |]. split; [apply LO, ELR |]. split.
  { rewrite <- (all2_length EP), linspace_length. rewrite INR_IZR_INZ, Z2Nat.id by lia. reflexivity. }
  exists z0. split; [exact E0 |]. intros k xk ltk lbk N.
  assert (Hk : (k < Z.to_nat 1000)%nat).
  { rewrite <- (linspace_length (z0 - 1) (z0 + 1) (Z.to_nat 1000)), (all2_length EP). apply nth_error_Some. congruence. }
  cbv zeta. set (v := z0 - 1 + INR k * 2 / 999).
  assert (PT : scan_point (Some tr) name fit false e (single zt) (single zr) i v = Ok (xk, ltk, lbk)).
  { destruct (all2_nth _ _ _ EP k _ N) as (v' & NV & PV). rewrite linspace_nth, thousand in NV by exact Hk.
    injection NV as <-. replace v with (z0 - 1 + INR k * ((z0 + 1 - (z0 - 1)) / 999)) by (unfold v; field). exact PV. }
  clear - PT LO HB HT HS SH L2 L3 Hi. unfold scan_point in PT.
  apply bind_ok in PT. destruct PT as (q1 & Q1 & PT). apply set_entry_single in Q1. destruct Q1 as (_ & ->).
  apply bind_ok in PT. destruct PT as (lr & ELR & PT).
  apply bind_ok in PT. destruct PT as (q2 & Q2 & PT). apply set_entry_single in Q2. destruct Q2 as (_ & ->).
  apply bind_ok in PT. destruct PT as (lt & ELT & PT). apply bind_ok in PT. destruct PT as (p & EP & PT).
  apply bind_ok in PT. destruct PT as (x & EX & PT). injection PT as -> -> ->.
  assert (LP : length (put i v zt) = n) by (rewrite put_length; exact L2).
  destruct (inverse_single tr name t s n HB HT HS SH false _ p LP EP) as (pr & -> & LPR & CP). apply entry_single in EX.
  assert (XV : xk = exp_out t false i (v * dev_at tr s i + mean_at s i)).
  { rewrite <- (nth_error_nth pr i 0 EX), CP by exact Hi. rewrite (nth_error_nth _ i 0 (put_same v zt i ltac:(lia))). reflexivity. }
  split. { apply (scaled_iff tr name t s n HB HT HS SH i xk v Hi). rewrite XV, log_exp. ring. }
  split; intros row' RP; apply replaced_put in RP; subst row'; apply LO; assumption.
Qed.

(** The level drawn for the truth is not the loss at the truth, and the line of
    the best fit is not at the best fit. *)
Theorem C180_truth_refuted : exists tr e f' c' file fig, Ready tr "x" ex_t 2 /\ Table (e_truth e) 2 1 /\ LogDomain ex_t (e_truth e) /\
  execute (Some tr) "x" [true; true] false ex_template "reco" None ex_names e 0 [] = (f', c', None) /\
  format ex_template "b" 0 = Ok file /\ dget file f' = Some fig /\
  e_truth e = single [0; 3] /\ dget "reco" (e_results e) = Some (Some (single [0; 3], false)) /\
  LossAt (e_losses e) [0; 3] 3 /\ f_level_truth fig = 0 /\ f_level_reco fig = 3 /\ f_truth fig = 3 /\ 3 < f_reco fig.
Proof.
  destruct scan_trafo as (tr & s & zt & RD & HS & NL & ET & LZ & Z1 & MA & DP). pose proof RD as (HB & HT & SH).
  destruct (ex_runs tr zt false [0; 3] 0%nat [] RD ET eq_refl) as (f' & EX).
  destruct (ex_last 0%nat 1%nat "b" eq_refl) as (file & FF & LT).
  destruct (C180_original_space tr "x" ex_t 2 [true; true] ex_template "reco" None ex_names (ex_event [0; 3]) 0 [] f' 1 1 file RD eq_refl
    (ex_table [0; 3]) (ex_domain [0; 3]) (ex_tables [0; 3]) EX LT)
    as (truth & ztruth & best & is_tf & un & fig & ER & ETR & DF & SHW & IR & NU). 
  assert (BE : best = [0; 3] /\ is_tf = false) by (cbn in ER; unfold single in ER; injection ER; intros; split; congruence). destruct BE as (-> & ->).
  assert (TE : truth = [0; 3]) by (injection ETR; intros; congruence). subst truth. destruct SHW as (NT & LZT & SCZ & (_ & vt & FT & VT) & (_ & vb & FB & VB) & _).
  cbn in NT. injection NT as NT. exists tr, (ex_event [0; 3]), f', 1%nat, file, fig. split; [exact RD |]. split; [apply ex_table |]. split; [apply ex_domain |]. split; [exact EX |].
  split; [exact FF |]. split; [exact DF |]. split; [reflexivity |]. split; [reflexivity |].
  assert (LA : LossAt (e_losses (ex_event [0; 3])) [0; 3] 3).
  { split; [discriminate |]. exists [3]. split; [constructor; [reflexivity | constructor] |]. cbn. ring. }
  split; [exact LA |].
  assert (LF : logged ex_t 1 = false) by (destruct (logged ex_t 1) eqn:LE; [apply (logged_spec ex_t 2 1 SH ltac:(lia)) in LE; contradiction | reflexivity]).
  destruct (inverse_single tr "x" ex_t s 2 HB HT HS SH false [0; 3] _ eq_refl IR) as (r' & E' & _ & CR). injection E' as _ <-.
  inversion FT as [| m1 v1 ms1 vs1 E1 F1]; subst. inversion F1; subst. inversion FB as [| m2 v2 ms2 vs2 E2 F2]; subst. inversion F2; subst.
  cbn in E1, E2. injection E1 as E1. injection E2 as E2.
  cbn in LZT. destruct ztruth as [| za [| zb [|]]]; try discriminate LZT. cbn in E1.
  specialize (SCZ 1%nat 3 zb eq_refl eq_refl). apply (scaled_iff tr "x" ex_t s 2 HB HT HS SH 1 _ _ ltac:(lia)) in SCZ.
  unfold log_in in SCZ. rewrite LF, MA in SCZ.
  split; [rewrite VT; cbn; subst v1; assert (zb = 0) by (apply (Rmult_eq_reg_r (dev_at tr s 1)); lra); lra |]. split; [rewrite VB; cbn; lra |]. split; [congruence |].
  rewrite <- (nth_error_nth un 1 0 NU), CR by lia. unfold exp_out. rewrite LF, MA. cbn [nth]. lra.
Qed.

(** ** C181: the files *)

(** *** Names of files *)

Lemma str_of_nat_inj a b : str_of_nat a = str_of_nat b -> a = b.
Proof.
  intros H. unfold str_of_nat in H. apply (f_equal NilEmpty.uint_of_string) in H. rewrite !NilEmpty.usu in H. injection H as H.
  apply (f_equal Nat.of_uint) in H. rewrite !DecimalNat.Unsigned.of_to in H. exact H.
Qed.

Lemma padded_inj w a b : padded w a = padded w b -> a = b.
Proof.
  unfold padded. unfold str_of_nat. intros H.
  pose proof (uint_of_string_zeros (w - String.length (NilEmpty.string_of_uint (Nat.to_uint a))) _ _ (NilEmpty.usu (Nat.to_uint a))) as H1.
  pose proof (uint_of_string_zeros (w - String.length (NilEmpty.string_of_uint (Nat.to_uint b))) _ _ (NilEmpty.usu (Nat.to_uint b))) as H2.
  rewrite H in H1. rewrite H1 in H2. injection H2 as H3.
  apply (f_equal Nat.of_uint) in H3. rewrite !of_uint_d0s, !DecimalNat.Unsigned.of_to in H3. exact H3.
Qed.

Lemma length_append a b : String.length (a ++ b) = (String.length a + String.length b)%nat.
Proof. induction a as [| c a IH]; cbn; [reflexivity |]. rewrite IH. reflexivity. Qed.

Lemma zeros_length k : String.length (zeros k) = k.
Proof. induction k as [| k IH]; cbn; [reflexivity |]. rewrite IH. reflexivity. Qed.

Lemma padded_length w a : String.length (padded w a) = Nat.max w (String.length (str_of_nat a)).
Proof. unfold padded. rewrite length_append, zeros_length. lia. Qed.

Lemma append_split a b x y : String.length a = String.length b -> (a ++ x)%string = (b ++ y)%string -> a = b /\ x = y.
Proof.
  revert b. induction a as [| c a IH]; intros [| d b] L E; cbn in L, E; try discriminate; [split; [reflexivity | exact E] |].
  injection E as -> E. destruct (IH b ltac:(lia) E) as (-> & ->). split; reflexivity.
Qed.

(** The text of a piece *)
Definition shown (p : piece) (parameter : string) (counter : nat) : string :=
  match p with Text s => s | ParamName => parameter | EventCounter w => padded w counter | Field _ => "" end.

Lemma format_cons q ts p c file : format (q :: ts) p c = Ok file ->
  exists r, format ts p c = Ok r /\ file = (shown q p c ++ r)%string.
Proof.
  cbn [format]. intros H. destruct q; cbn [bind] in H; try discriminate; apply bind_ok in H; destruct H as (r & R & H); injection H as <-; exists r; split; auto.
Qed.

(** If no piece is longer for one of two choices, equal names have equal pieces. *)
Lemma format_pieces ts p c q d : forall file,
  (forall k, In k ts -> (String.length (shown k p c) <= String.length (shown k q d))%nat) ->
  format ts p c = Ok file -> format ts q d = Ok file -> forall k, In k ts -> shown k p c = shown k q d.
Proof.
  assert (LL : forall ts f1 f2, (forall k, In k ts -> (String.length (shown k p c) <= String.length (shown k q d))%nat) ->
    format ts p c = Ok f1 -> format ts q d = Ok f2 -> (String.length f1 <= String.length f2)%nat).
  { clear ts. induction ts as [| k ts IH]; intros f1 f2 H E1 E2.
    - cbn in E1, E2. injection E1 as <-. injection E2 as <-. lia.
    - apply format_cons in E1, E2. destruct E1 as (r1 & R1 & ->), E2 as (r2 & R2 & ->). rewrite !length_append.
      specialize (IH r1 r2 (fun k I => H k (or_intror I)) R1 R2). specialize (H k (or_introl eq_refl)). lia. }
  induction ts as [| k ts IH]; intros file H E1 E2 k' I; [destruct I |].
  apply format_cons in E1, E2. destruct E1 as (r1 & R1 & E1), E2 as (r2 & R2 & E2). rewrite E2 in E1.
  pose proof (LL ts r1 r2 (fun k I => H k (or_intror I)) R1 R2) as L. pose proof (H k (or_introl eq_refl)) as L0.
  pose proof (f_equal String.length E1) as L1. rewrite !length_append in L1.
  destruct (append_split (shown k q d) (shown k p c) r2 r1 ltac:(lia) E1) as (A & ->).
  destruct I as [<- | I]; [symmetry; exact A |]. exact (IH r1 (fun k I => H k (or_intror I)) R1 R2 k' I).
Qed.

(** Figures of different events are in different files if the template has the
    counter, and figures of different parameters if it has the parameter. *)
Theorem C181_names template p q c d file : format template p c = Ok file -> format template q d = Ok file ->
  (p = q -> (exists w, In (EventCounter w) template) -> c = d) /\ (c = d -> In ParamName template -> p = q).
Proof.
  intros E1 E2. split.
  - intros <- (w & I). 
    destruct (Nat.le_ge_cases (String.length (str_of_nat c)) (String.length (str_of_nat d))) as [L | L].
    + apply (padded_inj w). apply (format_pieces template p c p d file) with (k := EventCounter w); try assumption.
      intros [s | | w' | x] _; cbn [shown]; try lia. rewrite !padded_length. lia.
    + symmetry. apply (padded_inj w). apply (format_pieces template p d p c file) with (k := EventCounter w); try assumption.
      intros [s | | w' | x] _; cbn [shown]; try lia. rewrite !padded_length. lia.
  - intros <- I. destruct (Nat.le_ge_cases (String.length p) (String.length q)) as [L | L].
    + apply (format_pieces template p c q c file) with (k := ParamName); try assumption. intros [s | | w' | x] _; cbn [shown]; lia.
    + symmetry. apply (format_pieces template q c p c file) with (k := ParamName); try assumption. intros [s | | w' | x] _; cbn [shown]; lia.
Qed.

(** With both in the template, figures may still share a file. *)
Theorem C181_clash_refuted : exists template p q c d file, In ParamName template /\ In (EventCounter 0) template /\
  p <> q /\ c <> d /\ format template p c = Ok file /\ format template q d = Ok file.
Proof.
  exists [ParamName; EventCounter 0], "x", "x1", 11%nat, 1%nat, "x11". split; [left; reflexivity |]. split; [right; left; reflexivity |].
  split; [discriminate |]. split; [discriminate |]. split; reflexivity.
Qed.

Fixpoint plain (s : string) : Prop := match s with EmptyString => True | String c r => c <> "_"%char /\ plain r end.

Lemma plain_split a b x y : plain a -> plain b -> (a ++ String "_" x)%string = (b ++ String "_" y)%string -> a = b /\ x = y.
Proof.
  revert b. induction a as [| c a IH]; intros [| d b] A B E; cbn in A, B, E; try (injection E as E0 E); try congruence.
  - split; congruence.
  - destruct B as (B & _). congruence.
  - destruct A as (A & _). congruence.
  - destruct A as (_ & A), B as (_ & B). destruct (IH b A B E) as (-> & ->). split; congruence.
Qed.

Lemma plain_append a b : plain a -> plain b -> plain (a ++ b).
Proof. induction a as [| c a IH]; cbn; intros A B; [exact B |]. destruct A as (N & A). split; [exact N | apply IH; assumption]. Qed.

Lemma plain_padded w n : plain (padded w n).
Proof.
  apply plain_append.
  - induction (w - _)%nat as [| k IH]; cbn; [exact I |]. split; [discriminate | exact IH].
  - unfold str_of_nat. induction (Nat.to_uint n); cbn; try exact I; (split; [discriminate | assumption]).
Qed.

(** With the template of the test reconstruction no two figures share a file. *)
Theorem C181_test_reconstruction base p q c d file : (forall k, In k base -> exists s, k = Text s) ->
  format (scan_template base) p c = Ok file -> format (scan_template base) q d = Ok file -> p = q /\ c = d.
Proof.
  unfold scan_template. revert file. induction base as [| k base IH]; intros file TX E1 E2.
  - cbn [app] in E1, E2.
    apply format_cons in E1, E2. destruct E1 as (r1 & R1 & E1), E2 as (r2 & R2 & E2). cbn [shown] in E1, E2. rewrite E2 in E1. apply append_inj_l in E1. subst r2.
    apply format_cons in R1, R2. destruct R1 as (t1 & R1 & E1), R2 as (t2 & R2 & E2'). cbn [shown] in E1, E2'. rewrite E2' in E1.
    cbn [format bind] in R1, R2. injection R1 as <-. injection R2 as <-. rewrite !append_nil_r in E1. rename E1 into E. symmetry in E.
    cbn [append] in E. apply plain_split in E; [| apply plain_padded | apply plain_padded]. destruct E as (A & ->). split; [reflexivity | exact (padded_inj _ _ _ A)].
  - rewrite <- app_comm_cons in E1, E2. apply format_cons in E1, E2. destruct E1 as (r1 & R1 & E1), E2 as (r2 & R2 & E2).
    destruct (TX k (or_introl eq_refl)) as (s & ->). cbn [shown] in E1, E2. rewrite E2 in E1. apply append_inj_l in E1. subst r2.
    apply (IH r1); try assumption. intros k I. apply TX. right. exact I.
Qed.

(** *** Sequences of events *)

(** A template with another field writes nothing. *)
Theorem C181_field tr name fit (in_trafo : bool) template reco_key cov names e counter f x : In (Field x) template -> names <> [] ->
  exists y, execute tr name fit in_trafo template reco_key cov names e counter f = (f, counter, Some y).
Proof.
  intros I NN. unfold execute. destruct (prepare _ _ _ _ e) as [(((tt & rt) & truth) & best) | y]; [| exists y; reflexivity].
  destruct names as [| p names]; [congruence |]. cbn [scans].
  assert (F : format template p counter = Err KeyError).
  { clear - I. induction template as [| k ts IH]; [destruct I |]. cbn [format]. destruct I as [-> | I]; [reflexivity |]. rewrite (IH I). destruct k; reflexivity. }
  rewrite F. destruct (scan _ _ _ _ _ _ _ _ _ _) as [fig | y]; [exists KeyError | exists y]; reflexivity.
Qed.

(** What one event adds to the files *)
Lemma execute_adds tr name fit (in_trafo : bool) template reco_key cov names e counter f f' c' :
  execute tr name fit in_trafo template reco_key cov names e counter f = (f', c', None) ->
  c' = S counter /\ exists g, execute tr name fit in_trafo template reco_key cov names e counter [] = (g, S counter, None) /\
    (forall file, dget file f' = match dget file g with Some fig => Some fig | None => dget file f end) /\
    forall file, dget file g <> None <-> exists p, In p names /\ format template p counter = Ok file.
Proof.
  unfold execute. destruct (prepare _ _ _ _ e) as [(((tt & rt) & truth) & best) | y]; [| discriminate].
  destruct (scans _ _ _ _ _ _ _ _ _ _ _ _ _ f) as (f1, [y |]) eqn:ES; [discriminate |]. intros H. injection H as <- <-. split; [reflexivity |].
  apply scans_ok in ES. destruct ES as (figs & fs & F1 & F2 & ->).
  assert (ES : scans tr name fit in_trafo template e tt rt truth best counter 0 names [] =
    (fold_left (fun acc kv => dset (fst kv) (snd kv) acc) (List.combine fs figs) [], None)).
  { apply scans_ok. exists figs, fs. split; [exact F1 |]. split; [exact F2 | reflexivity]. }
  rewrite ES. eexists. split; [reflexivity |].
  assert (LF : length fs = length figs) by (rewrite <- (all2_length F1), <- (all2_length F2), seq_length; reflexivity).
  assert (FN : forall file, In file fs <-> exists p, In p names /\ format template p counter = Ok file).
  { intros file. clear - F2. induction F2 as [| p g names fs E F2 IH]; [split; [intros [] | intros (p & [] & _)] |]. split.
    - intros [<- | I]; [exists p; split; [left; reflexivity | exact E] |]. apply IH in I. destruct I as (q & I & E'). exists q. split; [right; exact I | exact E'].
    - intros (q & [-> | I] & E'); [left; congruence |]. right. apply IH. exists q. split; assumption. }
  assert (K : forall (l : list (string * figure)) d d' file,
    (dget file d' = None -> dget file (fold_left (fun acc kv => dset (fst kv) (snd kv) acc) l d) =
      match dget file (fold_left (fun acc kv => dset (fst kv) (snd kv) acc) l d') with Some fig => Some fig | None => dget file d end) /\
    (forall v, dget file d' = Some v -> dget file d = Some v -> dget file (fold_left (fun acc kv => dset (fst kv) (snd kv) acc) l d) =
      dget file (fold_left (fun acc kv => dset (fst kv) (snd kv) acc) l d') /\
      dget file (fold_left (fun acc kv => dset (fst kv) (snd kv) acc) l d') <> None) /\
    (dget file (fold_left (fun acc kv => dset (fst kv) (snd kv) acc) l d') <> None <-> (dget file d' <> None \/ In file (map fst l)))).
  { induction l as [| (g, w) l IH]; intros d d' file; cbn [fold_left fst snd map].
    - split; [intros ->; reflexivity |]. split; [intros v A B; split; congruence |]. cbn. tauto.
    - specialize (IH (dset g w d) (dset g w d') file). destruct IH as (I1 & I2 & I3). destruct (string_dec file g) as [-> | N].
      + rewrite !dget_dset_same in *. destruct (I2 w eq_refl eq_refl) as (A & B).
        split; [intros _; rewrite A; destruct (dget g (fold_left _ l (dset g w d'))); [reflexivity | congruence] |].
        split; [intros; split; assumption |]. cbn. split; [intros _; right; left; reflexivity | intros _; exact B].
      + rewrite !dget_dset_other in * by exact N. split; [exact I1 |]. split; [exact I2 |]. rewrite I3. cbn. intuition congruence. }
  split.
  - intros file. destruct (K (List.combine fs figs) f [] file) as (A & _ & _). apply A. reflexivity.
  - intros file. destruct (K (List.combine fs figs) f [] file) as (_ & _ & A). rewrite A, <- FN. cbn.
    assert (MF : map fst (List.combine fs figs) = fs) by (clear - LF; revert figs LF; induction fs as [| a fs IH]; intros [| b figs] L; cbn in *; try discriminate; [reflexivity |]; rewrite IH by lia; reflexivity).
    rewrite MF. intuition congruence.
Qed.

(** The counter counts the events, and the files of an event are its own. *)
Theorem C181_run tr name fit (in_trafo : bool) template reco_key cov names es counter f f' c' :
  run tr name fit in_trafo template reco_key cov names es counter f = (f', c', None) ->
  c' = (counter + length es)%nat /\
  (forall file, dget file f' <> None <-> dget file f <> None \/
     exists k p, (k < length es)%nat /\ In p names /\ format template p (counter + k) = Ok file) /\
  forall k e file, nth_error es k = Some e ->
    (forall k' p, (k < k')%nat -> In p names -> format template p (counter + k') <> Ok file) ->
    (exists p, In p names /\ format template p (counter + k) = Ok file) ->
    exists g, execute tr name fit in_trafo template reco_key cov names e (counter + k) [] = (g, S (counter + k), None) /\ dget file f' = dget file g.
Proof.
  revert counter f. induction es as [| e es IH]; intros counter f H; cbn [run] in H.
  - injection H as <- <-. split; [cbn; lia |]. split.
    + intros file. split; [intros; left; assumption |]. intros [A | (k & p & A & _)]; [exact A | cbn in A; lia].
    + intros k e file N. destruct k; discriminate.
  - destruct (execute _ _ _ _ _ _ _ _ e counter f) as ((f1, c1), [y |]) eqn:E; [discriminate |].
    destruct (execute_adds _ _ _ _ _ _ _ _ _ _ _ _ _ E) as (-> & g & G & D & K).
    destruct (IH (S counter) f1 H) as (-> & F & L). split; [cbn [length]; lia |]. split.
    + intros file. rewrite F, D. specialize (K file). split.
      * intros [A | (k & p & A & B & C)].
        -- destruct (dget file g) eqn:DG; [right | left; exact A]. destruct (proj1 K ltac:(discriminate)) as (p & I & FP).
           exists 0%nat, p. rewrite Nat.add_0_r. split; [cbn; lia | split; assumption].
        -- right. exists (S k), p. split; [cbn; lia |]. split; [exact B |]. rewrite <- C. f_equal. lia.
      * intros [A | (k & p & A & B & C)]; [left; destruct (dget file g); [discriminate | exact A] |]. destruct k as [| k].
        -- left. rewrite Nat.add_0_r in C. assert (NG : dget file g <> None) by (apply K; exists p; split; assumption).
           destruct (dget file g); [discriminate | congruence].
        -- right. exists k, p. split; [cbn in A; lia |]. split; [exact B |]. rewrite <- C. f_equal. lia.
    + intros k e' file N LATE (p & I & FP). destruct k as [| k].
      * cbn in N. injection N as <-. rewrite Nat.add_0_r in *. exists g. split; [exact G |].
        assert (NG : dget file g <> None) by (apply K; exists p; split; assumption).
        assert (KEEP : forall es c f0 f2 c2, run tr name fit in_trafo template reco_key cov names es c f0 = (f2, c2, None) ->
          (forall k' p, (c <= k')%nat -> In p names -> format template p k' <> Ok file) -> dget file f2 = dget file f0).
        { clear. induction es as [| e es IH]; intros c f0 f2 c2 H NF; cbn [run] in H; [injection H as <- <-; reflexivity |].
          destruct (execute _ _ _ _ _ _ _ _ e c f0) as ((f1, c1), [y |]) eqn:E; [discriminate |].
          destruct (execute_adds _ _ _ _ _ _ _ _ _ _ _ _ _ E) as (-> & g & _ & D & K).
          rewrite (IH (S c) f1 f2 c2 H) by (intros; apply NF; [lia | assumption]). rewrite D.
          destruct (dget file g) eqn:DG; [| reflexivity]. destruct (proj1 (K file) ltac:(congruence)) as (p & I & FP).
          destruct (NF c p (Nat.le_refl c) I FP). }
        rewrite (KEEP es (S counter) f1 f' _ H), D.
        -- destruct (dget file g); [reflexivity | congruence].
        -- intros k' q L' I' E'. apply (LATE (k' - counter)%nat q); [lia | exact I' |]. rewrite <- E'. f_equal. lia.
      * cbn in N. destruct (L k e' file N) as (g' & G' & D').
        -- intros k' q L' I' E'. apply (LATE (S k') q); [lia | exact I' |]. rewrite <- E'. f_equal. lia.
        -- exists p. split; [exact I |]. rewrite <- FP. f_equal. lia.
        -- exists g'. replace (counter + S k)%nat with (S counter + k)%nat by lia. split; assumption.
Qed.

(** With the template of the test reconstruction every figure is kept. *)
Theorem C181_kept tr name fit (in_trafo : bool) base reco_key cov names es counter f f' c' k e p : (forall q, In q base -> exists s, q = Text s) ->
  run tr name fit in_trafo (scan_template base) reco_key cov names es counter f = (f', c', None) ->
  nth_error es k = Some e -> In p names ->
  exists g file, execute tr name fit in_trafo (scan_template base) reco_key cov names e (counter + k) [] = (g, S (counter + k), None) /\
    format (scan_template base) p (counter + k) = Ok file /\ dget file g <> None /\ dget file f' = dget file g.
Proof.
  intros TX H N I. destruct (C181_run _ _ _ _ _ _ _ _ _ _ _ _ _ H) as (_ & _ & L).
  destruct (format_total (scan_template base) p (counter + k)) as (file & F).
  { intros x IX. unfold scan_template in IX. apply in_app_or in IX. destruct IX as [IX | IX]; [destruct (TX _ IX); discriminate |]. cbn in IX. intuition discriminate. }
  destruct (L k e file N) as (g & G & D).
  - intros k' q L' I' E'. destruct (C181_test_reconstruction base p q _ _ file TX F E') as (_ & E). lia.
  - exists p. split; assumption.
  - exists g, file. split; [exact G |]. split; [exact F |]. split; [| exact D].
    destruct (execute_adds _ _ _ _ _ _ _ _ _ _ _ _ _ G) as (_ & g' & G' & _ & K). rewrite G in G'. injection G' as <-. apply K. exists p. split; assumption.
Qed.

(** Without the counter only the figures of the last event remain. *)
Theorem C181_overwritten tr name fit (in_trafo : bool) template reco_key cov names es e counter f f' c' : (forall w, ~ In (EventCounter w) template) ->
  run tr name fit in_trafo template reco_key cov names (es ++ [e]) counter f = (f', c', None) ->
  exists g c'', execute tr name fit in_trafo template reco_key cov names e (counter + length es) [] = (g, c'', None) /\
    forall file, dget file f' = match dget file g with Some fig => Some fig | None => dget file f end.
Proof.
  intros NC. assert (FC : forall p c d, format template p c = format template p d).
  { intros p c d. clear - NC. induction template as [| k ts IH]; cbn [format]; [reflexivity |]. rewrite IH by (intros w I; apply (NC w); right; exact I).
    destruct k; try reflexivity. destruct (NC width). left. reflexivity. }
  revert counter f. induction es as [| e0 es IH]; intros counter f H; cbn [app run] in H.
  - destruct (execute _ _ _ _ _ _ _ _ e counter f) as ((f1, c1), [y |]) eqn:E; [discriminate |]. injection H as <- <-.
    destruct (execute_adds _ _ _ _ _ _ _ _ _ _ _ _ _ E) as (-> & g & G & D & _). exists g, (S counter). cbn [length]. rewrite Nat.add_0_r. split; assumption.
  - destruct (execute _ _ _ _ _ _ _ _ e0 counter f) as ((f1, c1), [y |]) eqn:E; [discriminate |].
    destruct (execute_adds _ _ _ _ _ _ _ _ _ _ _ _ _ E) as (-> & g0 & _ & D0 & K0).
    destruct (IH (S counter) f1 H) as (g & c'' & G & D). exists g, c''. cbn [length]. replace (counter + S (length es))%nat with (S counter + length es)%nat by lia.
    split; [exact G |]. intros file. rewrite D. destruct (dget file g) eqn:DG; [reflexivity |]. rewrite D0.
    destruct (dget file g0) eqn:DG0; [| reflexivity]. exfalso. destruct (proj1 (K0 file) ltac:(congruence)) as (p & I & FP).
    destruct (execute_adds _ _ _ _ _ _ _ _ _ _ _ _ _ G) as (_ & g' & G' & _ & K).
    assert (g' = g) by (destruct (execute_adds _ _ _ _ _ _ _ _ _ _ _ _ _ G) as (-> & _); congruence). subst g'.
    apply (proj2 (K file)); [| exact DG]. exists p. split; [exact I |]. rewrite <- FP. apply FC.
Qed.

(** Without the parameter only the figure of the last parameter remains. *)
Theorem C181_last_parameter tr name t n fit template reco_key cov names p e counter f f' c' : Ready tr name t n -> all_fitted fit = true ->
  Table (e_truth e) n 1 -> LogDomain t (e_truth e) ->
  (forall r b, dget reco_key (e_results e) = Some (Some (r, b)) -> exists m, Table r m (length (ar_rows r))) ->
  ~ In ParamName template -> execute (Some tr) name fit true template reco_key cov (names ++ [p]) e counter f = (f', c', None) ->
  exists file fig truth best, dget file f' = Some fig /\ (forall g, g <> file -> dget g f' = dget g f) /\
    Shows tr name t (e_losses e) truth best (length names) (f_points fig) (f_level_truth fig) (f_level_reco fig) (f_truth fig) (f_reco fig).
Proof.
  intros RD AF TT LD TR NP H.
  assert (FC : forall q r c, format template q c = format template r c).
  { intros q r c. clear - NP. induction template as [| k ts IH]; cbn [format]; [reflexivity |]. rewrite (IH (fun I => NP (or_intror I))).
    destruct k; try reflexivity. destruct NP. left. reflexivity. }
  destruct (execute_adds _ _ _ _ _ _ _ _ _ _ _ _ _ H) as (-> & g & G & D & K).
  destruct (C177_figures _ _ _ _ _ _ _ _ _ _ _ _ _ _ RD AF TT LD TR H) as (_ & _ & _ & _ & _ & _ & fs & _ & _ & _ & _ & F2 & _).
  assert (FP : exists file, format template p counter = Ok file).
  { clear - F2 FC. destruct names as [| q names]; inversion F2; subst; eexists; [eassumption |]. rewrite (FC p q). eassumption. }
  destruct FP as (file & FP).
  destruct (figure_of tr name t n fit template reco_key cov (names ++ [p]) e counter f f' (S counter) (length names) file RD AF TT LD TR H)
    as (rt & is_tf & truth & best & fig & _ & _ & _ & DF & SHW).
  { split; [exists p; split; [rewrite nth_error_app2, Nat.sub_diag by lia; reflexivity | exact FP] |].
    intros j q N _. assert (LJ : (j < length (names ++ [p]))%nat) by (apply nth_error_Some; congruence). rewrite app_length in LJ. cbn in LJ. lia. }
  exists file, fig, truth, best. split; [exact DF |]. split; [| exact SHW].
  intros h NH. rewrite D. destruct (dget h g) eqn:DG; [| reflexivity]. destruct (proj1 (K h) ltac:(congruence)) as (q & _ & FQ).
  rewrite (FC q p) in FQ. congruence.
Qed.

(** ** Examples *)

(** Two events are scanned; the hypotheses of C177, C179 and C181 hold. *)
Example scan_ex : exists tr f' file, Ready tr "x" ex_t 2 /\ all_fitted [true; true] = true /\
  run (Some tr) "x" [true; true] true ex_template "reco" None ex_names [ex_event [0; 2]; ex_event [1; 0]] 0 [] = (f', 2%nat, None) /\
  Table (e_truth (ex_event [1; 0])) 2 1 /\ LogDomain ex_t (e_truth (ex_event [1; 0])) /\ Total (e_losses (ex_event [1; 0])) 2 /\
  LastTo ex_template ex_names 1 0 file /\ dget file f' <> None.
Proof.
  destruct scan_trafo as (tr & s & zt & RD & HS & NL & ET & LZ & Z1 & MA & DP).
  destruct (ex_runs tr zt true [0; 2] 0%nat [] RD ET eq_refl) as (f1 & E1).
  destruct (ex_runs tr zt true [1; 0] 1%nat f1 RD ET eq_refl) as (f2 & E2).
  destruct (ex_last 1%nat 0%nat "a" eq_refl) as (file & FF & LT).
  assert (R : run (Some tr) "x" [true; true] true ex_template "reco" None ex_names [ex_event [0; 2]; ex_event [1; 0]] 0 [] = (f2, 2%nat, None)).
  { cbn [run]. rewrite E1, E2. reflexivity. }
  exists tr, f2, file. split; [exact RD |]. split; [reflexivity |]. split; [exact R |]. split; [apply ex_table |]. split; [apply ex_domain |].
  split; [apply ex_total |]. split; [exact LT |]. destruct (C181_run _ _ _ _ _ _ _ _ _ _ _ _ _ R) as (_ & F & _). apply F. right.
  exists 1%nat, "a". split; [cbn; lia |]. split; [left; reflexivity | exact FF].
Qed.

(** A held parameter, and a batch of two events. *)
Example refused_ex : exists tr d, Held [true; false] 1 /\ Table (e_truth (ex_event [0; 2])) 2 1 /\
  transform (Some tr) {| ar_shape := [2%nat]; ar_rows := [[0; 3]; [1; 4]] |} "x" true = Ok d.
Proof.
  destruct scan_trafo as (tr & s & zt & RD & HS & NL & ET & LZ & Z1 & MA & DP).
  destruct (transform_success tr "x" _ {| ar_shape := [2%nat]; ar_rows := [[0; 3]; [1; 4]] |} _ ET eq_refl) as ((d & E) & _).
  exists tr, d. split; [reflexivity |]. split; [apply ex_table | exact E].
Qed.

(** The test reconstruction of 'out.hdf5'. *)
Example names_ex : format ex_template "cascade_x" 12 = Ok "out_llh_scan_00000012_cascade_x".
Proof. reflexivity. Qed.
Print Assumptions C177_figures.
Print Assumptions C177_succeeds.
Print Assumptions C178_held.
Print Assumptions C178_events.
Print Assumptions C178_results.
Print Assumptions C179_range.
Print Assumptions C179_best_fit_refuted.
Print Assumptions C180_original_space.
Print Assumptions C180_truth_refuted.
Print Assumptions C181_names.
Print Assumptions C181_clash_refuted.
Print Assumptions C181_test_reconstruction.
Print Assumptions C181_field.
Print Assumptions C181_run.
Print Assumptions C181_kept.
Print Assumptions C181_overwritten.
Print Assumptions C181_last_parameter.
