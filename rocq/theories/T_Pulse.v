(** Theorems for the pulse data module. *)
From Coq Require Import Reals ZArith Lra Lia.
From Verif Require Import Py RList M_Pulse S_Pulse L_Pulse.
Open Scope nat_scope.

Lemma hits_cell labels e s d p : s < 86 -> d < 60 -> hits labels e s d p = true -> Cell labels p e s d.
Proof.
  intros Hs Hd H. unfold hits in H. rewrite !andb_true_iff, !Z.eqb_eq in H. destruct H as [[H1 H2] H3].
  destruct (nth_error labels e) as [i|] eqn:E; [|discriminate]. apply Nat.eqb_eq in H1. subst i. unfold Cell. auto.
Qed.

Section Hdf.
Variables (bad : nat -> nat -> bool) (c : pconfig) (j : memory) (f : hfile) (r : presult) (labels : list nat) (ps : list pulse).
Hypothesis is_labels : f_labels f = Some labels.
Hypothesis is_pulses : f_pulses f = Some ps.
Hypothesis labels_nodup : NoDup labels.
Hypothesis valid : Forall (Valid labels) ps.

(** C34: charges of the DOMs. *)
Theorem C34_charge e s d : d < 60 -> read_hdf bad c j f = Ok (Some r) -> o_charge r e s d = charge_of labels ps e s d.
Proof.
  intros Hd H. destruct (read_hdf_ok _ _ _ _ _ H) as (ps' & labels' & st & rows & E1 & E2 & E3 & _ & _ & EC & _).
  rewrite is_pulses in E1. rewrite is_labels in E2. injection E1 as <-. injection E2 as <-. rewrite EC.
  rewrite (loop_charge labels (quant c) labels_nodup ps valid 0 _ _ E3 e s d Hd). cbn. lra.
Qed.

(** C34: total charge. *)
Theorem C34_total : read_hdf bad c j f = Ok (Some r) ->
  Rsum (map (fun '(e, s, d) => o_charge r e s d) (cells (o_size r))) = Rsum (map p_charge (filter (fun p => (p_dom p <=? 60)%Z) ps)).
Proof.
  intros H. assert (ES : o_size r = length labels).
  { destruct (read_hdf_ok _ _ _ _ _ H) as (ps' & labels' & st & rows & E1 & E2 & E3 & _ & E4 & _). rewrite is_labels in E2. injection E2 as <-. exact E4. }
  rewrite ES. rewrite (Rsum_map_ext _ (fun '(e, s, d) => charge_of labels ps e s d)).
  2:{ intros [[e s] d] Hin. apply in_cells in Hin. apply C34_charge; [lia|exact H]. }
  clear H ES is_pulses. induction valid as [|p l Hp HV IH].
  - cbn [filter map]. rewrite (Rsum_map_ext _ (fun _ => 0%R)) by (intros [[e s] d] _; reflexivity). rewrite Rsum_map_const. cbn. lra.
  - rewrite (Rsum_map_ext _ (fun x => (if (let '(e, s, d) := x in hits labels e s d p) then p_charge p else 0) + (let '(e, s, d) := x in charge_of labels l e s d))%R).
    2:{ intros [[e s] d] _. unfold charge_of. cbn [filter]. destruct (hits labels e s d p); [cbn [map]; rewrite Rsum_cons; lra|lra]. }
    rewrite (Rsum_map_plus (fun x => if (let '(e, s, d) := x in hits labels e s d p) then p_charge p else 0%R) (fun '(e, s, d) => charge_of labels l e s d)), IH.
    cbn [filter]. destruct (Z.leb_spec (p_dom p) 60) as [Hd|Hd].
    + destruct (valid_cell _ _ Hp Hd) as (e0 & s0 & d0 & HC). rewrite (Rsum_indicator _ (p_charge p) (e0, s0, d0)).
      * cbn [map]. rewrite Rsum_cons. reflexivity.
      * apply NoDup_cells.
      * apply in_cells. destruct HC as (He & Hs & Hdl & _). split; [apply nth_error_Some; congruence|auto].
      * intros [[e s] d] _. apply (cell_hits labels labels_nodup p e0 s0 d0 HC).
    + rewrite Rsum_none; [lra|]. intros [[e s] d] Hin. apply in_cells in Hin. apply skip_hits; [lia|tauto].
    + exact HV.
Qed.

(** C34: time windows. *)
Theorem C34_window e : read_hdf bad c j f = Ok (Some r) -> Spans (o_window r e) (times_of labels ps e).
Proof.
  intros H. destruct (read_hdf_ok _ _ _ _ _ H) as (ps' & labels' & st & rows & E1 & E2 & E3 & _ & _ & _ & EW & _).
  rewrite is_pulses in E1. rewrite is_labels in E2. injection E1 as <-. injection E2 as <-. rewrite EW.
  apply (loop_window labels (quant c) labels_nodup ps valid 0 _ _ E3 e []). reflexivity.
Qed.

(** C35: without quantiles: rows of DOM numbers above 60 are never written, all
    others hold the pulse. *)
Theorem C35_rows k p : quant c = false -> no_drop c f -> read_hdf bad c j f = Ok (Some r) -> nth_error ps k = Some p ->
  ((60 < p_dom p)%Z -> nth_error (o_pulses r) k = Some (j_rows j k) /\ nth_error (o_ids r) k = Some (j_ids j k)) /\
  forall e s d, s < 86 -> d < 60 -> hits labels e s d p = true ->
    nth_error (o_pulses r) k = Some {| r_charge := p_charge p; r_time := p_time p; r_third := None |} /\
    nth_error (o_ids r) k = Some (Z.of_nat e, Z.of_nat s, Z.of_nat d).
Proof.
  intros Hq Hn H Hk. destruct (read_hdf_ok _ _ _ _ _ H) as (ps' & labels' & st & rows & E1 & E2 & E3 & ER & _ & _ & _ & ED & _).
  rewrite is_pulses in E1. rewrite is_labels in E2. injection E1 as <-. injection E2 as <-. destruct (ED Hn) as [-> ->]. rewrite Hq in ER, E3. subst rows.
  assert (Hl : k < length ps) by (apply nth_error_Some; congruence). rewrite !nth_error_map_seq by exact Hl.
  destruct (loop_rows labels false labels_nodup ps valid 0 _ _ E3 k p Hk) as [H1 H2]. cbn [Nat.add] in *. split.
  - intros Hd. destruct (H1 Hd) as [-> ->]. split; reflexivity.
  - intros e s d Hs Hd Hh. pose proof (hits_cell _ _ _ _ _ Hs Hd Hh) as HC. destruct (H2 ltac:(destruct HC as (_ & _ & ? & _ & ->); lia) e s d HC) as [-> ->]. split; reflexivity.
Qed.

(** C35: the table has as many rows as the file, whatever is skipped. *)
Theorem C35_length : no_drop c f -> read_hdf bad c j f = Ok (Some r) -> length (o_pulses r) = length ps /\ length (o_ids r) = length ps.
Proof.
  intros Hn H. destruct (read_hdf_ok _ _ _ _ _ H) as (ps' & labels' & st & rows & E1 & E2 & E3 & ER & _ & _ & _ & ED & _).
  rewrite is_pulses in E1. injection E1 as <-. destruct (ED Hn) as [-> ->]. rewrite map_length, seq_length. split; [|reflexivity]. destruct (quant c).
  - unfold divide in ER. apply bind_ok in ER. destruct ER as (qs & Eq & ER). injection ER as <-. apply mapr_ok, Forall2_len in Eq. rewrite map_length, seq_length in Eq.
    rewrite zipw_length, map_length, seq_length. lia.
  - subst rows. rewrite map_length, seq_length. reflexivity.
Qed.

(** C34: with quantiles: the third column is the fraction of the charge of the
    DOM collected up to and with the pulse. *)
Theorem C34_quantile k p e s d : quant c = true -> no_drop c f -> read_hdf bad c j f = Ok (Some r) -> nth_error ps k = Some p ->
  s < 86 -> d < 60 -> hits labels e s d p = true ->
  nth_error (o_pulses r) k = Some {| r_charge := p_charge p; r_time := p_time p;
    r_third := if Reqb (charge_of labels ps e s d) 0 then None else Some (charge_of labels (firstn (S k) ps) e s d / charge_of labels ps e s d)%R |} /\
  nth_error (o_ids r) k = Some (Z.of_nat e, Z.of_nat s, Z.of_nat d).
Proof.
  intros Hq Hn H Hk Hs Hd Hh. destruct (read_hdf_ok _ _ _ _ _ H) as (ps' & labels' & st & rows & E1 & E2 & E3 & ER & _ & _ & _ & ED & _).
  rewrite is_pulses in E1. rewrite is_labels in E2. injection E1 as <-. injection E2 as <-. destruct (ED Hn) as [-> ->]. rewrite Hq in ER, E3.
  assert (Hl : k < length ps) by (apply nth_error_Some; congruence).
  pose proof (hits_cell _ _ _ _ _ Hs Hd Hh) as HC. destruct (loop_rows labels true labels_nodup ps valid 0 _ _ E3 k p Hk) as [_ H2].
  cbn [Nat.add] in H2. destruct (H2 ltac:(destruct HC as (_ & _ & ? & _ & ->); lia) e s d HC) as [HR HI]. rewrite nth_error_map_seq by exact Hl. rewrite HI. split; [|reflexivity].
  unfold divide in ER. apply bind_ok in ER. destruct ER as (qs & Eq & ER). injection ER as <-. apply mapr_ok in Eq.
  destruct (Forall2_nth _ _ _ k (Z.of_nat e, Z.of_nat s, Z.of_nat d) Eq) as (qv & Hqv & Hf); [rewrite nth_error_map_seq by exact Hl; congruence|].
  assert (He : e < length labels) by (apply nth_error_Some; destruct HC as (He & _); congruence). rewrite fetch_flatten in Hf by assumption. injection Hf as <-.
  rewrite (nth_error_zipw _ _ _ k (s_rows st k) (s_charge st e s d)); [|apply nth_error_map_seq; exact Hl|exact Hqv]. rewrite HR. cbn [r_charge r_time r_third]. f_equal. f_equal.
  rewrite (loop_charge labels true labels_nodup ps valid 0 _ _ E3 e s d Hd). cbn [initial s_charge]. rewrite !Rplus_0_l. unfold fdiv. reflexivity.
Qed.

(** C34: for positive charges the quantiles grow from above zero to one, in the
    order of the file. *)
Theorem C34_monotone i k p p' e s d : quant c = true -> no_drop c f -> read_hdf bad c j f = Ok (Some r) -> (forall x, In x ps -> 0 < p_charge x)%R ->
  s < 86 -> d < 60 -> nth_error ps i = Some p -> nth_error ps k = Some p' -> i <= k -> hits labels e s d p = true -> hits labels e s d p' = true ->
  exists a b q1 q2, nth_error (o_pulses r) i = Some a /\ nth_error (o_pulses r) k = Some b /\ r_third a = Some q1 /\ r_third b = Some q2 /\
    (0 < q1 <= q2 /\ q2 <= 1)%R /\ (i < k -> (q1 < q2)%R) /\ ((forall m x, k < m -> nth_error ps m = Some x -> hits labels e s d x = false) -> q2 = 1%R).
Proof.
  intros Hq Hn H Hpos Hs Hd Hi Hk Hik Hh Hh'. destruct (C34_quantile _ _ _ _ _ Hq Hn H Hi Hs Hd Hh) as [H1 _]. destruct (C34_quantile _ _ _ _ _ Hq Hn H Hk Hs Hd Hh') as [H2 _].
  assert (Hnn : forall x, In x ps -> (0 <= p_charge x)%R) by (intros x Hx; left; apply Hpos; exact Hx).
  set (T := charge_of labels ps e s d) in *. set (A := charge_of labels (firstn (S i) ps) e s d) in *. set (B := charge_of labels (firstn (S k) ps) e s d) in *.
  assert (HT : T = charge_of labels (firstn (length ps) ps) e s d) by (rewrite firstn_all; reflexivity).
  assert (Hkl : k < length ps) by (apply nth_error_Some; congruence).
  assert (HBT : (B <= T)%R) by (rewrite HT; apply charge_prefix; [exact Hnn|lia]).
  assert (HAB : (A <= B)%R) by (apply charge_prefix; [exact Hnn|lia]).
  assert (EA : A = (charge_of labels (firstn i ps) e s d + p_charge p)%R).
  { unfold A. rewrite (firstn_snoc _ _ _ Hi), charge_app. f_equal. unfold charge_of. cbn [filter]. rewrite Hh. cbn. lra. }
  assert (EB : B = (charge_of labels (firstn k ps) e s d + p_charge p')%R).
  { unfold B. rewrite (firstn_snoc _ _ _ Hk), charge_app. f_equal. unfold charge_of. cbn [filter]. rewrite Hh'. cbn. lra. }
  assert (HA0 : (0 < A)%R).
  { rewrite EA. assert (0 <= charge_of labels (firstn i ps) e s d)%R. { apply charge_nonneg. intros x Hx. apply Hnn. rewrite <- (firstn_skipn i ps). apply in_or_app. left. exact Hx. }
    assert (0 < p_charge p)%R by (apply Hpos; eapply nth_error_In; exact Hi). lra. }
  assert (HR : Reqb T 0 = false) by (apply Reqb_false; lra). rewrite HR in *. do 2 eexists. exists (A / T)%R, (B / T)%R. split; [exact H1|]. split; [exact H2|]. cbn [r_third].
  split; [reflexivity|]. split; [reflexivity|]. assert (HI : (0 < / T)%R) by (apply Rinv_0_lt_compat; lra). assert (HE : (T * / T = 1)%R) by (apply Rinv_r; lra). unfold Rdiv.
  split; [split; [split; nra|nra]|]. split.
  - intros Hlt. apply Rmult_lt_compat_r; [exact HI|]. assert (A <= charge_of labels (firstn k ps) e s d)%R by (apply charge_prefix; [exact Hnn|lia]).
    assert (0 < p_charge p')%R by (apply Hpos; eapply nth_error_In; exact Hk). lra.
  - intros Hlast. enough (B = T) by congruence. unfold T. rewrite <- (firstn_skipn (S k) ps), charge_app. fold B. rewrite (charge_none _ (skipn (S k) ps)); [lra|].
    intros x Hx. apply In_nth_error in Hx. destruct Hx as (m & Hm). apply (Hlast (S k + m)); [lia|].
    assert (ES : forall n (l : list pulse) i, nth_error (skipn n l) i = nth_error l (n + i)).
    { induction n as [|n IH]; intros l i'; [reflexivity|]. destruct l; [destruct i'; reflexivity|]. cbn. apply IH. }
    rewrite <- ES. exact Hm.
Qed.
End Hdf.

(** C35: valid files without DOM numbers above 60 can be read and the result does
    not depend on the contents of memory. *)
Theorem C35_all_written bad c j j' f labels ps : f_labels f = Some labels -> f_pulses f = Some ps -> NoDup labels ->
  Forall (Valid labels) ps -> Forall (fun p => (p_dom p <= 60)%Z) ps -> time_key c = false -> no_drop c f -> (dom_key c = true -> f_doms f = None) ->
  exists r r', read_hdf bad c j f = Ok (Some r) /\ read_hdf bad c j' f = Ok (Some r') /\ Agree r r'.
Proof.
  intros EL EP HN HV Hd Ht Hnd Hdk.
  assert (HX : forall jj, exists rr, read_hdf bad c jj f = Ok (Some rr) /\ o_excl rr = (if dom_key c then Some (fun _ s d => bad s d) else None) /\ o_tws rr = None /\ o_tw_ids rr = None).
  { intros jj. unfold read_hdf. rewrite EP, EL. cbv zeta. rewrite Ht. cbn [andb].
    destruct (loop_total labels (quant c) HN ps HV 0 (initial (j_rows jj) (j_ids jj))) as (st & Est). rewrite Est. cbn [bind].
    assert (HD : exists rows, (if quant c then divide (length labels) (s_charge st) (map (s_ids st) (seq 0 (length ps))) (map (s_rows st) (seq 0 (length ps))) else Ok (map (s_rows st) (seq 0 (length ps)))) = Ok rows).
    { destruct (quant c) eqn:Eq; [|eauto]. unfold divide.
      assert (HM : exists qs, mapr (fun i => fetch (flatten (length labels) (s_charge st)) (flat_index i)) (map (s_ids st) (seq 0 (length ps))) = Ok qs).
      { assert (HI : forall i, In i (seq 0 (length ps)) -> exists v, fetch (flatten (length labels) (s_charge st)) (flat_index (s_ids st i)) = Ok v).
        { intros i Hi. apply in_seq in Hi. destruct (nth_error ps i) as [p|] eqn:Ep; [|apply nth_error_None in Ep; lia].
          assert (Hpd : (p_dom p <= 60)%Z) by (rewrite Forall_forall in Hd; apply Hd; eapply nth_error_In; exact Ep).
          destruct (valid_cell labels p) as (e & s & d & HC); [rewrite Forall_forall in HV; apply HV; eapply nth_error_In; exact Ep|exact Hpd|].
          destruct (loop_rows labels true HN ps HV 0 _ _ Est i p Ep) as [_ H2]. destruct (H2 Hpd e s d HC) as [_ HI]. cbn [Nat.add] in HI. rewrite HI.
          destruct HC as (He & Hs & Hdl & _). eexists. apply fetch_flatten; [apply nth_error_Some; congruence|exact Hs|exact Hdl]. }
        revert HI. generalize (seq 0 (length ps)). induction l as [|i l IH]; intros HI; [exists []; reflexivity|]. cbn [map mapr].
        destruct (HI i (or_introl eq_refl)) as (v & ->). cbn [bind]. destruct IH as (qs & ->); [intros x Hx; apply HI; right; exact Hx|]. cbn [bind]. eauto. }
      destruct HM as (qs & ->). cbn [bind]. eauto. }
    destruct HD as (rows & ->). cbn [bind]. destruct (dom_key c) eqn:Edk.
    - rewrite (Hdk eq_refl). cbn [bind]. eexists. split; [reflexivity|]. split; [reflexivity|]. split; reflexivity.
    - cbn [bind]. eexists. split; [reflexivity|]. split; [reflexivity|]. split; reflexivity. }
  destruct (HX j) as (r & Er & X1 & X2 & X3). destruct (HX j') as (r' & Er' & Y1 & Y2 & Y3). exists r, r'. split; [exact Er|]. split; [exact Er'|].
  destruct (read_hdf_ok _ _ _ _ _ Er) as (ps1 & l1 & st & rows & P1 & P2 & P3 & P4 & P5 & P6 & P7 & P8 & _).
  destruct (read_hdf_ok _ _ _ _ _ Er') as (ps2 & l2 & st' & rows' & Q1 & Q2 & Q3 & Q4 & Q5 & Q6 & Q7 & Q8 & _).
  rewrite EP in P1, Q1. rewrite EL in P2, Q2. injection P1 as <-. injection Q1 as <-. injection P2 as <-. injection Q2 as <-.
  destruct (P8 Hnd) as [P9 P10]. destruct (Q8 Hnd) as [Q9 Q10].
  assert (HC0 : forall ps k st st1 st' st1', pulse_loop labels (quant c) k ps st = Ok st1 -> pulse_loop labels (quant c) k ps st' = Ok st1' ->
    s_charge st = s_charge st' -> s_window st = s_window st' -> s_charge st1 = s_charge st1' /\ s_window st1 = s_window st1').
  { clear. induction ps as [|p ps IH]; intros k st st1 st' st1' H H' E1 E2; cbn [pulse_loop] in *; [split; congruence|].
    apply bind_ok in H. destruct H as (s2 & H2 & H). apply bind_ok in H'. destruct H' as (s2' & H2' & H').
    assert (HS : s_charge s2 = s_charge s2' /\ s_window s2 = s_window s2'); [|apply (IH _ _ _ _ _ H H'); apply HS].
    revert H2 H2'. unfold pulse_step. destruct (60 <? p_dom p)%Z; [intros; split; congruence|].
    destruct (event_index labels (p_event p)); [|discriminate]. destruct (pyidx 86 (p_string p - 1)); [|discriminate]. destruct (pyidx 60 (p_dom p - 1)); [|discriminate].
    cbn [bind]. intros H2 H2'. injection H2 as <-. injection H2' as <-. cbn [s_charge s_window]. rewrite E1, E2. split; reflexivity. }
  destruct (HC0 _ _ _ _ _ _ P3 Q3 eq_refl eq_refl) as [HC1 HW1].
  assert (HR : forall i, In i (seq 0 (length ps)) -> s_rows st i = s_rows st' i /\ s_ids st i = s_ids st' i).
  { intros i Hi. apply in_seq in Hi. destruct (nth_error ps i) as [p|] eqn:Ep; [|apply nth_error_None in Ep; lia].
    assert (Hpd : (p_dom p <= 60)%Z) by (rewrite Forall_forall in Hd; apply Hd; eapply nth_error_In; exact Ep).
    destruct (valid_cell labels p) as (e & s & d & HC); [rewrite Forall_forall in HV; apply HV; eapply nth_error_In; exact Ep|exact Hpd|].
    destruct (loop_rows labels (quant c) HN ps HV 0 _ _ P3 i p Ep) as [_ H2]. destruct (H2 Hpd e s d HC) as [A1 A2].
    destruct (loop_rows labels (quant c) HN ps HV 0 _ _ Q3 i p Ep) as [_ H2']. destruct (H2' Hpd e s d HC) as [B1 B2].
    cbn [Nat.add initial s_charge] in *. rewrite A1, A2, B1, B2. split; reflexivity. }
  assert (HR1 : map (s_rows st) (seq 0 (length ps)) = map (s_rows st') (seq 0 (length ps))) by (apply map_ext_in; intros i Hi; apply HR; exact Hi).
  assert (HR2 : map (s_ids st) (seq 0 (length ps)) = map (s_ids st') (seq 0 (length ps))) by (apply map_ext_in; intros i Hi; apply HR; exact Hi).
  assert (HRows : rows = rows') by (destruct (quant c); rewrite HR1 in P4; [rewrite HR2, HC1 in P4; congruence|congruence]). rewrite <- HRows in Q9.
  unfold Agree. rewrite P5, Q5, P6, Q6, P7, Q7, X1, Y1, X2, Y2, X3, Y3, P9, Q9, P10, Q10, HC1, HW1. repeat (split; [reflexivity || (destruct (dom_key c); auto)|]). auto.
Qed.

(** Memory contents with given ids. *)
Definition junk (i : pid) : memory :=
  {| j_rows := fun _ => {| r_charge := 7; r_time := 7; r_third := Some 7%R |}; j_ids := fun _ => i; j_tws := fun _ => (0%R, 0%R); j_tw_ids := fun _ => i |}.
Definition stray : pulse := {| p_event := 0; p_string := 1; p_dom := 61; p_time := 5; p_charge := 1 |}.
Definition stray_file : hfile := {| f_labels := Some [0]; f_pulses := Some [stray]; f_doms := None; f_times := None |}.
Definition with_quantiles : pconfig := {| quant := true; dom_key := false; time_key := false; discard := false |}.

(** C35: with a DOM number above 60 the outcome depends on the contents of
    memory: an exception, or a pulse that never happened. *)
Theorem C35_refuted bad : Forall (Valid [0]) [stray] /\
  read_hdf bad with_quantiles (junk (5, 5, 5)%Z) stray_file = Err IndexError /\
  exists r, read_hdf bad with_quantiles (junk (0, 0, 0)%Z) stray_file = Ok (Some r) /\
    o_pulses r = [{| r_charge := 7; r_time := 7; r_third := None |}] /\ o_ids r = [(0, 0, 0)%Z] /\ forall e s d, o_charge r e s d = 0%R.
Proof.
  split; [constructor; [intros H; cbn in H; lia|constructor]|]. unfold read_hdf, stray_file, with_quantiles. cbn [f_pulses f_labels time_key dom_key quant discard andb length].
  assert (EL : pulse_loop [0] true 0 [stray] (initial (j_rows (junk (5, 5, 5)%Z)) (j_ids (junk (5, 5, 5)%Z))) = Ok (initial (j_rows (junk (5, 5, 5)%Z)) (j_ids (junk (5, 5, 5)%Z)))) by reflexivity.
  assert (EL' : pulse_loop [0] true 0 [stray] (initial (j_rows (junk (0, 0, 0)%Z)) (j_ids (junk (0, 0, 0)%Z))) = Ok (initial (j_rows (junk (0, 0, 0)%Z)) (j_ids (junk (0, 0, 0)%Z)))) by reflexivity.
  cbv zeta. rewrite EL, EL'. clear EL EL'. cbn [bind seq map initial s_rows s_ids s_charge junk j_rows j_ids]. unfold divide. cbn [mapr]. split.
  - unfold fetch. rewrite length_flatten. change (pyidx (1 * 86 * 60) (flat_index (5, 5, 5)%Z)) with (@Err nat IndexError). reflexivity.
  - rewrite (fetch_flatten 1 _ 0 0 0) by lia. cbn [bind]. eexists. split; [reflexivity|]. cbn [o_pulses o_ids o_charge zipw r_charge r_time r_third]. split; [|split; [reflexivity|intros; reflexivity]].
    unfold zipw. cbn. replace (Reqb 0 0) with true by (symmetry; apply Reqb_true; reflexivity). reflexivity.
Qed.

(** C36: flat indices are different for different DOMs, and cover the array. *)
Theorem C36_injective e s d e' s' d' : s < 86 -> d < 60 -> s' < 86 -> d' < 60 ->
  flat_index (Z.of_nat e, Z.of_nat s, Z.of_nat d) = flat_index (Z.of_nat e', Z.of_nat s', Z.of_nat d') -> (e, s, d) = (e', s', d').
Proof. unfold flat_index. intros. assert (e = e') by lia. assert (s = s') by lia. assert (d = d') by lia. congruence. Qed.

Theorem C36_onto size i : (0 <= i < Z.of_nat size * 86 * 60)%Z -> exists e s d, e < size /\ s < 86 /\ d < 60 /\ flat_index (Z.of_nat e, Z.of_nat s, Z.of_nat d) = i.
Proof.
  intros H. exists (Z.to_nat (i / (86 * 60))), (Z.to_nat ((i mod (86 * 60)) / 60)), (Z.to_nat ((i mod (86 * 60)) mod 60)).
  pose proof (Z.mod_pos_bound i (86 * 60) ltac:(lia)) as H1. pose proof (Z.mod_pos_bound (i mod (86 * 60)) 60 ltac:(lia)) as H2.
  pose proof (Z.div_mod i (86 * 60) ltac:(lia)) as H3. pose proof (Z.div_mod (i mod (86 * 60)) 60 ltac:(lia)) as H4.
  assert (H6 : (0 <= i / (86 * 60))%Z) by (apply Z.div_pos; lia). assert (H7 : (0 <= (i mod (86 * 60)) / 60)%Z) by (apply Z.div_pos; lia).
  assert (H8 : (i / (86 * 60) < Z.of_nat size)%Z) by (apply Z.div_lt_upper_bound; lia). assert (H9 : ((i mod (86 * 60)) / 60 < 86)%Z) by (apply Z.div_lt_upper_bound; lia).
  split; [lia|]. split; [lia|]. split; [lia|]. unfold flat_index. rewrite !Z2Nat.id by lia. lia.
Qed.

(** C36: the element of the flattened array is the one of the DOM. *)
Theorem C36_value {A} size (g : grid A) e s d : e < size -> s < 86 -> d < 60 -> fetch (flatten size g) (flat_index (Z.of_nat e, Z.of_nat s, Z.of_nat d)) = Ok (g e s d).
Proof. apply fetch_flatten. Qed.

(** C68: reading a frame and reading a table of its contents agree. *)
Theorem C68_readers bad c j g : Forall (fun x => (snd (fst x) <= 60)%Z) (g_pulses g) -> (exists x, In x (g_pulses g) /\ snd x <> []) ->
  (time_key c = true -> exists l, g_times g = Some l /\ Forall (fun x => (snd (fst x) <= 60)%Z) l) ->
  match read_frame bad c g with
  | Ok r => exists r', read_hdf bad c j (table g) = Ok (Some r') /\ Agree r r'
  | Err e => read_hdf bad c j (table g) = Err e
  end.
Proof.
  intros HP HE HT. unfold read_frame, read_hdf, table. cbn [f_pulses f_labels f_doms f_times]. cbv zeta. change (length [0]) with 1.
  replace (time_key c && match (if time_key c then option_map table_times (g_times g) else None) with Some _ => false | None => true end) with false.
  2:{ destruct (time_key c); [|reflexivity]. destruct (HT eq_refl) as (l & -> & _). reflexivity. }
  pose proof (frame_loop (quant c) _ HP 0 (initial (j_rows j) (j_ids j)) {| t_charge := fun _ _ _ => 0%R; t_rows := []; t_ids := []; t_window := (None, None) |}) as HL.
  specialize (HL ltac:(repeat split)). destruct (frame_pulses (quant c) (g_pulses g) _) as [st|e] eqn:EF; [|rewrite HL; reflexivity].
  destruct HL as (st' & -> & HR). cbn [bind]. cbn [Nat.add] in HR. destruct HR as (R1 & R2 & R3 & R4). rewrite R2, R3.
  assert (Hne : t_ids st <> []).
  { rewrite <- R3. destruct HE as (x & Hx & Hs). assert (HLen : 0 < length (table_pulses (g_pulses g))).
    { apply in_split in Hx. destruct Hx as (a & b & ->). unfold table_pulses. rewrite flat_map_app. cbn [flat_map]. rewrite !app_length, map_length. destruct (snd x); [congruence|]. cbn. lia. }
    destruct (length (table_pulses (g_pulses g))); [lia|]. discriminate. }
  destruct (t_ids st) as [|i0 ids0] eqn:Ei; [congruence|]. rewrite <- Ei in *. clear Hne.
  assert (ED : divide 1 (t_charge st) (t_ids st) (t_rows st) = divide 1 (s_charge st') (t_ids st) (t_rows st)).
  { unfold divide. rewrite (flatten_ext 1 (t_charge st) (s_charge st')); [reflexivity|]. intros e s d He. symmetry. apply R1. exact He. }
  destruct (if quant c then divide 1 (t_charge st) (t_ids st) (t_rows st) else Ok (t_rows st)) as [rows|e] eqn:EQ.
  2:{ destruct (quant c); [|discriminate]. rewrite <- ED, EQ. reflexivity. }
  replace (if quant c then divide 1 (s_charge st') (t_ids st) (t_rows st) else Ok (t_rows st)) with (Ok rows) by (rewrite <- EQ; destruct (quant c); [exact ED || (symmetry; exact ED)|reflexivity]).
  cbn [bind].
  assert (HTW : exists tw, (match (if time_key c then option_map table_times (g_times g) else None) with
     | Some ws => bind (tw_loop [0] 0 ws (j_tws j, j_tw_ids j)) (fun t => Ok (Some (map (fst t) (seq 0 (length ws))), Some (map (snd t) (seq 0 (length ws)))))
     | None => Ok (None, None) end) = Ok tw /\
     tw = match (if time_key c then g_times g else None) with Some l => (Some (fst (frame_times l)), Some (snd (frame_times l))) | None => if time_key c then (Some [], Some []) else (None, None) end).
  { destruct (time_key c); [|eexists; split; reflexivity]. destruct (HT eq_refl) as (l & -> & Hl). cbn [option_map].
    destruct (tw_table l Hl 0 (j_tws j, j_tw_ids j)) as (t & -> & _ & E1 & E2). cbn [bind]. rewrite E1, E2. eexists. split; reflexivity. }
  destruct HTW as (tw & -> & ->). cbn [bind].
  assert (EDM : forall gg, match (if dom_key c then option_map table_doms (g_doms g) else None) with
       | Some ms => bind (dom_loop [0] ms gg) (fun g => if discard c then bind (drop_excluded 1 g (t_ids st) rows) (fun ri => Ok (g, fst ri, snd ri)) else Ok (g, rows, t_ids st))
       | None => Ok (gg, rows, t_ids st) end =
     match (if dom_key c then g_doms g else None) with
       | Some ms => bind (frame_doms ms gg) (fun g => if discard c then bind (drop_excluded 1 g (t_ids st) rows) (fun ri => Ok (g, fst ri, snd ri)) else Ok (g, rows, t_ids st))
       | None => Ok (gg, rows, t_ids st) end).
  { intros gg. destruct (dom_key c); [|reflexivity]. destruct (g_doms g) as [ms|]; [|reflexivity]. cbn [option_map]. rewrite dom_table. reflexivity. }
  rewrite EDM. destruct (match (if dom_key c then g_doms g else None) with Some _ => _ | None => _ end) as [[[gg rr] ii]|e]; cbn [bind]; [|reflexivity].
  eexists. split; [reflexivity|]. unfold Agree. cbn [o_size o_charge o_excl o_pulses o_ids o_window o_tws o_tw_ids]. split; [reflexivity|].
  split; [intros e s d He; symmetry; apply R1; exact He|]. split; [destruct (dom_key c); auto|]. split; [reflexivity|]. split; [reflexivity|].
  split; [intros e He; assert (e = 0) as -> by lia; symmetry; exact R4|]. split; reflexivity.
Qed.

(** C69: a file without the time windows raises, a frame does not. *)
Theorem C69_hdf bad c j f ps labels : f_pulses f = Some ps -> f_labels f = Some labels -> time_key c = true -> f_times f = None ->
  read_hdf bad c j f = Err TypeError.
Proof. intros H1 H2 H3 H4. unfold read_hdf. rewrite H1, H2, H3, H4. reflexivity. Qed.

Theorem C69_frame bad c g : time_key c = true -> g_times g = None -> forall r, read_frame bad c g = Ok r -> o_tws r = Some [] /\ o_tw_ids r = Some [].
Proof.
  intros H3 H4 r H. unfold read_frame in H. rewrite H3, H4 in H. apply bind_ok in H. destruct H as (st & _ & H). cbv zeta in H. apply bind_ok in H. destruct H as (rows & _ & H).
  apply bind_ok in H. destruct H as ([[gg rr] ii] & _ & H). injection H as <-. split; reflexivity.
Qed.

(** C69: missing DOM exclusions are tolerated by both: nothing is discarded, not
    even on bad DOMs. *)
Theorem C69_doms bad c j f : f_doms f = None -> read_hdf bad c j f = read_hdf bad {| quant := quant c; dom_key := dom_key c; time_key := time_key c; discard := false |} j f.
Proof. intros H. unfold read_hdf. cbn [quant dom_key time_key discard]. rewrite H. destruct (f_pulses f), (f_labels f); try reflexivity. destruct (dom_key c); reflexivity. Qed.

(** C70: a frame without accepted pulses raises with quantiles; a file does not. *)
Theorem C70_frame bad c g : quant c = true -> Forall (fun x => snd x = [] \/ (60 < snd (fst x))%Z) (g_pulses g) -> read_frame bad c g = Err IndexError.
Proof.
  intros Hq HF. unfold read_frame. rewrite Hq. assert (E : forall l st, Forall (fun x => snd x = [] \/ (60 < snd (fst x))%Z) l -> frame_pulses true l st = Ok st).
  { induction 1 as [|[[s d] ps] l Hx Hl IH]; [reflexivity|]. cbn [frame_pulses fst snd] in *. destruct (60 <? d)%Z eqn:Ed; [exact IH|].
    destruct Hx as [->|Hx]; [|apply Z.ltb_ge in Ed; lia]. cbn. exact IH. }
  rewrite E by exact HF. reflexivity.
Qed.

Theorem C70_discard bad c g ms : quant c = false -> dom_key c = true -> discard c = true -> g_doms g = Some ms -> (forall g0, exists g1, frame_doms ms g0 = Ok g1) ->
  Forall (fun x => snd x = [] \/ (60 < snd (fst x))%Z) (g_pulses g) -> read_frame bad c g = Err IndexError.
Proof.
  intros Hq Hk Hd Hg Hm HF. unfold read_frame. rewrite Hq, Hk, Hd, Hg. assert (E : forall l st, Forall (fun x => snd x = [] \/ (60 < snd (fst x))%Z) l -> frame_pulses false l st = Ok st).
  { induction 1 as [|[[s d] ps] l Hx Hl IH]; [reflexivity|]. cbn [frame_pulses fst snd] in *. destruct (60 <? d)%Z eqn:Ed; [exact IH|].
    destruct Hx as [->|Hx]; [|apply Z.ltb_ge in Ed; lia]. cbn. exact IH. }
  rewrite E by exact HF. cbn [bind t_ids t_rows]. destruct (Hm (fun _ s d => bad s d)) as (g1 & ->). reflexivity.
Qed.

Theorem C70_hdf bad c j labels : time_key c = false -> dom_key c = false -> exists r,
  read_hdf bad c j {| f_labels := Some labels; f_pulses := Some []; f_doms := None; f_times := None |} = Ok (Some r) /\ o_pulses r = [] /\ o_ids r = [].
Proof.
  intros H1 H2. unfold read_hdf. cbn [f_labels f_pulses]. rewrite H1, H2. cbn. destruct (quant c); cbn; eexists; (split; [reflexivity|]); split; reflexivity.
Qed.

(** C71: the exclusion mask. *)
Theorem C71_mask bad c j f r labels ms e s d : f_labels f = Some labels -> NoDup labels -> dom_key c = true -> f_doms f = Some ms -> Forall (ValidM labels) ms ->
  read_hdf bad c j f = Ok (Some r) -> s < 86 -> d < 60 ->
  exists g, o_excl r = Some g /\ (g e s d = true <-> bad s d = true /\ forall m, In m ms -> names labels e s d m = false).
Proof.
  intros EL HN Hk Hm HV H Hs Hd.
  assert (HG : exists g, o_excl r = Some g /\ dom_loop labels ms (fun _ s d => bad s d) = Ok g).
  { unfold read_hdf in H. destruct (f_pulses f) as [ps|]; [|discriminate]. rewrite EL, Hk, Hm in H. cbv zeta in H. destruct (time_key c && _); [discriminate|].
    apply bind_ok in H. destruct H as (st & _ & H). apply bind_ok in H. destruct H as (rows & _ & H). apply bind_ok in H. destruct H as (tw & _ & H).
    apply bind_ok in H. destruct H as ([[g rr] ii] & E & H). injection H as <-. cbn [o_excl]. exists g. split; [reflexivity|].
    apply bind_ok in E. destruct E as (g1 & E1 & E). destruct (discard c); [apply bind_ok in E; destruct E as (ri & _ & E)|]; injection E as <- _ _; exact E1. }
  destruct HG as (g & -> & HG). exists g. split; [reflexivity|].
  assert (HL : forall ms, Forall (ValidM labels) ms -> forall g0 g, dom_loop labels ms g0 = Ok g -> g e s d = true <-> g0 e s d = true /\ forall m, In m ms -> names labels e s d m = false).
  { clear - HN Hs Hd. induction 1 as [|m ms HV HF IH]; intros g0 g H; cbn [dom_loop] in H.
    - injection H as <-. split; [intros HH; split; [exact HH|intros m []]|tauto].
    - destruct (Z.ltb_spec 60 (m_dom m)) as [Hm|Hm].
      + rewrite (IH _ _ H). split; intros [A B]; (split; [exact A|]).
        * intros x [<-|Hx]; [|apply B; exact Hx]. unfold names. replace (m_dom m =? Z.of_nat d + 1)%Z with false by (symmetry; apply Z.eqb_neq; lia). apply andb_false_r.
        * intros x Hx. apply B. right. exact Hx.
      + destruct (HV Hm) as (He & Hst & Hdm). destruct (event_index_in _ _ HN He) as (e0 & Ee & Ei). destruct (pyidx_string _ Hst) as (s0 & Hs0 & Es & Ps).
        destruct (pyidx_dom (m_dom m)) as (d0 & Hd0 & Ed & Pd); [lia|]. rewrite Ei in H. cbn [bind] in H. rewrite Ps in H. cbn [bind] in H. rewrite Pd in H. cbn [bind] in H.
        rewrite (IH _ _ H). destruct (names labels e s d m) eqn:En.
        * unfold names in En. rewrite !andb_true_iff, !Z.eqb_eq in En. destruct En as [[E1 E2] E3]. destruct (nth_error labels e) as [i|] eqn:Ex; [|discriminate]. apply Nat.eqb_eq in E1. subst i.
          assert (e0 = e). { apply (proj1 (NoDup_nth_error labels) HN); [apply nth_error_Some; congruence|congruence]. } assert (s0 = s) by lia. assert (d0 = d) by lia. subst.
          rewrite upd_same. split; [intros [A _]; discriminate|]. intros [_ B]. specialize (B m (or_introl eq_refl)). unfold names in B. rewrite Ex, Nat.eqb_refl in B.
          rewrite !andb_false_iff, !Z.eqb_neq in B. destruct B as [[B|B]|B]; [discriminate|lia|lia].
        * rewrite upd_other. { split; intros [A B]; (split; [exact A|]); [intros x [<-|Hx]; [exact En|apply B; exact Hx]|intros x Hx; apply B; right; exact Hx]. }
          intros E. injection E as -> -> ->. unfold names in En. rewrite Ee, Nat.eqb_refl, Es, Ed, !Z.eqb_refl in En. discriminate. }
  apply (HL ms HV _ _ HG).
Qed.

(** C71: the pulses of excluded DOMs are removed, in order, charges are kept. *)
Theorem C71_discard bad c j f r labels ps ms : f_labels f = Some labels -> f_pulses f = Some ps -> NoDup labels -> Forall (Valid labels) ps ->
  Forall (fun p => (p_dom p <= 60)%Z) ps -> dom_key c = true -> discard c = true -> f_doms f = Some ms -> read_hdf bad c j f = Ok (Some r) ->
  exists r0 g, read_hdf bad (keeping c) j f = Ok (Some r0) /\ o_excl r = Some g /\ o_charge r = o_charge r0 /\ o_window r = o_window r0 /\
    combine (o_pulses r) (o_ids r) = filter (fun x => let '(e, s, d) := snd x in g (Z.to_nat e) (Z.to_nat s) (Z.to_nat d)) (combine (o_pulses r0) (o_ids r0)).
Proof.
  intros EL EP HN HV Hd Hk Hdc Hm H.
  assert (HR : exists r0, read_hdf bad (keeping c) j f = Ok (Some r0)).
  { unfold read_hdf in H |- *. rewrite EP, EL in *. cbn [quant dom_key time_key discard keeping]. rewrite Hk, Hm, Hdc in *. cbv zeta in *. destruct (time_key c && _); [discriminate|].
    destruct (pulse_loop _ _ _ _ _) as [st|]; [|discriminate]. cbn [bind] in *. destruct (if quant c then _ else _) as [rows|]; [|discriminate]. cbn [bind] in *.
    destruct (match (if time_key c then f_times f else None) with Some _ => _ | None => _ end) as [tw|]; [|discriminate]. cbn [bind] in *. destruct (dom_loop _ _ _) as [g|]; [|discriminate]. cbn [bind]. eauto. }
  destruct HR as (r0 & H0). exists r0.
  destruct (read_hdf_ok _ _ _ _ _ H) as (ps1 & l1 & st & rows & P1 & P2 & P3 & P4 & P5 & P6 & P7 & _ & P8).
  destruct (read_hdf_ok _ _ _ _ _ H0) as (ps2 & l2 & st' & rows' & Q1 & Q2 & Q3 & Q4 & Q5 & Q6 & Q7 & Q8 & _).
  rewrite EP in P1, Q1. rewrite EL in P2, Q2. injection P1 as <-. injection Q1 as <-. injection P2 as <-. injection Q2 as <-. cbn [quant keeping] in *. rewrite P3 in Q3. injection Q3 as <-.
  assert (HRows : rows = rows') by (destruct (quant c); congruence). destruct Q8 as [Q9 Q10]; [left; reflexivity|].
  destruct P8 as (ms' & g & Hg1 & Hg2 & Hg3 & Hg4); [unfold no_drop; intros [X|[X|X]]; congruence|]. exists g. split; [exact H0|]. split; [exact Hg3|].
  split; [congruence|]. split; [congruence|]. unfold drop_excluded in Hg4. apply bind_ok in Hg4. destruct Hg4 as (mask & Em & Hg4). injection Hg4 as Ea Eb. rewrite <- Ea, <- Eb, Q9, Q10, <- HRows.
  assert (HLen : length rows = length (map (s_ids st) (seq 0 (length ps)))).
  { destruct (quant c).
    - unfold divide in P4. apply bind_ok in P4. destruct P4 as (qs & Eq & ER). injection ER as <-. apply mapr_ok, Forall2_len in Eq. rewrite map_length, seq_length in *.
      rewrite zipw_length, map_length, seq_length. lia.
    - subst rows. rewrite !map_length. reflexivity. }
  rewrite masked_combine by exact HLen.
  assert (HM : mask = map (fun x : prow * pid => let '(e, s, d) := snd x in g (Z.to_nat e) (Z.to_nat s) (Z.to_nat d)) (combine rows (map (s_ids st) (seq 0 (length ps))))).
  { apply mapr_ok in Em.
    assert (HI : forall i, In i (map (s_ids st) (seq 0 (length ps))) -> exists e s d, i = (Z.of_nat e, Z.of_nat s, Z.of_nat d) /\ e < length labels /\ s < 86 /\ d < 60).
    { intros i Hi. apply in_map_iff in Hi. destruct Hi as (k & <- & Hi). apply in_seq in Hi. destruct (nth_error ps k) as [p|] eqn:Ep; [|apply nth_error_None in Ep; lia].
      assert (Hpd : (p_dom p <= 60)%Z) by (rewrite Forall_forall in Hd; apply Hd; eapply nth_error_In; exact Ep).
      destruct (valid_cell labels p) as (e & s & d & HC); [rewrite Forall_forall in HV; apply HV; eapply nth_error_In; exact Ep|exact Hpd|].
      destruct (loop_rows labels (quant c) HN ps HV 0 _ _ P3 k p Ep) as [_ H2]. destruct (H2 Hpd e s d HC) as [_ A2]. cbn [Nat.add] in A2.
      destruct HC as (He & Hs & Hdl & _). exists e, s, d. split; [exact A2|]. split; [apply nth_error_Some; congruence|auto]. }
    clear - Em HI HLen. revert rows HLen. induction Em as [|i b l mask Hb HF IH]; intros rows HLen; [destruct rows; [reflexivity|discriminate]|].
    destruct rows as [|w rows]; [discriminate|]. cbn [combine map snd]. rewrite <- (IH (fun x Hx => HI x (or_intror Hx)) rows) by (cbn in HLen; lia). f_equal.
    destruct (HI i (or_introl eq_refl)) as (e & s & d & -> & He & Hs & Hd). rewrite fetch_flatten in Hb by assumption. injection Hb as <-. rewrite !Nat2Z.id. reflexivity. }
  rewrite HM. apply masked_filter.
Qed.

(** C34 only holds for string numbers from one: a pulse of string number zero is
    added to string number 86. *)
Theorem C34_string_zero_refuted bad : exists c j f r, read_hdf bad c j f = Ok (Some r) /\
  f_pulses f = Some [{| p_event := 0; p_string := 0; p_dom := 1; p_time := 5; p_charge := 1 |}] /\ o_charge r 0 85 0 = 1%R.
Proof.
  exists {| quant := false; dom_key := false; time_key := false; discard := false |}, (junk (0, 0, 0)%Z),
    {| f_labels := Some [0]; f_pulses := Some [{| p_event := 0; p_string := 0; p_dom := 1; p_time := 5; p_charge := 1 |}]; f_doms := None; f_times := None |}.
  eexists. split; [reflexivity|]. split; [reflexivity|]. cbn. rewrite upd_same. lra.
Qed.

(** C34: in general numbers below one count from the end, and numbers further
    out make the reader fail. *)
Theorem C34_wrapped bad c j f r labels ps : f_labels f = Some labels -> f_pulses f = Some ps -> NoDup labels -> read_hdf bad c j f = Ok (Some r) ->
  Forall (Accepted labels) ps /\
  forall e s d, s < 86 -> d < 60 -> o_charge r e s d = Rsum (map p_charge (filter (hits_wrapped labels e s d) ps)).
Proof.
  intros EL EP HN H. destruct (read_hdf_ok _ _ _ _ _ H) as (ps' & labels' & st & rows & E1 & E2 & E3 & _ & _ & EC & _).
  rewrite EP in E1. rewrite EL in E2. injection E1 as <-. injection E2 as <-. destruct (loop_wrapped _ _ _ HN _ _ _ E3) as [HA HC]. split; [exact HA|].
  intros e s d Hs Hd. rewrite EC, (HC e s d Hs Hd). cbn. lra.
Qed.

Theorem C34_accepted bad c j f labels ps : f_labels f = Some labels -> f_pulses f = Some ps -> NoDup labels ->
  quant c = false -> dom_key c = false -> time_key c = false ->
  (exists r, read_hdf bad c j f = Ok (Some r)) <-> Forall (Accepted labels) ps.
Proof.
  intros EL EP HN Hq Hd Ht. split; [intros (r & H); eapply C34_wrapped; eassumption|]. intros HA.
  destruct (loop_accepts labels false ps HN HA 0 (initial (j_rows j) (j_ids j))) as (st & E). unfold read_hdf. rewrite EL, EP, Hq, Hd, Ht. cbn [andb]. cbv zeta.
  rewrite E. cbn [bind]. eauto.
Qed.
Example ex_accepted : Forall (Accepted [4]) [{| p_event := 4; p_string := -85; p_dom := -59; p_time := 5; p_charge := 1 |}] /\
  hits_wrapped [4] 0 0 0 {| p_event := 4; p_string := -85; p_dom := -59; p_time := 5; p_charge := 1 |} = true.
Proof. split; [|reflexivity]. constructor; [|constructor]. intros _. cbn. intuition lia. Qed.

(** C35: without DOM numbers above 60 the table of time windows has one row for
    every window, in order. *)
Theorem C35_windows bad c j f r labels ws : f_labels f = Some labels -> time_key c = true -> f_times f = Some ws ->
  Forall (fun w => (w_dom w <= 60)%Z) ws -> read_hdf bad c j f = Ok (Some r) ->
  exists rows ids, o_tws r = Some rows /\ o_tw_ids r = Some ids /\ length rows = length ws /\ length ids = length ws /\
    forall i w, nth_error ws i = Some w -> exists row x, nth_error rows i = Some row /\ nth_error ids i = Some x /\ window_row labels w row x.
Proof.
  intros EL Ht Ew HF H. unfold read_hdf in H. destruct (f_pulses f) as [ps|]; [|discriminate]. rewrite EL, Ht, Ew in H. cbv zeta in H. cbn [andb] in H.
  apply bind_ok in H. destruct H as (st & _ & H). apply bind_ok in H. destruct H as (rows & _ & H). apply bind_ok in H. destruct H as (tw & E & H).
  apply bind_ok in H. destruct H as ([[g rr] ii] & _ & H). injection H as <-. cbn [o_tws o_tw_ids].
  apply bind_ok in E. destruct E as (t & E & E'). injection E' as <-. cbn [fst snd]. do 2 eexists. split; [reflexivity|]. split; [reflexivity|].
  rewrite !map_length, !seq_length. split; [reflexivity|]. split; [reflexivity|]. intros i w Hi. destruct (tw_loop_rows _ _ HF _ _ _ E) as [_ HR]. cbn [Nat.add] in HR.
  assert (Hl : i < length ws) by (apply nth_error_Some; congruence).
  assert (HM : forall A (f : nat -> A), nth_error (map f (seq 0 (length ws))) i = Some (f i)).
  { intros A f0. apply map_nth_error. rewrite (nth_error_nth' _ 0) by (rewrite seq_length; exact Hl). rewrite seq_nth by exact Hl. reflexivity. }
  exists (fst t i), (snd t i). split; [apply HM|]. split; [apply HM|]. apply HR. exact Hi.
Qed.
Example ex_windows : Forall (fun w => (w_dom w <= 60)%Z) [{| w_event := 8; w_string := 3; w_dom := 60; w_start := 1; w_stop := 2 |}] /\
  exists e, nth_error [4; 8] e = Some 8.
Proof. split; [constructor; [cbn; lia|constructor]|]. exists 1. reflexivity. Qed.

(** C68: the frame reader returns the windows of the DOM numbers up to 60, in
    order, and only those. *)
Theorem C68_frame_windows bad c g l r : time_key c = true -> g_times g = Some l -> read_frame bad c g = Ok r ->
  o_tws r = Some (flat_map snd (filter (fun x => (snd (fst x) <=? 60)%Z) l)) /\
  o_tw_ids r = Some (flat_map (fun x => map (fun _ => (0, fst (fst x) - 1, snd (fst x) - 1)%Z) (snd x)) (filter (fun x => (snd (fst x) <=? 60)%Z) l)).
Proof.
  intros H3 H4 H. unfold read_frame in H. rewrite H3, H4 in H. apply bind_ok in H. destruct H as (st & _ & H). cbv zeta in H. apply bind_ok in H. destruct H as (rows & _ & H).
  apply bind_ok in H. destruct H as ([[gg rr] ii] & _ & H). injection H as <-. cbn [o_tws o_tw_ids]. rewrite frame_times_eq. split; reflexivity.
Qed.

(** C69: a file is skipped exactly if the pulses or the labels are missing. *)
Theorem C69_skipped bad c j f : read_hdf bad c j f = Ok None <-> f_pulses f = None \/ f_labels f = None.
Proof.
  unfold read_hdf. destruct (f_pulses f) as [ps|]; [|split; [auto|reflexivity]]. destruct (f_labels f) as [labels|]; [|split; [auto|reflexivity]]. cbv zeta.
  split; [|intros [H|H]; discriminate]. intros H. exfalso. destruct (time_key c && _); [discriminate|].
  apply bind_ok in H. destruct H as (st & _ & H). apply bind_ok in H. destruct H as (rows & _ & H). apply bind_ok in H. destruct H as (tw & _ & H).
  apply bind_ok in H. destruct H as ([[g rr] ii] & _ & H). discriminate.
Qed.

(** Examples. *)
Definition ex_pulses : list pulse :=
  [{| p_event := 8; p_string := 3; p_dom := 60; p_time := 5; p_charge := 1 |}; {| p_event := 4; p_string := 86; p_dom := 1; p_time := 2; p_charge := 2 |};
   {| p_event := 8; p_string := 3; p_dom := 60; p_time := 9; p_charge := 4 |}].
Definition ex_file : hfile := {| f_labels := Some [4; 8]; f_pulses := Some ex_pulses; f_doms := None; f_times := None |}.
Example ex_valid : NoDup [4; 8] /\ Forall (Valid [4; 8]) ex_pulses /\ Forall (fun p => (p_dom p <= 60)%Z) ex_pulses /\ (forall x, In x ex_pulses -> 0 < p_charge x)%R /\
  hits [4; 8] 1 2 59 {| p_event := 8; p_string := 3; p_dom := 60; p_time := 5; p_charge := 1 |} = true.
Proof.
  split; [repeat constructor; cbn; lia|]. split; [|split; [|split; [|reflexivity]]].
  - apply Forall_forall. intros p [<-|[<-|[<-|[]]]] _; cbn; intuition lia.
  - apply Forall_forall. intros p [<-|[<-|[<-|[]]]]; cbn; lia.
  - intros p [<-|[<-|[<-|[]]]]; cbn; lra.
Qed.
Example ex_reads bad : exists r, read_hdf bad with_quantiles (junk (0, 0, 0)%Z) ex_file = Ok (Some r).
Proof.
  destruct ex_valid as (H1 & H2 & H3 & _). destruct (C35_all_written bad with_quantiles (junk (0, 0, 0)%Z) (junk (0, 0, 0)%Z) ex_file _ _ eq_refl eq_refl H1 H2 H3 eq_refl) as (r & _ & H & _).
  - left. reflexivity.
  - discriminate.
  - exists r. exact H.
Qed.
Definition ex_frame : frame := {| g_pulses := [((3, 60)%Z, [(5%R, 1%R); (9%R, 4%R)]); ((86, 1)%Z, [(2%R, 2%R)])]; g_doms := Some [(3, 60)%Z]; g_times := None |}.
Example ex_frame_ok : Forall (fun x => (snd (fst x) <= 60)%Z) (g_pulses ex_frame) /\ exists x, In x (g_pulses ex_frame) /\ snd x <> [].
Proof. split; [repeat (constructor; [cbn; lia|]); constructor|]. eexists. split; [left; reflexivity|discriminate]. Qed.
Example ex_frame_doms g0 : exists g1, frame_doms [(3, 60)%Z] g0 = Ok g1.
Proof. eexists. reflexivity. Qed.
Example ex_doms : Forall (ValidM [4; 8]) [{| m_event := 4; m_string := 7; m_dom := 8 |}].
Proof. constructor; [|constructor]. intros _. cbn. intuition lia. Qed.
Example ex_reads_discard bad : exists r, read_hdf bad {| quant := false; dom_key := true; time_key := false; discard := true |} (junk (0, 0, 0)%Z)
  {| f_labels := Some [4; 8]; f_pulses := Some ex_pulses; f_doms := Some [{| m_event := 4; m_string := 86; m_dom := 1 |}]; f_times := None |} = Ok (Some r).
Proof.
  unfold read_hdf. cbn [f_pulses f_labels f_doms f_times dom_key time_key quant discard andb].
  destruct ex_valid as (H1 & H2 & H3 & _). destruct (loop_total [4; 8] false H1 ex_pulses H2 0 (initial (j_rows (junk (0, 0, 0)%Z)) (j_ids (junk (0, 0, 0)%Z)))) as (st & E).
  pose proof (loop_rows [4; 8] false H1 ex_pulses H2 0 _ _ E) as HR. cbv zeta. rewrite E. cbn [bind]. cbn [dom_loop m_dom m_event m_string]. change (60 <? 1)%Z with false.
  change (event_index [4; 8] 4) with (Ok 0). change (pyidx 86 (86 - 1)) with (Ok 85). change (pyidx 60 (1 - 1)) with (Ok 0). cbn [bind].
  change (length ex_pulses) with 3. cbn [seq map].
  destruct (HR 0 _ eq_refl) as [_ A]. destruct (A ltac:(cbn; lia) 1 2 59 ltac:(unfold Cell; cbn; intuition lia)) as [_ A1].
  destruct (HR 1 _ eq_refl) as [_ B]. destruct (B ltac:(cbn; lia) 0 85 0 ltac:(unfold Cell; cbn; intuition lia)) as [_ B1].
  destruct (HR 2 _ eq_refl) as [_ C]. destruct (C ltac:(cbn; lia) 1 2 59 ltac:(unfold Cell; cbn; intuition lia)) as [_ C1].
  cbn [Nat.add] in *. rewrite A1, B1, C1. unfold drop_excluded. cbn [mapr length]. rewrite !fetch_flatten by lia. cbn [bind]. eauto.
Qed.

Print Assumptions C34_charge.
Print Assumptions C34_total.
Print Assumptions C34_window.
Print Assumptions C35_rows.
Print Assumptions C35_length.
Print Assumptions C34_quantile.
Print Assumptions C34_monotone.
Print Assumptions C35_all_written.
Print Assumptions C35_refuted.
Print Assumptions C36_injective.
Print Assumptions C36_onto.
Print Assumptions C36_value.
Print Assumptions C68_readers.
Print Assumptions C69_hdf.
Print Assumptions C69_frame.
Print Assumptions C69_doms.
Print Assumptions C70_frame.
Print Assumptions C70_discard.
Print Assumptions C70_hdf.
Print Assumptions C71_mask.
Print Assumptions C71_discard.
Print Assumptions C34_string_zero_refuted.
Print Assumptions C34_wrapped.
Print Assumptions C34_accepted.
Print Assumptions C35_windows.
Print Assumptions C68_frame_windows.
Print Assumptions C69_skipped.
