(** Lemmas for the simulation module. *)
From Coq Require Import Reals Lra Lia Sorting.Sorted Sorting.Permutation.
From Verif Require Import Py PyFacts RList M_Simulation S_Simulation.
Open Scope R_scope.

Lemma forallb_false_exists {A} (f : A -> bool) l : forallb f l = false -> exists x, In x l /\ f x = false.
Proof.
  induction l as [| x l IH]; cbn; [discriminate |]. destruct (f x) eqn:E; [| intros _; exists x; auto].
  intros F. destruct (IH F) as (y & I & Y). exists y. auto.
Qed.

(** ** Types and cuts *)

Section Trees.
  Variable P : tree -> Prop.
  Hypothesis H : forall p ds, Forall P ds -> P (Node p ds).
  Fixpoint tree_nested_ind (t : tree) : P t :=
    match t with
    | Node p ds =>
        H p ds ((fix go ds : Forall P ds :=
                   match ds with
                   | [] => Forall_nil P
                   | d :: ds' => Forall_cons d (tree_nested_ind d) (go ds')
                   end) ds)
    end.
End Trees.

Lemma em_true t : em_cascade t = true <-> Electromagnetic t.
Proof. unfold Electromagnetic. destruct t; cbn; split; intros X; try tauto; try discriminate; intuition discriminate. Qed.
Lemma em_false t : em_cascade t = false <-> ~ Electromagnetic t.
Proof. rewrite <- em_true. destruct (em_cascade t); split; congruence. Qed.
Lemma dark_true t : dark t = true <-> Neutrino t.
Proof. unfold Neutrino. destruct t; cbn; split; intros X; try tauto; try discriminate; intuition discriminate. Qed.
Lemma dark_false t : dark t = false <-> ~ Neutrino t.
Proof. rewrite <- dark_true. destruct (dark t); split; congruence. Qed.
Lemma allowed_true t : allowed_parent t = true <-> Neutrino t \/ t = Hadrons.
Proof. unfold Neutrino. destruct t; cbn; split; intros X; try tauto; try discriminate; intuition discriminate. Qed.
Lemma allowed_false t : allowed_parent t = false <-> ~ (Neutrino t \/ t = Hadrons).
Proof. rewrite <- allowed_true. destruct (allowed_parent t); split; congruence. Qed.

Section Cuts.
  Variables emin dmax : R.
  Notation Passes := (Passes emin dmax).
  Notation Source := (Source emin dmax).
  Notation Fault := (Fault emin dmax).
  Notation Reached := (Reached emin dmax).

  Lemma skipped_false p : skipped emin dmax p = false <-> Passes p.
  Proof.
    unfold skipped, S_Simulation.Passes. rewrite orb_false_iff, Rltb_false.
    destruct (i_length p) as [l |].
    - rewrite Rltb_false. split; intros (A & B); (split; [exact A |]); [intros l' [= <-]; lra | exact (B l eq_refl)].
    - split; intros (A & B); (split; [exact A |]); [discriminate | reflexivity].
  Qed.
  Lemma skipped_true p : skipped emin dmax p = true <-> ~ Passes p.
  Proof. rewrite <- skipped_false. destruct (skipped _ _ p); split; congruence. Qed.

  Definition Open (p : particle) : Prop := Passes p /\ ~ Electromagnetic (i_type p).

  (** What the recursion returns for a list of occurrences *)
  Definition Outcome (os : list occurrence) (r : result (list particle * list particle)) : Prop :=
    match r with
    | Ok (cs, ts) =>
        ts = [] /\ (forall o e, In o os -> ~ Fault o e) /\ exists sel, Selects Source os sel /\ cs = map c_self sel
    | Err e => exists l1 x l2, os = l1 ++ x :: l2 /\ (forall o e, In o l1 -> ~ Fault o e) /\ Fault x e
    end.

  Lemma selects_app {A} (P : A -> Prop) l1 l1' l2 l2' :
    Selects P l1 l1' -> Selects P l2 l2' -> Selects P (l1 ++ l2) (l1' ++ l2').
  Proof. intros S1 S2. induction S1; cbn; [exact S2 | constructor; assumption | constructor; assumption]. Qed.

  Lemma selects_none {A} (P : A -> Prop) l : (forall x, In x l -> ~ P x) -> Selects P l [].
  Proof.
    induction l as [| x l IH]; intros N; constructor; [apply N; left; reflexivity |].
    apply IH. intros y Y. apply N. right. exact Y.
  Qed.

  Lemma outcome_app os1 os2 r1 r2 : Outcome os1 r1 -> Outcome os2 r2 ->
    Outcome (os1 ++ os2) (bind r1 (fun '(c, t) => bind r2 (fun '(cs, ts) => Ok (c ++ cs, t ++ ts)))).
  Proof.
    intros O1 O2. destruct r1 as [(c & t) | e]; cbn [bind].
    - destruct O1 as (-> & F1 & sel1 & S1 & ->). destruct r2 as [(cs & ts) | e]; cbn [bind].
      + destruct O2 as (-> & F2 & sel2 & S2 & ->). split; [reflexivity |]. split.
        * intros o e I. apply in_app_iff in I as [I | I]; [apply F1 | apply F2]; exact I.
        * exists (sel1 ++ sel2). split; [apply selects_app; assumption | symmetry; apply map_app].
      + destruct O2 as (l1 & x & l2 & -> & F2 & FX). exists (os1 ++ l1), x, l2. split; [rewrite app_assoc; reflexivity |].
        split; [| exact FX]. intros o e' I. apply in_app_iff in I as [I | I]; [apply F1 | apply F2]; exact I.
    - destruct O1 as (l1 & x & l2 & -> & F1 & FX). exists l1, x, (l2 ++ os2).
      split; [rewrite <- app_assoc; reflexivity |]. split; assumption.
  Qed.

  Lemma outcome_closed os : (forall o, In o os -> ~ Reached o) -> Outcome os (Ok ([], [])).
  Proof.
    intros N. split; [reflexivity |]. split.
    - intros o e I (R & _). exact (N o I R).
    - exists []. split; [| reflexivity]. apply selects_none. intros o I (R & _). exact (N o I R).
  Qed.

  Lemma occ_above t : forall above o, In o (occurrences above t) -> exists l, c_above o = l ++ above.
  Proof.
    induction t as [p ds IH] using tree_nested_ind. intros above o I. cbn [occurrences] in I.
    destruct I as [<- | I]; [exists []; reflexivity |]. apply in_flat_map in I as (d & D & I).
    rewrite Forall_forall in IH. destruct (IH d D _ _ I) as (l & E). exists (l ++ [p]). rewrite E, <- app_assoc. reflexivity.
  Qed.

  Lemma closed_below p above ds o : ~ Open p -> In o (flat_map (occurrences (p :: above)) ds) -> ~ Reached o.
  Proof.
    intros N I R. apply in_flat_map in I as (d & D & I). destruct (occ_above _ _ _ I) as (l & E).
    unfold S_Simulation.Reached in R. rewrite E in R. apply Forall_app in R as (_ & R). exact (N (Forall_inv R)).
  Qed.

  Lemma outcome_cons o os : (forall e, ~ Fault o e) -> ~ Source o -> forall r, Outcome os r -> Outcome (o :: os) r.
  Proof.
    intros F S r O. destruct r as [(cs & ts) | e].
    - destruct O as (-> & F' & sel & S' & ->). split; [reflexivity |]. split.
      + intros o' e [<- | I]; [apply F | apply F'; exact I].
      + exists sel. split; [constructor; assumption | reflexivity].
    - destruct O as (l1 & x & l2 & -> & F' & FX). exists (o :: l1), x, l2. split; [reflexivity |].
      split; [| exact FX]. intros o' e' [<- | I]; [apply F | apply F'; exact I].
  Qed.

  Lemma sources_outcome t : forall above, Forall Open above ->
    Outcome (occurrences above t) (light_sources_of emin dmax t).
  Proof.
    induction t as [p ds IH] using tree_nested_ind. intros above A. cbn [occurrences light_sources_of].
    destruct (skipped emin dmax p) eqn:SK.
    { apply skipped_true in SK. apply outcome_cons.
      - intros e (_ & X & _). exact (SK X).
      - intros (_ & X & _). exact (SK X).
      - apply outcome_closed. intros o. apply closed_below. intros (X & _). exact (SK X). }
    apply skipped_false in SK. destruct (em_cascade (i_type p)) eqn:EM.
    { apply em_true in EM. split; [reflexivity |]. split.
      - intros o e [<- | I] F; [destruct F as (_ & _ & X & _); exact (X EM) |].
        destruct F as (R & _). revert R. eapply closed_below; [| exact I]. intros (_ & X). exact (X EM).
      - exists [mk_occ above p (length ds)]. split; [| reflexivity]. constructor.
        + split; [exact A |]. split; [exact SK | exact EM].
        + apply selects_none. intros o I (R & _). revert R. eapply closed_below; [| exact I]. intros (_ & X). exact (X EM). }
    apply em_false in EM. cbn [is_track].
    destruct (Nat.eqb (length ds) 0 && negb (dark (i_type p))) eqn:F1.
    { apply andb_true_iff in F1 as (L & D). apply Nat.eqb_eq in L. apply negb_true_iff, dark_false in D.
      exists [], (mk_occ above p (length ds)), (flat_map (occurrences (p :: above)) ds). split; [reflexivity |].
      split; [intros o e [] |]. split; [exact A |]. split; [exact SK |]. split; [exact EM |]. left. auto. }
    destruct (Nat.ltb 0 (length ds) && negb (allowed_parent (i_type p))) eqn:F2.
    { apply andb_true_iff in F2 as (L & D). apply Nat.ltb_lt in L. apply negb_true_iff, allowed_false in D.
      exists [], (mk_occ above p (length ds)), (flat_map (occurrences (p :: above)) ds). split; [reflexivity |].
      split; [intros o e [] |]. split; [exact A |]. split; [exact SK |]. split; [exact EM |]. right.
      cbn [c_daughters c_self]. split; [lia |]. split; [tauto |]. split; [tauto | reflexivity]. }
    apply outcome_cons.
    - intros e (_ & _ & _ & [(L & D & _) | (L & D & D' & _)]); cbn [c_daughters c_self] in L, D.
      + apply dark_false in D. rewrite L, D in F1. discriminate.
      + cbn [c_self] in D'. assert (NA : ~ (Neutrino (i_type p) \/ i_type p = Hadrons)) by tauto. apply allowed_false in NA.
        rewrite NA in F2. replace (Nat.ltb 0 (length ds)) with true in F2 by (symmetry; apply Nat.ltb_lt; lia). discriminate.
    - intros (_ & _ & X). exact (EM X).
    - clear F1 F2. assert (A' : Forall Open (p :: above)) by (constructor; [split; assumption | exact A]).
      induction ds as [| d ds IHd]; [apply outcome_closed; intros o [] |].
      cbn [flat_map]. apply outcome_app; [exact (Forall_inv IH _ A') |]. apply IHd. exact (Forall_inv_tail IH).
  Qed.

  Lemma light_sources_outcome ts :
    Outcome (flat_map (occurrences []) ts) (light_sources emin dmax ts).
  Proof.
    induction ts as [| t ts IH]; [apply outcome_closed; intros o [] |].
    cbn [flat_map light_sources]. apply outcome_app; [apply sources_outcome; constructor | exact IH].
  Qed.

  Lemma selects_unique {A} (P : A -> Prop) l l1 : Selects P l l1 -> forall l2, Selects P l l2 -> l1 = l2.
  Proof.
    induction 1 as [| x l l' PX S IH | x l l' PX S IH]; intros l2 S2; inversion S2; subst; try contradiction.
    - reflexivity.
    - f_equal. apply IH. assumption.
    - apply IH. assumption.
  Qed.
End Cuts.

(** ** Filling of rows *)

Lemma set_nth_length j v row : length (set_nth j v row) = length row.
Proof. revert j. induction row as [| x row IH]; intros [| j]; cbn; [| | | rewrite IH]; reflexivity. Qed.

Lemma set_nth_same j v row d : (j < length row)%nat -> nth j (set_nth j v row) d = v.
Proof. revert j. induction row as [| x row IH]; intros [| j] L; cbn in *; try lia; [reflexivity | apply IH; lia]. Qed.

Lemma set_nth_other j k v row d : j <> k -> nth k (set_nth j v row) d = nth k row d.
Proof.
  revert j k. induction row as [| x row IH]; intros [| j] [| k] N; cbn; try reflexivity; try lia.
  apply IH. lia.
Qed.

From Verif Require Import M_Source L_Source M_Cascade.

Lemma index_of_nth names j k : NoDup names -> nth_error names j = Some k -> name_index names k = Ok j.
Proof.
  intros N E. unfold name_index. apply lookup_ok. eapply (fold_dset_nth _ _ j).
  - rewrite map_fst_combine by apply seq_length. exact N.
  - assert (L : (j < length names)%nat) by (apply nth_error_Some; congruence).
    rewrite nth_error_nth' with (d := (k, 0%nat)) by (rewrite combine_length, seq_length; lia).
    rewrite combine_nth by (rewrite seq_length; reflexivity). rewrite seq_nth by exact L.
    rewrite (nth_error_nth names j k E). reflexivity.
Qed.

Lemma index_missing names k : ~ In k names -> name_index names k = Err KeyError.
Proof.
  intros N. unfold name_index, lookup. rewrite fold_dset_other.
  - reflexivity.
  - rewrite map_fst_combine by apply seq_length. exact N.
Qed.

Lemma index_error names k e : name_index names k = Err e -> e = KeyError.
Proof. unfold name_index, lookup. destruct (dget _ _); congruence. Qed.

(** ** Default values *)

Lemma fill_defaults_error names ds m e : fill_defaults names ds m = Err e -> e = NameError \/ e = KeyError.
Proof.
  revert m. induction ds as [| (k & [v | s]) ds IH]; intros m; cbn [fill_defaults]; [discriminate | |].
  - destruct (name_index names k) as [j | e'] eqn:E; cbn [bind]; [apply IH |].
    intros [= <-]. right. exact (index_error _ _ _ E).
  - intros [= <-]. left. reflexivity.
Qed.

Definition numbers_known (names : list string) (ds : dict default) : Prop :=
  forall k d, In (k, d) ds -> In k names /\ exists v, d = DNumber v.

Lemma fill_defaults_ok names ds m : NoDup names -> dwf ds -> numbers_known names ds ->
  Forall (fun row => length row = length names) m ->
  exists m', fill_defaults names ds m = Ok m' /\ length m' = length m /\
    Forall (fun row => length row = length names) m' /\
    forall i j name, nth_error names j = Some name -> (i < length m)%nat ->
      nth j (nth i m' []) 0 = match dget name ds with Some (DNumber v) => v | _ => nth j (nth i m []) 0 end.
Proof.
  intros N W K. revert m. induction ds as [| (k & d) ds IH]; intros m F.
  { exists m. split; [reflexivity |]. split; [reflexivity |]. split; [exact F |]. intros; reflexivity. }
  destruct (K k d (or_introl eq_refl)) as (KI & v & ->). cbn [fill_defaults].
  apply In_nth_error in KI as (j0 & E0). rewrite (index_of_nth _ _ _ N E0). cbn [bind].
  inversion W as [| ? ? NI W']; subst.
  destruct (IH W' ltac:(intros k' d' I; apply K; right; exact I) (set_column j0 v m)) as (m' & E & L & F' & V).
  { unfold set_column. apply Forall_map. eapply Forall_impl; [| exact F]. intros row H. rewrite set_nth_length. exact H. }
  exists m'. split; [exact E |]. split; [rewrite L; apply map_length |]. split; [exact F' |].
  intros i j name EN I. rewrite (V i j name EN) by (unfold set_column; rewrite map_length; exact I).
  cbn [dget]. unfold set_column. rewrite nth_indep with (d' := set_nth j0 v []) by (rewrite map_length; exact I).
  rewrite map_nth. rewrite Forall_forall in F. specialize (F (nth i m []) (nth_In _ _ I)).
  destruct (String.eqb name k) eqn:B.
  - apply String.eqb_eq in B. subst k.
    replace (dget name ds) with (@None default).
    2:{ symmetry. apply dget_None_iff. exact NI. }
    assert (j = j0).
    { eapply NoDup_nth_error; [exact N | apply nth_error_Some; congruence | congruence]. }
    subst j0. apply set_nth_same. rewrite F. apply nth_error_Some. congruence.
  - apply String.eqb_neq in B. destruct (dget name ds) as [[w | s] |]; try reflexivity;
      apply set_nth_other; intros ->; congruence.
Qed.

Lemma fill_defaults_fails names ds m : ~ numbers_known names ds -> exists e, fill_defaults names ds m = Err e.
Proof.
  revert m. induction ds as [| (k & [v | s]) ds IH]; intros m K; cbn [fill_defaults].
  - exfalso. apply K. intros ? ? [].
  - destruct (In_dec string_dec k names) as [I | I].
    + destruct (name_index names k) as [j |]; cbn [bind]; [| eexists; reflexivity]. apply IH. intros H. apply K.
      intros k' d' [[= <- <-] | J]; [split; [exact I | eexists; reflexivity] | apply H; exact J].
    + rewrite index_missing by exact I. eexists. reflexivity.
  - eexists. reflexivity.
Qed.

(** ** Parameters of the particles *)

Lemma attribute_ok p name : In name included_parameters ->
  exists v, attribute p name = Ok v /\ ParameterOf p name v.
Proof.
  unfold attribute. destruct (i_pos p) as ((x, y), z) eqn:E.
  intros [<- | [<- | [<- | [<- | [<- | [<- | [<- | []]]]]]]]; cbn [String.eqb Ascii.eqb Bool.eqb];
    eexists; (split; [reflexivity |]).
  - apply of_azimuth.
  - apply of_energy.
  - apply of_time.
  - replace x with (fst (fst (i_pos p))) by (rewrite E; reflexivity). apply of_x.
  - replace y with (snd (fst (i_pos p))) by (rewrite E; reflexivity). apply of_y.
  - replace z with (snd (i_pos p)) by (rewrite E; reflexivity). apply of_z.
  - apply of_zenith.
Qed.

Lemma fill_row_ok names ps p row : NoDup names -> NoDup ps -> incl ps names -> incl ps included_parameters ->
  length row = length names ->
  exists row', fill_row names ps p row = Ok row' /\ length row' = length names /\
    forall j name, nth_error names j = Some name ->
      (In name ps -> ParameterOf p name (nth j row' 0)) /\ (~ In name ps -> nth j row' 0 = nth j row 0).
Proof.
  intros N. revert row. induction ps as [| k ps IH]; intros row ND I1 I2 L.
  { exists row. split; [reflexivity |]. split; [exact L |]. intros j name E. split; [intros [] | reflexivity]. }
  cbn [fill_row]. destruct (attribute_ok p k (I2 k (or_introl eq_refl))) as (v & EA & PA). rewrite EA. cbn [bind].
  pose proof (I1 k (or_introl eq_refl)) as KI. apply In_nth_error in KI as (j0 & E0).
  rewrite (index_of_nth _ _ _ N E0). cbn [bind]. inversion ND as [| ? ? NI ND']; subst.
  destruct (IH (set_nth j0 v row) ND' ltac:(intros a A; apply I1; right; exact A) ltac:(intros a A; apply I2; right; exact A)
              ltac:(rewrite set_nth_length; exact L)) as (row' & E & L' & V).
  exists row'. split; [exact E |]. split; [exact L' |]. intros j name EN. destruct (V j name EN) as (V1 & V2). split.
  - intros [<- | J]; [| apply V1; exact J].
    assert (j = j0) by (eapply NoDup_nth_error; [exact N | apply nth_error_Some; congruence | congruence]).
    subst j0. rewrite V2 by exact NI. rewrite set_nth_same by (rewrite L; apply nth_error_Some; congruence). exact PA.
  - intros J. rewrite V2 by (intros X; apply J; right; exact X). apply set_nth_other.
    intros ->. apply J. left. congruence.
Qed.

Lemma fill_rows_ok names ps cs m : NoDup names -> NoDup ps -> incl ps names -> incl ps included_parameters ->
  Forall (fun row => length row = length names) m -> length m = length cs ->
  exists m', fill_rows names ps cs m = Ok m' /\ length m' = length cs /\
    forall i p, nth_error cs i = Some p -> exists row, nth_error m' i = Some row /\ length row = length names /\
      forall j name, nth_error names j = Some name ->
        (In name ps -> ParameterOf p name (nth j row 0)) /\ (~ In name ps -> nth j row 0 = nth j (nth i m []) 0).
Proof.
  intros N ND I1 I2. revert m. induction cs as [| p cs IH]; intros m F L.
  { exists []. split; [reflexivity |]. split; [reflexivity |]. intros [| i] p E; discriminate. }
  destruct m as [| row m]; [discriminate |]. cbn [fill_rows].
  destruct (fill_row_ok names ps p row N ND I1 I2 (Forall_inv F)) as (row' & E & LR & V). rewrite E. cbn [bind].
  destruct (IH m (Forall_inv_tail F) ltac:(cbn in L; lia)) as (m' & E' & LM & V'). rewrite E'. cbn [bind].
  exists (row' :: m'). split; [reflexivity |]. split; [cbn; lia |].
  intros [| i] q EQ; cbn in EQ |- *; [| apply V'; exact EQ]. injection EQ as <-.
  exists row'. split; [reflexivity |]. split; [exact LR | exact V].
Qed.

(** ** Pulses *)

From Verif Require Import S_Cascade M_Noise S_Noise L_Noise M_Basis.
From Verif Require M_Gof S_Gof L_Gof.

Lemma pulse_times_each erfinv cum mu sigma r t0 us ts :
  M_Gof.pulse_times erfinv cum mu sigma r t0 us = Ok ts ->
  Forall2 (fun u t => M_Gof.pulse_time erfinv cum mu sigma r t0 u = Ok t) us ts.
Proof.
  revert ts. induction us as [| u us IH]; intros ts; cbn [M_Gof.pulse_times].
  - intros [= <-]. constructor.
  - destruct (M_Gof.pulse_time _ _ _ _ _ _ u) as [t |] eqn:E; [| discriminate]. cbn [bind].
    destruct (M_Gof.pulse_times _ _ _ _ _ _ us) as [ts' |] eqn:E'; [| discriminate]. cbn [bind].
    intros [= <-]. constructor; [exact E | apply IH; reflexivity].
Qed.

Lemma pulse_times_all erfinv cum mu sigma r t0 us :
  Forall (fun u => exists t, M_Gof.pulse_time erfinv cum mu sigma r t0 u = Ok t) us ->
  exists ts, M_Gof.pulse_times erfinv cum mu sigma r t0 us = Ok ts.
Proof.
  induction 1 as [| u us (t & E) F (ts & IH)]; [exists []; reflexivity |]. cbn [M_Gof.pulse_times].
  rewrite E. cbn [bind]. rewrite IH. cbn [bind]. eexists. reflexivity.
Qed.

Lemma combine_nth_map (q t : list R) idx : length q = length t ->
  combine (map (fun k => nth k q 0) idx) (map (fun k => nth k t 0) idx) =
  map (fun k => nth k (combine q t) (0, 0)) idx.
Proof.
  intros L. induction idx as [| k idx IH]; [reflexivity |]. cbn [map combine]. rewrite combine_nth by exact L.
  f_equal. exact IH.
Qed.

Lemma map_nth_seq0 {A} (l : list A) d : map (fun i => nth i l d) (seq 0 (length l)) = l.
Proof.
  apply (nth_ext _ _ d d); [rewrite map_length, seq_length; reflexivity |]. intros i I.
  rewrite map_length, seq_length in I.
  rewrite (nth_indep _ d ((fun i => nth i l d) 0%nat)) by (rewrite map_length, seq_length; exact I).
  rewrite (map_nth (fun i => nth i l d)). rewrite seq_nth by exact I. reflexivity.
Qed.

Lemma arranged (argsort : list R -> list nat) (q t : list R) : S_Gof.IsArgsort argsort -> length q = length t ->
  let l := combine (map (fun k => nth k q 0) (argsort t)) (map (fun k => nth k t 0) (argsort t)) in
  Permutation l (combine q t) /\ StronglySorted (fun a b => snd a <= snd b) l.
Proof.
  intros A L l. destruct (A t) as (P & S). unfold l. rewrite combine_nth_map by exact L. split.
  - apply Permutation_trans with (map (fun k => nth k (combine q t) (0, 0)) (seq 0 (length t))).
    + apply Permutation_map. exact P.
    + replace (length t) with (length (combine q t)) by (rewrite combine_length; lia). rewrite map_nth_seq0. reflexivity.
  - clear l P. induction S as [| k idx S IH F]; cbn [map]; constructor; [exact IH |].
    apply Forall_map. eapply Forall_impl; [| exact F]. intros j H. cbn beta in *. rewrite !combine_nth by exact L. exact H.
Qed.

Lemma combine_app2 {A B} (a a' : list A) (b b' : list B) : length a = length b ->
  combine (a ++ a') (b ++ b') = combine a b ++ combine a' b'.
Proof.
  revert b. induction a; intros [| y b] H; simpl in *; try lia; [reflexivity | f_equal; apply IHa; lia].
Qed.

Lemma combine_fst2 {A B} (a : list A) (b : list B) : length a = length b -> map fst (combine a b) = a.
Proof. revert b. induction a; intros [| y b] H; simpl in *; try lia; [reflexivity | f_equal; apply IHa; lia]. Qed.

Section Sampling.
  Variable draw_charges : nat -> nat -> nat -> nat -> list R.
  Variable draw_uniform : nat -> nat -> nat -> nat -> list (R * R).
  Variable erfinv : R -> R.
  Variable argsort : list R -> list nat.
  Hypothesis IA : S_Gof.IsArgsort argsort.
  Hypothesis UC : forall i, S_Gof.UniformCharges (draw_charges i).
  Hypothesis UP : forall i, S_Gof.UniformPairs (draw_uniform i).

  Notation cascade_pulses := (cascade_pulses draw_charges draw_uniform erfinv).
  Notation collect := (collect draw_charges draw_uniform erfinv).
  Notation dom_series := (dom_series draw_charges draw_uniform erfinv argsort).
  Notation series_map := (series_map draw_charges draw_uniform erfinv argsort).

  Definition time_of (s o : nat) (l : M_Gof.latent) (t0 : R) : R * R -> result R :=
    M_Gof.pulse_time erfinv (M_Gof.cum_scale (M_Gof.l_scale l s o)) (M_Gof.l_mu l s o) (M_Gof.l_sigma l s o) (M_Gof.l_r l s o) t0.

  Lemma cascade_pulses_spec i s o n l t0 q t : n <> 0%nat -> cascade_pulses i s o n l t0 = Ok (q, t) ->
    length q = length t /\ OfCascade n (draw_uniform i s o n) (time_of s o l t0) (combine q t).
  Proof.
    intros N. unfold M_Simulation.cascade_pulses. destruct (UC i s o n) as (LC & FC). destruct (UP i s o n) as (LU & FU).
    set (drawn := draw_charges i s o n) in *. cbv zeta.
    destruct (M_Gof.pulse_times _ _ _ _ _ _ _) as [ts |] eqn:PT; [| discriminate]. cbn [bind]. intros [= <- <-].
    pose proof (pulse_times_each _ _ _ _ _ _ _ _ PT) as EACH.
    apply L_Gof.pulse_times_length in PT. rewrite LU in PT.
    set (raw := map (fun c => c * (INR n / Rsum drawn)) drawn).
    assert (LR : length raw = n) by (unfold raw; rewrite map_length; exact LC).
    assert (SP : 0 < Rsum drawn).
    { destruct drawn as [| d0 drawn']; [simpl in LC; lia |]. inversion FC as [| ? ? X Y].
      rewrite Rsum_cons. assert (0 <= Rsum drawn').
      { apply Rsum_nonneg. rewrite Forall_forall in *. intros z Z. specialize (Y z Z). simpl in Y. lra. }
      lra. }
    assert (NP : 0 < INR n) by (apply lt_0_INR; lia).
    assert (RS : Rsum raw = INR n).
    { unfold raw. rewrite (Rsum_map_ext _ (fun c => INR n / Rsum drawn * c)) by (intros; ring).
      rewrite Rsum_map_scal, map_id. field. lra. }
    split; [lia |]. unfold OfCascade, pulse. split; [rewrite combine_length; lia |].
    rewrite combine_fst2 by lia. split; [exact RS |]. split.
    - apply Forall_forall. intros (c, u) I. apply in_combine_l in I. cbn. unfold raw in I. apply in_map_iff in I as (d & <- & D).
      rewrite Forall_forall in FC. specialize (FC d D). cbn in FC. apply Rmult_lt_0_compat; [lra | apply Rdiv_lt_0_compat; assumption].
    - clear - EACH LR PT. assert (L : length raw = length ts) by lia. clear LR PT. clearbody raw. revert raw L.
      induction EACH as [| u t us ts H EACH IH]; intros [| c raw] L; cbn in L; try discriminate; cbn [combine]; constructor.
      + exact H.
      + apply IH. lia.
  Qed.

  Lemma collect_spec counts i s o ls q t : collect counts i s o ls = Ok (q, t) ->
    length q = length t /\
    exists pss, length pss = length ls /\ concat pss = combine q t /\
    forall k l t0, nth_error ls k = Some (l, t0) -> exists ps, nth_error pss k = Some ps /\
      OfCascade (counts (i + k)%nat s o) (draw_uniform (i + k) s o (counts (i + k)%nat s o)) (time_of s o l t0) ps.
  Proof.
    revert i q t. induction ls as [| (l & t0) ls IH]; intros i q t; cbn [M_Simulation.collect].
    { intros [= <- <-]. split; [reflexivity |]. exists []. split; [reflexivity |]. split; [reflexivity |].
      intros [| k] ? ? E; discriminate. }
    set (r0 := if Nat.eqb (counts i s o) 0 then _ else _).
    destruct r0 as [(q0 & t1) |] eqn:R0; [| discriminate]. cbn [bind].
    destruct (collect counts (S i) s o ls) as [(qs & ts) |] eqn:CO; [| discriminate]. cbn [bind]. intros [= <- <-].
    assert (H0 : length q0 = length t1 /\ OfCascade (counts i s o) (draw_uniform i s o (counts i s o)) (time_of s o l t0) (combine q0 t1)).
    { unfold r0 in R0. destruct (Nat.eqb (counts i s o) 0) eqn:Z.
      - apply Nat.eqb_eq in Z. injection R0 as <- <-. rewrite Z. split; [reflexivity |]. split; [reflexivity |].
        split; [reflexivity |]. split; [constructor |]. destruct (UP i s o 0%nat) as (LU & _).
        destruct (draw_uniform i s o 0%nat); [constructor | discriminate].
      - apply Nat.eqb_neq in Z. apply (cascade_pulses_spec _ _ _ _ _ _ _ _ Z R0). }
    destruct H0 as (L0 & H0). destruct (IH (S i) qs ts CO) as (L1 & pss & LP & CP & V).
    split; [rewrite !app_length; lia |]. exists (combine q0 t1 :: pss). split; [cbn; lia |]. split.
    - cbn [concat]. rewrite CP. symmetry. apply combine_app2. exact L0.
    - intros [| k] l' t' E; cbn [nth_error] in E.
      + injection E as <- <-. exists (combine q0 t1). split; [reflexivity |]. rewrite Nat.add_0_r. exact H0.
      + destruct (V k l' t' E) as (ps & EP & O). exists ps. split; [exact EP |].
        replace (i + S k)%nat with (S i + k)%nat by lia. exact O.
  Qed.

  (** The pulses of a DOM *)
  Definition Series counts (ls : list (M_Gof.latent * R)) (s o : nat) (l : list pulse) : Prop :=
    StronglySorted (fun a b => snd a <= snd b) l /\
    exists pss, length pss = length ls /\ Permutation l (concat pss) /\
    forall k la t0, nth_error ls k = Some (la, t0) -> exists ps, nth_error pss k = Some ps /\
      OfCascade (counts k s o) (draw_uniform k s o (counts k s o)) (time_of s o la t0) ps.

  Lemma sum_zero l : list_sum l = 0%nat -> forall n, In n l -> n = 0%nat.
  Proof.
    induction l as [| x l IH]; intros E n I; [destruct I |]. change (list_sum (x :: l)) with (x + list_sum l)%nat in E.
    destruct I as [<- | I]; [lia | apply IH; [lia | exact I]].
  Qed.

  Lemma dom_series_spec counts ls s o r : dom_series counts ls s o = Ok r ->
    Series counts ls s o (match r with Some l => l | None => [] end).
  Proof.
    unfold M_Simulation.dom_series. destruct (Nat.eqb _ 0) eqn:Z.
    - intros [= <-]. apply Nat.eqb_eq in Z. split; [constructor |]. exists (repeat [] (length ls)).
      split; [apply repeat_length |]. split.
      + replace (concat (repeat [] (length ls))) with (@nil pulse); [constructor |].
        clear. induction (length ls) as [| n IH]; [reflexivity | exact IH].
      + intros k la t0 E. assert (K : (k < length ls)%nat) by (apply nth_error_Some; congruence).
        exists []. split.
        * rewrite (nth_error_nth' _ []) by (rewrite repeat_length; exact K). f_equal. apply nth_repeat.
        * assert (CZ : counts k s o = 0%nat).
          { apply (sum_zero _ Z). apply in_map_iff. exists k. split; [reflexivity | apply in_seq; lia]. }
          rewrite CZ. split; [reflexivity |]. split; [reflexivity |]. split; [constructor |].
          destruct (UP k s o 0%nat) as (LU & _). destruct (draw_uniform k s o 0%nat); [constructor | discriminate].
    - destruct (collect counts 0 s o ls) as [(q & t) |] eqn:CO; [| discriminate]. cbn [bind]. cbv zeta.
      intros [= <-]. destruct (collect_spec _ _ _ _ _ _ _ CO) as (L & pss & LP & CP & V).
      destruct (arranged argsort q t IA L) as (P & S). split; [exact S |]. exists pss. split; [exact LP |].
      split; [unfold pulse in *; rewrite CP; exact P | exact V].
  Qed.

  Lemma series_map_spec counts ls cells m : NoDup cells -> series_map counts ls cells = Ok m ->
    NoDup (map fst m) /\
    (forall k l, In (k, l) m -> exists s o, In (s, o) cells /\ k = (s + 1, o + 1)%nat /\ dom_series counts ls s o = Ok (Some l)) /\
    (forall s o, In (s, o) cells -> exists r, dom_series counts ls s o = Ok r /\
       match r with Some l => In ((s + 1, o + 1)%nat, l) m | None => True end).
  Proof.
    revert m. induction cells as [| (s & o) cells IH]; intros m ND; cbn [M_Simulation.series_map].
    { intros [= <-]. split; [constructor |]. split; [intros ? ? [] | intros ? ? []]. }
    destruct (dom_series counts ls s o) as [r |] eqn:D; [| discriminate]. cbn [bind].
    destruct (series_map counts ls cells) as [m' |] eqn:SM; [| discriminate]. cbn [bind]. intros [= <-].
    inversion ND as [| ? ? NI ND']; subst. destruct (IH m' ND' eq_refl) as (K1 & K2 & K3). split; [| split].
    - destruct r as [l |]; [| exact K1]. cbn [map fst]. constructor; [| exact K1].
      intros I. apply in_map_iff in I as ((k & l') & E & I). cbn in E. subst k.
      destruct (K2 _ _ I) as (s' & o' & I' & E & _). injection E as E1 E2. apply NI. 
      replace (s, o) with (s', o') by (f_equal; lia). exact I'.
    - intros k l' I. assert (X : (k, l') = ((s + 1, o + 1)%nat, match r with Some l => l | None => [] end) /\ r <> None \/ In (k, l') m').
      { destruct r as [l |]; [destruct I as [I | I]; [left; split; [congruence | discriminate] | right; exact I] | right; exact I]. }
      destruct X as [(X & NR) | X].
      + injection X as -> ->. exists s, o. split; [left; reflexivity |]. split; [reflexivity |]. destruct r; [exact D | congruence].
      + destruct (K2 _ _ X) as (s' & o' & I' & H). exists s', o'. split; [right; exact I' | exact H].
    - intros s' o' [[= <- <-] | I].
      + exists r. split; [exact D |]. destruct r; [left; reflexivity | exact Logic.I].
      + destruct (K3 s' o' I) as (r' & E & H). exists r'. split; [exact E |]. destruct r' as [l' |]; [| exact Logic.I].
        destruct r; [right; exact H | exact H].
  Qed.
End Sampling.
