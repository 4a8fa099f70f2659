(** Properties C116-C118: the reconstruction of test data
    (egenerator/manager/source.py l.1255-1822). *)
From Coq Require Import Reals Lra Lia.
From Verif Require Import Py PyFacts PyStr RList M_Source M_Tray M_TestReco S_TestReco L_TestReco.
From Verif Require M_Reco T_Reco M_Cascade L_Cascade L_Simulation.
Open Scope R_scope.

Section TestReco.
  Variable names : list string.
  Variable mapping : option (dict string).
  Variable tensors : list string.
  Variable fit : list bool -> batch -> list row -> result fitted.
  Variable parameter_loss : batch -> list row -> result (option R).
  Variable get_loss : batch -> result (option R).
  Variable covariance : batch -> dict rvalue -> result covariances.
  Variable goodness_of_fit : batch -> dict (dict rvalue) -> result goodness.
  Variable circular : batch -> dict (dict rvalue) -> result (option R).
  Variable mcmc : batch -> list row -> result nat.
  Variable scan : batch -> dict (dict rvalue) -> result Datatypes.unit.
  Variable init_other : spec -> result Datatypes.unit.
  Variable clock : nat -> rvalue.
  Notation reconstruct := (reconstruct_testdata names mapping tensors fit parameter_loss get_loss covariance
    goodness_of_fit circular mcmc scan init_other clock).
  Notation add_all := (add_all tensors fit parameter_loss covariance goodness_of_fit circular mcmc scan init_other).
  Notation init := (init tensors init_other).
  Notation empty := (new_tray rvalue batch Datatypes.unit Datatypes.unit).

  (** ** C116: the modules *)

  (** Parameters are fitted as the settings say; a parameter that does not exist
      is an error. *)
  Theorem C116_flags d default flags : NoDup names -> NoDup (map fst d) ->
    fit_flags names d (map (fun _ => default) names) = Ok flags -> FlagsOf names default d flags.
  Proof.
    intros N W F. destruct (fit_flags_spec names d _ flags N W (map_length _ _) F) as (L & H).
    split; [exact L |]. intros j name E. rewrite (H j name E), nth_error_map, E. destruct (dget name d); reflexivity.
  Qed.
  Theorem C116_flags_error c bs name m : mapping = Some m -> In name (map fst (r_fit c)) -> ~ In name names ->
    reconstruct c bs = Err KeyError.
  Proof.
    intros EM I NI. unfold reconstruct_testdata. rewrite EM.
    destruct (fit_flags names (r_fit c) (map (fun _ => r_default c) names)) as [flags | e] eqn:F; cbn [bind].
    - exfalso. revert F. generalize (map (fun _ : string => r_default c) names). revert I.
      induction (r_fit c) as [| (k, v) d IH]; [intros [] |]. intros [<- | I] l F; cbn [fit_flags fst] in *.
      + destruct (M_Cascade.name_index names k) as [i | e] eqn:NX; cbn [bind] in F; [| discriminate].
        apply L_Cascade.name_index_nth, nth_error_In in NX. exact (NI NX).
      + destruct (M_Cascade.name_index names k) as [i | e]; cbn [bind] in F; [| discriminate]. exact (IH I _ F).
    - f_equal. exact (fit_flags_error _ _ _ _ F).
  Qed.

  (** Without random seeds the modules are: a fit from every seed, the selection,
      and what is switched on, provided that the seeds are different and the
      modules can be made. *)
  Theorem C116_modules c flags : r_random c = None -> NoDup (seed_names (r_seed c)) ->
    (forall name sp, In (name, sp) (plan c) -> init flags sp = Ok tt) ->
    exists t, add_all c flags (plan c) empty = Ok t /\
      t_names _ _ _ _ t = map (fun s => ("reco_" ++ s)%string) (seed_names (r_seed c)) ++ ["reco"%string]
        ++ (if r_cov c then ["covariance"%string] else []) ++ (if r_gof c then ["GoodnessOfFit"%string] else [])
        ++ (if r_circ c then ["CircularizedAngularUncertainty"%string] else [])
        ++ (if r_mcmc c then ["mcmc"%string] else []) ++ (if r_scan c then ["visualization"%string] else []).
  Proof.
    intros NR ND H. apply (plan_names c NR) in ND.
    assert (A : forall l t, NoDup (t_names _ _ _ _ t ++ map fst l) -> (forall name sp, In (name, sp) l -> init flags sp = Ok tt) ->
      exists t', add_all c flags l t = Ok t' /\ t_names _ _ _ _ t' = t_names _ _ _ _ t ++ map fst l).
    { clear. induction l as [| (n, sp) l IH]; intros t ND H; cbn [M_TestReco.add_all map fst].
      - exists t. rewrite app_nil_r. auto.
      - unfold add_module. destruct (existsb (String.eqb n) (t_names _ _ _ _ t)) eqn:X.
        + exfalso. apply existsb_exists in X as (n' & I & E). apply String.eqb_eq in E as <-.
          cbn in ND. apply NoDup_remove in ND as (_ & NI). apply NI, in_or_app. left. exact I.
        + rewrite (H n sp (or_introl eq_refl)). cbn [bind].
          match goal with |- exists t', M_TestReco.add_all _ _ _ _ _ _ _ _ _ _ _ _ ?t1 = _ /\ _ => specialize (IH t1) end.
          cbn [t_names] in IH. rewrite <- app_assoc in IH. apply IH; [exact ND |]. intros name sp' I. apply (H name sp'). right. exact I. }
    destruct (A (plan c) empty ND H) as (t & E & EN). exists t. split; [exact E |]. rewrite EN. cbn [t_names new_tray app].
    rewrite plan_plain by exact NR. unfold extra, seeds_of. rewrite map_app, map_map. cbn [map fst].
    rewrite !map_app. destruct (r_cov c), (r_gof c), (r_circ c), (r_mcmc c), (r_scan c); reflexivity.
  Qed.

  (** A seed that is given twice is refused, whatever the data. *)
  Theorem C116_duplicates c bs : ~ NoDup (seed_names (r_seed c)) -> exists e, reconstruct c bs = Err e.
  Proof.
    intros ND. destruct (reconstruct c bs) as [df | e] eqn:R; [exfalso | exists e; reflexivity].
    unfold reconstruct_testdata in R. destruct mapping as [m |]; [| discriminate].
    obind R flags F. destruct (String.eqb (r_directory c) ""); [discriminate |]. obind R param EP. obind R t AT.
    destruct (new_tray_ok _ _ _ _ _ _ _ _ _ clock _ _ _ _ AT) as (N & _). apply ND. clear - N.
    unfold plan in N. cbv zeta in N. rewrite map_app in N.
    assert (N' : NoDup (map fst (flat_map (seed_plan (r_random c)) (seed_names (r_seed c))))).
    { revert N. generalize (map fst (flat_map (seed_plan (r_random c)) (seed_names (r_seed c)))). intros l N.
      induction l as [| x l IH]; [constructor |]. cbn in N. inversion N; subst.
      constructor; [intros I; apply H1, in_or_app; left; exact I | exact (IH H2)]. }
    clear N. induction (seed_names (r_seed c)) as [| s l IH]; [constructor |]. cbn [flat_map] in N'.
    rewrite map_app in N'. unfold seed_plan in N' at 1. rewrite map_app, <- app_assoc in N'. cbn [map fst app] in N'.
    apply NoDup_remove in N' as (N1 & NI). constructor.
    - intros I. apply NI, in_or_app. right. apply in_map_iff. exists (("reco_" ++ s)%string, SReco s false false).
      split; [reflexivity |]. apply in_flat_map. exists s. split; [exact I |]. unfold seed_plan. apply in_or_app. right. left. reflexivity.
    - apply IH. clear - N1. induction (map fst _) as [| x l1 IH1] in N1; [exact N1 |]. cbn in N1. inversion N1; subst. exact (IH1 H2).
  Qed.

  (** Random seeds never work, nor does an empty list of seeds: the first module
      of the tray raises for every batch. *)
  Lemma first_fails c flags t b : add_all c flags (plan c) empty = Ok t ->
    r_random c <> None \/ seed_names (r_seed c) = [] ->
    exists e, execute rvalue batch Datatypes.unit Datatypes.unit clock t b = Err e.
  Proof.
    intros A H. destruct (new_tray_ok _ _ _ _ _ _ _ _ _ clock _ _ _ _ A) as (_ & _ & ->).
    assert (P : exists n sp rest, plan c = (n, sp) :: rest /\ exists e,
      run_module tensors fit parameter_loss covariance goodness_of_fit circular mcmc scan c flags sp b [] = Err e).
    { unfold plan. cbv zeta. destruct (seed_names (r_seed c)) as [| s l].
      - cbn [flat_map app]. do 3 eexists. split; [reflexivity |]. eexists. reflexivity.
      - destruct H as [H | H]; [| discriminate]. destruct (r_random c) as [[| k] |]; [| | congruence].
        + cbn [flat_map seed_plan seq map app]. do 3 eexists. split; [reflexivity |]. eexists. reflexivity.
        + cbn [flat_map seed_plan seq map app]. do 3 eexists. split; [reflexivity |]. cbn [M_TestReco.run_module]. unfold run_reco.
          destruct (bind (tensor_index tensors s) _) as [rows | e]; [exists AttributeError; reflexivity | exists e; reflexivity]. }
    destruct P as (n & sp & rest & -> & e & E). exists e. cbn [map fst snd M_Tray.run]. rewrite E. reflexivity.
  Qed.

  Theorem C116_random c bs n : r_random c = Some n -> bs <> [] -> exists e, reconstruct c bs = Err e.
  Proof.
    intros NR NB. destruct (reconstruct c bs) as [df | e] eqn:R; [exfalso | exists e; reflexivity].
    unfold reconstruct_testdata in R. destruct mapping as [m |]; [| discriminate].
    obind R flags F. destruct (String.eqb (r_directory c) ""); [discriminate |]. obind R param EP. obind R t AT. obind R st BL.
    destruct bs as [| b bs]; [congruence |]. cbn [batch_loop] in BL. obind BL st1 B1. unfold batch_step in B1.
    destruct (first_fails c flags t b AT) as (e & E); [left; congruence |]. rewrite E in B1. discriminate.
  Qed.
  Theorem C116_no_seeds c bs : seed_names (r_seed c) = [] -> bs <> [] -> exists e, reconstruct c bs = Err e.
  Proof.
    intros NS NB. destruct (reconstruct c bs) as [df | e] eqn:R; [exfalso | exists e; reflexivity].
    unfold reconstruct_testdata in R. destruct mapping as [m |]; [| discriminate].
    obind R flags F. destruct (String.eqb (r_directory c) ""); [discriminate |]. obind R param EP. obind R t AT. obind R st BL.
    destruct bs as [| b bs]; [congruence |]. cbn [batch_loop] in BL. obind BL st1 B1. unfold batch_step in B1.
    destruct (first_fails c flags t b AT) as (e & E); [right; exact NS |]. rewrite E in B1. discriminate.
  Qed.

  (** ** C117: the table *)

  (** Everything known about a run that succeeds *)
  Lemma reconstruct_ok c bs df : reconstruct c bs = Ok df -> bs <> [] /\ r_random c = None /\ seed_names (r_seed c) <> [] /\
    r_directory c <> ""%string /\
    exists m flags param si os st,
      mapping = Some m /\ fit_flags names (r_fit c) (map (fun _ => r_default c) names) = Ok flags /\
      tensor_index tensors (r_tensor c) = Ok param /\ tensor_index tensors (last (seed_names (r_seed c)) "") = Ok si /\
      Forall (fun ns => init flags (snd ns) = Ok tt) (plan c) /\
      Loop names fit get_loss covariance goodness_of_fit circular mcmc c m flags param si false bs os /\
      st_events st = flat_map u_events os /\ st_cov st = flat_map u_cov os /\
      st_gof st = flat_map u_gof os /\ st_circ st = flat_map u_circ os /\ table names c st = Ok df.
  Proof.
    intros R. assert (R' := R). unfold reconstruct_testdata in R. destruct mapping as [m |] eqn:EMAP; [| discriminate].
    obind R flags F. destruct (String.eqb_spec (r_directory c) "") as [| DN]; [discriminate |]. obind R param EP. obind R t AT. obind R st BL.
    assert (NB : bs <> []).
    { intros ->. cbn in BL. injection BL as <-. apply table_ok in R as (NE & _). exact (NE eq_refl). }
    split; [exact NB |].
    assert (NR : r_random c = None).
    { destruct (r_random c) as [n |] eqn:NR; [| reflexivity]. destruct (C116_random c bs n NR NB) as (e & E). rewrite <- EMAP in R'. congruence. }
    split; [exact NR |].
    destruct (new_tray_ok _ _ _ _ _ _ _ _ _ clock _ _ _ _ AT) as (ND & FI & EX).
    destruct (batch_loop_ok _ _ _ _ _ _ _ _ _ _ _ _ _ _ _ _ _ NR ND EX _ _ BL) as (NS & si & os & EI & LO & E1 & E2 & E3 & E4).
    split; [exact (NS NB) |]. split; [exact DN |]. exists m, flags, param, si, os, st.
    cbn [st_events st_cov st_gof st_circ st_bound app] in *. split; [reflexivity |].
    repeat (split; [first [assumption | exact (EI NB)] |]). exact R.
  Qed.

  Lemma loop_nth c m flags param si bound bs os :
    Loop names fit get_loss covariance goodness_of_fit circular mcmc c m flags param si bound bs os ->
    length os = length bs /\ forall i b, nth_error bs i = Some b -> exists o bound', nth_error os i = Some o /\
      BatchResult names fit get_loss covariance goodness_of_fit circular mcmc c m flags param si bound' b o /\
      (i = 0%nat -> bound' = bound).
  Proof.
    revert bound os. induction bs as [| b bs IH]; intros bound [| o os] L; cbn [Loop] in L; try contradiction.
    - split; [reflexivity |]. intros [| i] b E; discriminate.
    - destruct L as (BR & L). destruct (IH _ _ L) as (LE & H). split; [cbn; congruence |].
      intros [| i] b' E; [injection E as <-; exists o, bound; auto |]. cbn in E |- *.
      destruct (H i b' E) as (o' & bound' & EO & BR' & _). exists o', bound'. split; [exact EO |]. split; [exact BR' | discriminate].
  Qed.

  Lemma known_nth r j x : nth_error (known r) j = Some x -> exists y, nth_error r j = Some y /\ x = Some y.
  Proof. unfold known. rewrite nth_error_map. destruct (nth_error r j) as [y |]; [intros [= <-]; exists y; auto | discriminate]. Qed.

  (** A table has the events of all batches in their order, with what is true, the
      seed and the fit from the seed: from the last of the given seeds only.  All
      its columns have one value for every event. *)
  Theorem C117_events c bs df : (forall samples, NoDup (column_names names (r_cov c) (r_circ c) (r_gof c) samples)) ->
    NoDup names -> NoDup (map fst (r_fit c)) -> reconstruct c bs = Ok df ->
    exists flags param si fs ess,
      FlagsOf names (r_default c) (r_fit c) flags /\
      nth_error tensors param = Some (r_tensor c) /\ nth_error tensors si = Some (last (seed_names (r_seed c)) ""%string) /\
      length fs = length bs /\ length ess = length bs /\ concat ess <> [] /\
      (forall i b f es, nth_error bs i = Some b -> nth_error fs i = Some f -> nth_error ess i = Some es ->
         BatchOf names fit get_loss flags param si b f es) /\
      (forall n v, dget n df = Some v -> length v = length (concat ess)) /\
      (forall j name, nth_error names j = Some name ->
         exists v v_reco v_seed, dget name df = Some v /\ dget (name ++ "_reco")%string df = Some v_reco /\
           dget (name ++ "_seed")%string df = Some v_seed /\
           forall k e, nth_error (concat ess) k = Some e ->
             exists x x_reco x_seed, nth_error (e_true e) j = Some x /\ nth_error v k = Some (Some x) /\
               nth_error (e_reco e) j = Some x_reco /\ nth_error v_reco k = Some (Some x_reco) /\
               nth_error (e_seed e) j = Some x_seed /\ nth_error v_seed k = Some (Some x_seed)) /\
      dget "loss_true" df = Some (map e_loss_true (concat ess)) /\
      dget "loss_reco" df = Some (map e_loss_reco (concat ess)) /\
      dget "loss_seed" df = Some (map e_loss_seed (concat ess)).
  Proof.
    intros NC NN NF R. destruct (reconstruct_ok _ _ _ R) as (_ & _ & _ & _ & m & flags & param & si & os & st & EM & FF & EP & EI & _ & LO & E1 & _ & _ & _ & T).
    destruct (loop_nth _ _ _ _ _ _ _ _ LO) as (LN & HN).
    destruct (table_ok _ _ _ _ T) as (NE & tot & samples & AC & MF & _ & HP & _ & _ & _ & L1 & L2 & L3).
    destruct (add_columns_lengths _ _ AC) as (-> & n & FL). specialize (NC samples). rewrite <- MF in NC.
    assert (ES : st_events st = concat (map u_events os)) by (rewrite E1; apply flat_map_concat_map).
    assert (LL : n = length (st_events st)).
    { rewrite Forall_forall in FL. rewrite <- (FL _ L1). cbn. apply map_length. }
    exists flags, param, si, (map u_fit os), (map u_events os). rewrite <- ES.
    split; [exact (C116_flags _ _ _ NN NF FF) |]. split; [exact (L_Cascade.name_index_nth _ _ _ EP) |].
    split; [exact (L_Cascade.name_index_nth _ _ _ EI) |]. rewrite !map_length. split; [exact LN |]. split; [exact LN |].
    split; [exact NE |]. split; [| split; [| split; [| split; [| split]]]].
    - intros i b f es EB EF EE. destruct (HN i b EB) as (o & bound' & EO & (BR & _) & _).
      rewrite nth_error_map, EO in EF, EE. injection EF as <-. injection EE as <-. exact BR.
    - intros nm v G. rewrite <- LL. rewrite Forall_forall in FL.
      assert (I : In nm (map fst tot)).
      { destruct (in_dec string_dec nm (map fst tot)) as [I | NI]; [exact I |].
        rewrite (fold_dset_other nm tot [] NI) in G. discriminate. }
      apply in_map_iff in I as ((nm', v') & EQ & I). cbn in EQ. subst nm'.
      rewrite (fold_dset_get nm v' tot [] NC I) in G. injection G as <-. exact (FL _ I).
    - intros j name EN.
      destruct (HP j name ""%string e_true EN ltac:(left; reflexivity)) as (v & (_ & CV) & IV).
      destruct (HP j name "_reco"%string e_reco EN ltac:(right; left; reflexivity)) as (vr & (_ & CR) & IR).
      destruct (HP j name "_seed"%string e_seed EN ltac:(right; right; left; reflexivity)) as (vs & (_ & CS) & IS).
      rewrite append_empty in IV. exists v, vr, vs.
      split; [exact (fold_dset_get _ _ tot [] NC IV) |]. split; [exact (fold_dset_get _ _ tot [] NC IR) |].
      split; [exact (fold_dset_get _ _ tot [] NC IS) |]. intros k e EK.
      destruct (CV k e EK) as (x & X1 & X2). destruct (CR k e EK) as (y & Y1 & Y2). destruct (CS k e EK) as (z & Z1 & Z2).
      apply known_nth in X1 as (x' & X1 & ->). apply known_nth in Y1 as (y' & Y1 & ->). apply known_nth in Z1 as (z' & Z1 & ->).
      exists x', y', z'. auto 10.
    - exact (fold_dset_get _ _ tot [] NC L1).
    - exact (fold_dset_get _ _ tot [] NC L2).
    - exact (fold_dset_get _ _ tot [] NC L3).
  Qed.

  (** The columns, in this order *)
  Theorem C117_columns c bs df : (forall samples, NoDup (column_names names (r_cov c) (r_circ c) (r_gof c) samples)) ->
    reconstruct c bs = Ok df -> exists samples, map fst df = column_names names (r_cov c) (r_circ c) (r_gof c) samples.
  Proof.
    intros NC R. destruct (reconstruct_ok _ _ _ R) as (_ & _ & _ & _ & m & flags & param & si & os & st & _ & _ & _ & _ & _ & _ & _ & _ & _ & _ & T).
    destruct (table_ok _ _ _ _ T) as (_ & tot & samples & AC & MF & _). destruct (add_columns_lengths _ _ AC) as (-> & _).
    exists samples. specialize (NC samples). rewrite <- MF in NC. pose proof (fold_dset_keys tot [] NC) as K. cbn in K. unfold dkeys in K.
    rewrite K. exact MF.
  Qed.

  (** ** C118: uncertainties and failures *)

  (** Uncertainties, p-values and the circularised uncertainty are one number for
      a batch, in the order of the batches, so that a table with any of them has
      as many events as batches. *)
  Theorem C118_one_per_batch c bs df : (forall samples, NoDup (column_names names (r_cov c) (r_circ c) (r_gof c) samples)) ->
    r_cov c = true \/ r_gof c = true \/ r_circ c = true -> reconstruct c bs = Ok df ->
    forall n v, dget n df = Some v -> length v = length bs.
  Proof.
    intros NC H R. destruct (reconstruct_ok _ _ _ R) as (_ & _ & _ & _ & m & flags & param & si & os & st & _ & _ & _ & _ & _ & LO & E1 & E2 & E3 & E4 & T).
    destruct (loop_nth _ _ _ _ _ _ _ _ LO) as (LN & HN).
    assert (HB : forall o, In o os -> exists b bound', BatchResult names fit get_loss covariance goodness_of_fit circular mcmc c m flags param si bound' b o).
    { intros o I. apply In_nth_error in I as (i & EO).
      assert (LI : (i < length bs)%nat) by (rewrite <- LN; apply nth_error_Some; congruence).
      destruct (nth_error bs i) as [b |] eqn:EB; [| apply nth_error_None in EB; lia].
      destruct (HN i b EB) as (o' & bound' & EO' & BR & _). exists b, bound'. congruence. }
    destruct (table_ok _ _ _ _ T) as (_ & tot & samples & AC & MF & _ & _ & HC & HX & HG & _).
    destruct (add_columns_lengths _ _ AC) as (-> & n & FL). specialize (NC samples). rewrite <- MF in NC. rewrite Forall_forall in FL.
    assert (LB : n = length bs).
    { rewrite <- LN. destruct H as [H | [H | H]].
      - destruct (HC H) as (_ & I & _). rewrite <- (FL _ I). cbn. rewrite map_length, E2.
        apply flat_map_single. intros o IO. destruct (HB o IO) as (b & bound' & _ & CO & _). unfold CovOf in CO. rewrite H in CO.
        destruct CO as (? & ? & ? & ? & ? & ? & _ & _ & _ & _ & _ & _ & _ & _ & EQ). rewrite EQ. eexists. reflexivity.
      - destruct (HG H) as (I & _). rewrite <- (FL _ I). cbn. rewrite map_length, E3.
        apply flat_map_single. intros o IO. destruct (HB o IO) as (b & bound' & _ & _ & CO & _). unfold GofOf in CO. rewrite H in CO.
        destruct CO as (? & ? & ? & _ & _ & _ & EQ). rewrite EQ. eexists. reflexivity.
      - rewrite <- (FL _ (HX H)). cbn. rewrite E4.
        apply flat_map_single. intros o IO. destruct (HB o IO) as (b & bound' & _ & _ & _ & CO & _). unfold CircOf in CO. rewrite H in CO.
        destruct CO as (? & ? & ? & _ & _ & _ & EQ). rewrite EQ. eexists. reflexivity. }
    intros nm v G.
    assert (I : In nm (map fst tot)).
    { destruct (in_dec string_dec nm (map fst tot)) as [I | NI]; [exact I |].
      rewrite (fold_dset_other nm tot [] NI) in G. discriminate. }
    apply in_map_iff in I as ((nm', v') & EQ & I). cbn in EQ. subst nm'.
    rewrite (fold_dset_get nm v' tot [] NC I) in G. injection G as <-. rewrite <- LB. exact (FL _ I).
  Qed.

  (** Row [i] of the columns with uncertainties: the roots of the diagonal of the
      matrices of batch [i], at the fit of that batch. *)
  Theorem C118_uncertainties c bs df : (forall samples, NoDup (column_names names (r_cov c) (r_circ c) (r_gof c) samples)) ->
    r_cov c = true -> reconstruct c bs = Ok df ->
    r_trafo c = true /\
    exists m flags si, mapping = Some m /\ fit_flags names (r_fit c) (map (fun _ => r_default c) names) = Ok flags /\
      Forall (fun x => x = true) flags /\ nth_error tensors si = Some (last (seed_names (r_seed c)) ""%string) /\
      forall i b, nth_error bs i = Some b ->
      exists seeds f reco v, nth_error b si = Some (TRows seeds) /\ fit flags b seeds = Ok f /\ f_hess f = true /\
        dget "result" reco = Some (RRows (f_result f)) /\ dget "result_trafo" reco = Some (RRows (f_trafo f)) /\
        covariance b reco = Ok v /\
        (forall j name suffix get, nth_error names j = Some name ->
           In (suffix, get) [("_unc"%string, v_cov); ("_unc_fit"%string, v_fit); ("_unc_sandwhich"%string, v_sand);
                             ("_unc_sandwhich_fit"%string, v_sand_fit)] ->
           exists u y, dget (name ++ suffix)%string df = Some u /\ nth_error u i = Some y /\ Root (get v j j) y) /\
        exists zen zj azi aj u w, dget "zenith" m = Some zen /\ nth_error names zj = Some zen /\
          dget "azimuth" m = Some azi /\ nth_error names aj = Some azi /\
          dget "cov_zenith_azimuth" df = Some u /\ nth_error u i = Some (Some (v_cov v zj aj)) /\
          dget "cov_fit_zenith_azimuth" df = Some w /\ nth_error w i = Some (Some (v_fit v zj aj)).
  Proof.
    intros NC H R. destruct (reconstruct_ok _ _ _ R) as (NB & NR & _ & _ & m & flags & param & si & os & st & EM & FF & EP & EI & FI & LO & E1 & E2 & _ & _ & T).
    destruct (loop_nth _ _ _ _ _ _ _ _ LO) as (LN & HN).
    destruct (table_ok _ _ _ _ T) as (_ & tot & samples & AC & MF & _ & _ & HC & _).
    destruct (add_columns_lengths _ _ AC) as (-> & _). specialize (NC samples). rewrite <- MF in NC.
    destruct (HC H) as (HU & HZ & HF).
    assert (HO : forall i b, nth_error bs i = Some b -> exists o bound', nth_error os i = Some o /\
      BatchResult names fit get_loss covariance goodness_of_fit circular mcmc c m flags param si bound' b o).
    { intros i b E. destruct (HN i b E) as (o & bound' & EO & BR & _). exists o, bound'. auto. }
    assert (SG : forall o, In o os -> exists y, u_cov o = [y]).
    { intros o IO. apply In_nth_error in IO as (i & EO).
      assert (LI : (i < length bs)%nat) by (rewrite <- LN; apply nth_error_Some; congruence).
      destruct (nth_error bs i) as [b |] eqn:EB; [| apply nth_error_None in EB; lia].
      destruct (HO i b EB) as (o' & bound' & EO' & _ & CO & _). rewrite EO in EO'. injection EO' as <-.
      unfold CovOf in CO. rewrite H in CO.
      destruct CO as (? & ? & ? & ? & ? & ? & _ & _ & _ & _ & _ & _ & _ & _ & EQ). rewrite EQ. eexists. reflexivity. }
    destruct (flat_map_single u_cov os SG) as (_ & FS).
    assert (RT : r_trafo c = true).
    { destruct bs as [| b bs']; [congruence |]. destruct (HO 0%nat b eq_refl) as (o & bound' & _ & _ & CO & _).
      unfold CovOf in CO. rewrite H in CO. destruct CO as (? & ? & ? & ? & ? & ? & _ & _ & RT & _). exact RT. }
    split; [exact RT |]. exists m, flags, si. split; [exact EM |]. split; [exact FF |]. split.
    { rewrite Forall_forall in FI. specialize (FI ("covariance"%string, SCov)). cbn [snd] in FI.
      assert (I : In ("covariance"%string, SCov) (plan c)).
      { rewrite plan_plain by exact NR. apply in_or_app. right. right. apply (proj1 (extra_in c)). exact H. }
      specialize (FI I). unfold M_TestReco.init in FI. obind FI u0 CI. unfold M_Reco.covariance_init in CI.
      destruct (M_Reco.all_fitted flags) eqn:AF; [| discriminate]. unfold M_Reco.all_fitted in AF.
      rewrite Forall_forall. intros x IX. exact (proj1 (forallb_forall _ _) AF x IX). }
    split; [exact (L_Cascade.name_index_nth _ _ _ EI) |]. intros i b EB.
    destruct (HO i b EB) as (o & bound' & EO & BO & CO & _). unfold CovOf in CO. rewrite H in CO.
    destruct CO as (reco & v & zn & zen & an & azi & (FE1 & FE2 & _) & EV & _ & FH & Z1 & Z2 & A1 & A2 & EQ).
    destruct BO as (truths & seeds & _ & ES & EF & _). exists seeds, (u_fit o), reco, v.
    repeat (split; [assumption |]).
    destruct (FS i o EO) as (y & EY & NY). rewrite EQ in EY. injection EY as <-. rewrite <- E2 in NY. split.
    - intros j name suffix get EN I.
      assert (LJ : (j < length names)%nat) by (apply nth_error_Some; congruence).
      assert (K : exists go, In (suffix, go) [("_unc"%string, o_std); ("_unc_fit"%string, o_std_fit); ("_unc_sandwhich"%string, o_sand);
                        ("_unc_sandwhich_fit"%string, o_sand_fit)] /\ forall z z',
                 go (mk_cov_row z z' (std_dev names (v_cov v)) (std_dev names (v_fit v)) (std_dev names (v_sand v)) (std_dev names (v_sand_fit v)))
                 = std_dev names (get v)).
      { destruct I as [[= <- <-] | [[= <- <-] | [[= <- <-] | [[= <- <-] | []]]]].
        - exists o_std. cbn; auto. - exists o_std_fit. cbn; auto. - exists o_sand. cbn; auto. - exists o_sand_fit. cbn; auto 6. }
      destruct K as (go & IG & EG). destruct (HU j name suffix go EN IG) as (u & (_ & CU) & IU).
      destruct (CU i _ NY) as (x & X1 & X2). rewrite EG in X1.
      destruct (std_dev_root names (get v) j LJ) as (x' & X1' & RX). rewrite X1 in X1'. injection X1' as <-.
      exists u, x. split; [exact (fold_dset_get _ _ tot [] NC IU) |]. auto.
    - exists zn, zen, an, azi. eexists. eexists. split; [exact Z1 |]. split; [exact (L_Cascade.name_index_nth _ _ _ Z2) |].
      split; [exact A1 |]. split; [exact (L_Cascade.name_index_nth _ _ _ A2) |].
      split; [exact (fold_dset_get _ _ tot [] NC HZ) |].
      split; [rewrite nth_error_map, NY; reflexivity |].
      split; [exact (fold_dset_get _ _ tot [] NC HF) |]. rewrite nth_error_map, NY. reflexivity.
  Qed.

  (** The same for p-values and the circularised uncertainty *)
  Theorem C118_p_values c bs df : (forall samples, NoDup (column_names names (r_cov c) (r_circ c) (r_gof c) samples)) ->
    r_gof c = true -> reconstruct c bs = Ok df ->
    exists u w, dget "event_p_value_1sided" df = Some u /\ dget "event_p_value_2sided" df = Some w /\
      forall i b, nth_error bs i = Some b -> exists results y, goodness_of_fit b results = Ok y /\
        nth_error u i = Some (y_p1 y) /\ nth_error w i = Some (y_p2 y).
  Proof.
    intros NC H R. destruct (reconstruct_ok _ _ _ R) as (_ & _ & _ & _ & m & flags & param & si & os & st & _ & _ & _ & _ & _ & LO & _ & _ & E3 & _ & T).
    destruct (loop_nth _ _ _ _ _ _ _ _ LO) as (LN & HN).
    destruct (table_ok _ _ _ _ T) as (_ & tot & samples & AC & MF & _ & _ & _ & _ & HG & _).
    destruct (add_columns_lengths _ _ AC) as (-> & _). specialize (NC samples). rewrite <- MF in NC.
    destruct (HG H) as (I1 & I2 & _). eexists. eexists. split; [exact (fold_dset_get _ _ tot [] NC I1) |].
    split; [exact (fold_dset_get _ _ tot [] NC I2) |].
    assert (SG : forall o, In o os -> exists y, u_gof o = [y]).
    { intros o IO. apply In_nth_error in IO as (i & EO).
      assert (LI : (i < length bs)%nat) by (rewrite <- LN; apply nth_error_Some; congruence).
      destruct (nth_error bs i) as [b |] eqn:EB; [| apply nth_error_None in EB; lia].
      destruct (HN i b EB) as (o' & bound' & EO' & (_ & _ & CO & _) & _). rewrite EO in EO'. injection EO' as <-.
      unfold GofOf in CO. rewrite H in CO. destruct CO as (? & ? & ? & _ & _ & _ & EQ). rewrite EQ. eexists. reflexivity. }
    destruct (flat_map_single u_gof os SG) as (_ & FS). intros i b EB.
    destruct (HN i b EB) as (o & bound' & EO & (_ & _ & CO & _) & _). unfold GofOf in CO. rewrite H in CO.
    destruct CO as (results & reco & y & _ & _ & EY & EQ). exists results, y. split; [exact EY |].
    destruct (FS i o EO) as (z & EZ & NZ). rewrite EQ in EZ. injection EZ as <-. rewrite <- E3 in NZ.
    split; rewrite nth_error_map, NZ; reflexivity.
  Qed.
  Lemma samples_all l : length (gof_samples l) = length l -> forall i g, nth_error l i = Some g ->
    exists s, z_samples g = Some s /\ nth_error (gof_samples l) i = Some s.
  Proof.
    assert (LE : forall l, (length (gof_samples l) <= length l)%nat).
    { clear. induction l as [| g l IH]; [cbn; lia |]. unfold gof_samples in *. cbn [flat_map]. rewrite app_length.
      destruct (z_samples g); cbn in *; lia. }
    induction l as [| g0 l IH]; intros L [| i] g E; try discriminate; unfold gof_samples in *; cbn [flat_map] in *; rewrite app_length in L;
      specialize (LE l); cbn [length] in L; cbn in E.
    - injection E as <-. destruct (z_samples g0) as [s |]; [exists s; auto | cbn in L; lia].
    - destruct (z_samples g0) as [s |]; cbn in L; [| lia]. cbn. apply IH; [lia | exact E].
  Qed.
  (** If the table has columns for the sampled reconstructions, every batch has
      them: the roots of the diagonal of their covariance and their bias. *)
  Theorem C118_samples c bs df : (forall samples, NoDup (column_names names (r_cov c) (r_circ c) (r_gof c) samples)) ->
    r_gof c = true -> reconstruct c bs = Ok df -> names <> [] ->
    (exists name, In name names /\ In (name ++ "_unc_samples")%string (map fst df) /\
       ~ In (name ++ "_unc_samples")%string (column_names names (r_cov c) (r_circ c) true false)) ->
    forall i b, nth_error bs i = Some b -> exists results y bias cov, goodness_of_fit b results = Ok y /\
      y_samples y = Some (bias, cov) /\
      forall j name, nth_error names j = Some name -> exists u w x z,
        dget (name ++ "_unc_samples")%string df = Some u /\ nth_error u i = Some x /\ Root (cov j j) x /\
        dget (name ++ "_sample_reco_bias")%string df = Some w /\ nth_error w i = Some (Some z) /\ nth_error bias j = Some z.
  Proof.
    intros NC H R NE (name0 & IN0 & ID0 & NI0). pose proof (C118_one_per_batch c bs df NC (or_intror (or_introl H)) R) as ONE.
    destruct (reconstruct_ok _ _ _ R) as (_ & _ & _ & _ & m & flags & param & si & os & st & _ & _ & _ & _ & _ & LO & _ & _ & E3 & _ & T).
    destruct (loop_nth _ _ _ _ _ _ _ _ LO) as (LN & HN).
    destruct (table_ok _ _ _ _ T) as (_ & tot & samples & AC & MF & ES & _ & _ & _ & HG & _).
    destruct (add_columns_lengths _ _ AC) as (ED & _). specialize (NC samples). rewrite <- MF in NC.
    assert (SA : samples = true).
    { destruct samples; [reflexivity | exfalso]. apply NI0. rewrite H in MF.
      rewrite ED in ID0. pose proof (fold_dset_keys tot [] NC) as K. unfold dkeys in K. rewrite K in ID0. cbn [map app] in ID0. rewrite <- MF. exact ID0. }
    destruct (HG H) as (I1 & _ & HS). specialize (HS SA).
    assert (SG : forall o, In o os -> exists y, u_gof o = [y]).
    { intros o IO. apply In_nth_error in IO as (i & EO).
      assert (LI : (i < length bs)%nat) by (rewrite <- LN; apply nth_error_Some; congruence).
      destruct (nth_error bs i) as [b |] eqn:EB; [| apply nth_error_None in EB; lia].
      destruct (HN i b EB) as (o' & bound' & EO' & (_ & _ & CO & _) & _). rewrite EO in EO'. injection EO' as <-.
      unfold GofOf in CO. rewrite H in CO. destruct CO as (? & ? & ? & _ & _ & _ & EQ). rewrite EQ. eexists. reflexivity. }
    destruct (flat_map_single u_gof os SG) as (LF & FS).
    assert (LS : length (gof_samples (st_gof st)) = length (st_gof st)).
    { assert (EN1 : exists name1, nth_error names 0 = Some name1) by (destruct names; [congruence | eexists; reflexivity]).
      destruct EN1 as (name1 & EN1). destruct (HS 0%nat name1 EN1) as (v & w & (LV & _) & IV & _).
      rewrite <- LV, E3, LF, LN. apply (ONE (name1 ++ "_unc_samples")%string v). rewrite ED. exact (fold_dset_get _ _ tot [] NC IV). }
    intros i b EB. destruct (HN i b EB) as (o & bound' & EO & (_ & _ & CO & _) & _). unfold GofOf in CO. rewrite H in CO.
    destruct CO as (results & reco & y & _ & _ & EY & EQ). destruct (FS i o EO) as (z & EZ & NZ). rewrite EQ in EZ. injection EZ as <-.
    rewrite <- E3 in NZ. destruct (samples_all _ LS i _ NZ) as (s & ES1 & NS). cbn [z_samples] in ES1.
    destruct (y_samples y) as [(bias, cov) |] eqn:EYS; [| discriminate]. injection ES1 as <-.
    exists results, y, bias, cov. split; [exact EY |]. split; [exact EYS |]. intros j name EN.
    assert (LJ : (j < length names)%nat) by (apply nth_error_Some; congruence).
    destruct (HS j name EN) as (u & w & (_ & CU) & IU & (_ & CW) & IW).
    destruct (CU i _ NS) as (x & X1 & X2). destruct (CW i _ NS) as (z0 & Z1 & Z2). cbn [fst snd] in *.
    destruct (std_dev_root names cov j LJ) as (x' & X1' & RX). rewrite X1 in X1'. injection X1' as <-.
    unfold known in Z1. rewrite nth_error_map in Z1. destruct (nth_error bias j) as [z1 |] eqn:EBJ; [| discriminate]. injection Z1 as <-.
    exists u, w, x, z1. rewrite ED. split; [exact (fold_dset_get _ _ tot [] NC IU) |]. split; [exact X2 |]. split; [exact RX |].
    split; [exact (fold_dset_get _ _ tot [] NC IW) |]. split; [exact Z2 | reflexivity].
  Qed.
  Theorem C118_circular c bs df : (forall samples, NoDup (column_names names (r_cov c) (r_circ c) (r_gof c) samples)) ->
    r_circ c = true -> reconstruct c bs = Ok df ->
    exists u, dget "circular_unc" df = Some u /\
      forall i b, nth_error bs i = Some b -> exists results x, circular b results = Ok x /\ nth_error u i = Some x.
  Proof.
    intros NC H R. destruct (reconstruct_ok _ _ _ R) as (_ & _ & _ & _ & m & flags & param & si & os & st & _ & _ & _ & _ & _ & LO & _ & _ & _ & E4 & T).
    destruct (loop_nth _ _ _ _ _ _ _ _ LO) as (LN & HN).
    destruct (table_ok _ _ _ _ T) as (_ & tot & samples & AC & MF & _ & _ & _ & HX & _).
    destruct (add_columns_lengths _ _ AC) as (-> & _). specialize (NC samples). rewrite <- MF in NC.
    eexists. split; [exact (fold_dset_get _ _ tot [] NC (HX H)) |].
    assert (SG : forall o, In o os -> exists y, u_circ o = [y]).
    { intros o IO. apply In_nth_error in IO as (i & EO).
      assert (LI : (i < length bs)%nat) by (rewrite <- LN; apply nth_error_Some; congruence).
      destruct (nth_error bs i) as [b |] eqn:EB; [| apply nth_error_None in EB; lia].
      destruct (HN i b EB) as (o' & bound' & EO' & (_ & _ & _ & CO & _) & _). rewrite EO in EO'. injection EO' as <-.
      unfold CircOf in CO. rewrite H in CO. destruct CO as (? & ? & ? & _ & _ & _ & EQ). rewrite EQ. eexists. reflexivity. }
    destruct (flat_map_single u_circ os SG) as (_ & FS). intros i b EB.
    destruct (HN i b EB) as (o & bound' & EO & (_ & _ & _ & CO & _) & _). unfold CircOf in CO. rewrite H in CO.
    destruct CO as (results & reco & x & _ & _ & EX & EQ). exists results, x. split; [exact EX |].
    destruct (FS i o EO) as (z & EZ & NZ). rewrite EQ in EZ. injection EZ as <-. rewrite E4. exact NZ.
  Qed.

  (** What a table cannot be made with: no data, the scan of the likelihood, no
      mapping to particles, or a file without directory *)
  Theorem C118_failures c bs : bs = [] \/ r_scan c = true \/ mapping = None \/ r_directory c = ""%string ->
    exists e, reconstruct c bs = Err e.
  Proof.
    intros H. destruct (reconstruct c bs) as [df | e] eqn:R; [exfalso | exists e; reflexivity].
    destruct (reconstruct_ok _ _ _ R) as (NB & _ & _ & ND & m & flags & param & si & os & st & EM & _ & _ & _ & _ & LO & _).
    destruct H as [H | [H | [H | H]]]; [exact (NB H) | | congruence | exact (ND H)].
    destruct bs as [| b bs]; [congruence |]. destruct (loop_nth _ _ _ _ _ _ _ _ LO) as (_ & HN).
    destruct (HN 0%nat b eq_refl) as (o & bound' & _ & (_ & _ & _ & _ & _ & SC) & _). congruence.
  Qed.

  (** Sampling: every batch has a single event, and no sample may be accepted for
      the first batch. *)
  Theorem C118_mcmc c b bs df : r_mcmc c = true -> reconstruct c (b :: bs) = Ok df ->
    exists flags si seeds f, fit_flags names (r_fit c) (map (fun _ => r_default c) names) = Ok flags /\
      nth_error tensors si = Some (last (seed_names (r_seed c)) ""%string) /\ nth_error b si = Some (TRows seeds) /\
      fit flags b seeds = Ok f /\ length (f_result f) = 1%nat /\ mcmc b (f_result f) = Ok 0%nat.
  Proof.
    intros H R. destruct (reconstruct_ok _ _ _ R) as (_ & _ & _ & _ & m & flags & param & si & os & st & _ & FF & _ & EI & _ & LO & _).
    destruct (loop_nth _ _ _ _ _ _ _ _ LO) as (_ & HN). destruct (HN 0%nat b eq_refl) as (o & bound' & _ & (BO & _ & _ & _ & MC & _) & EB).
    destruct (MC H) as (L1 & n & EN & [-> | Z]); [| rewrite (EB eq_refl) in Z; discriminate].
    destruct BO as (truths & seeds & _ & ES & EF & _). exists flags, si, seeds, (u_fit o).
    repeat (split; [first [assumption | exact (L_Cascade.name_index_nth _ _ _ EI)] |]). exact EN.
  Qed.
End TestReco.

(** ** A run *)

(** The result is the seed, the losses are not numbers; there is one circularised
    uncertainty for a batch, its number of events. *)
Definition ex_rows (b : batch) (i : nat) : nat := match nth_error b i with Some (TRows rows) => length rows | _ => 0 end.
Definition ex_matrix (x : R) (i j : nat) : R := x.
Definition ex_run (names : list string) (c : reco_settings) (bs : list batch) : result (dict column) :=
  reconstruct_testdata names (Some [("zenith", "x"); ("azimuth", "x")]%string) ["x_parameters"; "a"; "b"]%string
    (fun _ _ seeds => Ok (mk_fitted seeds seeds true)) (fun _ _ => Ok None) (fun _ => Ok None)
    (fun _ _ => Ok (mk_covariances (ex_matrix 1) (ex_matrix 2) (ex_matrix 3) (ex_matrix 4) (ex_matrix 5) (ex_matrix 6) (ex_matrix 7) (ex_matrix 8)))
    (fun _ _ => Ok (mk_goodness (Some 1) None None)) (fun b _ => Ok (Some (INR (ex_rows b 0)))) (fun _ _ => Ok 0%nat)
    (fun _ _ => Ok tt) (fun _ => Ok tt) (fun _ => RFlag false) c bs.
Definition ex_settings (seed : seed_setting) (cov gof circ mcmc : bool) : reco_settings :=
  mk_reco_settings seed None "out" "x_parameters" true true [("x"%string, true)] cov gof circ mcmc false.
Definition ex_batch (x a b : R) : batch := [TRows [[x]]; TRows [[a]]; TRows [[b]]].

(** Two seeds, two batches: the second seed is the one that is used *)
Example C117_run : exists df, ex_run ["x"%string] (ex_settings (Seeds ["a"; "b"]%string) true true true true) [ex_batch 1 2 3; ex_batch 4 5 6] = Ok df /\
  dget "x" df = Some [Some 1; Some 4] /\ dget "x_seed" df = Some [Some 3; Some 6] /\ dget "x_reco" df = Some [Some 3; Some 6] /\
  dget "circular_unc" df = Some [Some (INR 1); Some (INR 1)].
Proof. eexists. split; [vm_compute; reflexivity |]. repeat split. Qed.
Example C117_names cov circ gof samples : NoDup (column_names ["x"%string] cov circ gof samples).
Proof.
  destruct cov, circ, gof, samples; cbv; repeat (constructor; [cbn; intuition discriminate |]); constructor.
Qed.
Example C116_run : exists flags, fit_flags ["x"; "y"]%string [("y"%string, false)] [true; true] = Ok flags /\
  FlagsOf ["x"; "y"]%string true [("y"%string, false)] flags.
Proof.
  exists [true; false]. split; [reflexivity |]. split; [reflexivity |].
  intros [| [| [| j]]] name [= <-]; reflexivity.
Qed.
Example C116_run_duplicates : ex_run ["x"%string] (ex_settings (Seeds ["a"; "a"]%string) false false false false) [ex_batch 1 2 3] = Err ValueError.
Proof. reflexivity. Qed.
Example C116_run_random :
  ex_run ["x"%string] (mk_reco_settings (OneSeed "a") (Some 2%nat) "out" "x_parameters" true true [] false false false false false) [ex_batch 1 2 3] = Err AttributeError.
Proof. reflexivity. Qed.
Example C118_run_samples : exists df, reconstruct_testdata ["x"%string] (Some [("zenith", "x"); ("azimuth", "x")]%string) ["x_parameters"; "a"; "b"]%string
    (fun _ _ seeds => Ok (mk_fitted seeds seeds true)) (fun _ _ => Ok None) (fun _ => Ok None) (fun _ _ => Err ValueError)
    (fun _ _ => Ok (mk_goodness (Some 1) None (Some ([7], ex_matrix 4)))) (fun _ _ => Ok None) (fun _ _ => Ok 0%nat)
    (fun _ _ => Ok tt) (fun _ => Ok tt) (fun _ => RFlag false) (ex_settings (OneSeed "a") false true false false) [ex_batch 1 2 3; ex_batch 4 5 6] = Ok df /\
  dget "x_sample_reco_bias" df = Some [Some 7; Some 7] /\ In "x_unc_samples"%string (map fst df) /\
  ~ In "x_unc_samples"%string (column_names ["x"%string] false false true false).
Proof.
  eexists. split; [cbv -[IZR std_dev]; reflexivity |]. split; [reflexivity |]. split; [cbn; tauto |]. cbv. intuition discriminate.
Qed.
Example C118_run_scan :
  ex_run ["x"%string] (mk_reco_settings (OneSeed "a") None "out" "x_parameters" true true [] false false false false true) [ex_batch 1 2 3] = Err TypeError.
Proof. reflexivity. Qed.

(** A parameter with the name of another column takes its place: the fit of "x" is
    not in the table. *)
Theorem C117_collision_refuted : exists df,
  ex_run ["x"; "x_reco"]%string (mk_reco_settings (OneSeed "a") None "out" "x_parameters" true true [] false false false false false)
    [[TRows [[1; 2]]; TRows [[3; 4]]; TRows [[5; 6]]]] = Ok df /\
  dget "x_reco" df = Some [Some 2] /\ ~ In (Some 3) [Some 2].
Proof.
  eexists. split; [vm_compute; reflexivity |]. split; [reflexivity |]. intros [H | []]. injection H as H. lra.
Qed.

(** Rows of a table need not belong together: if a batch has two events and
    another one none, the second event has the uncertainty of the other batch. *)
Theorem C118_misaligned_refuted : exists df u,
  ex_run ["x"%string] (ex_settings (OneSeed "a") false false true false)
    [[TRows [[1]; [2]]; TRows [[3]; [4]]; TRows []]; [TRows []; TRows []; TRows []]] = Ok df /\
  dget "x" df = Some [Some 1; Some 2] /\ dget "circular_unc" df = Some [Some 2; Some u] /\ u <> 2.
Proof.
  eexists. exists 0. split; [vm_compute; reflexivity |]. split; [reflexivity |]. split; [cbn; reflexivity | lra].
Qed.
Print Assumptions C116_flags.
Print Assumptions C116_flags_error.
Print Assumptions C116_modules.
Print Assumptions C116_duplicates.
Print Assumptions C116_random.
Print Assumptions C116_no_seeds.
Print Assumptions C117_events.
Print Assumptions C117_columns.
Print Assumptions C118_one_per_batch.
Print Assumptions C118_uncertainties.
Print Assumptions C118_p_values.
Print Assumptions C118_circular.
Print Assumptions C118_failures.
Print Assumptions C118_mcmc.
Print Assumptions C117_collision_refuted.
Print Assumptions C118_misaligned_refuted.
Print Assumptions C118_samples.
