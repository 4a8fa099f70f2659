(** Proofs about what a data handler and a model manager do with replaced
    sub-components. *)
From Verif Require Import Py PyFacts PyStr PyStrFacts M_Config S_Config L_Config M_Component S_Component L_Component
  L_Load L_Replace.

Lemma settings_name_iff n sn : settings_name n = Some sn <-> ModuleSettings n sn.
Proof.
  split; [|intros H; inversion H; reflexivity].
  unfold settings_name. intros H.
  repeat match type of H with
  | (if String.eqb n ?x then _ else _) = _ =>
      let E := fresh in destruct (String.eqb n x) eqn:E;
      [apply String.eqb_eq in E; subst n; injection H as <-; constructor|]
  end. discriminate.
Qed.

Lemma module_settings_inj n n' sn sn' : ModuleSettings n sn -> ModuleSettings n' sn' ->
  (n = n' <-> sn = sn') /\ n <> sn' /\ sn <> n'.
Proof.
  intros H H'; inversion H; subst; inversion H'; subst;
    (split; [split; intros E; try reflexivity; discriminate E|split; discriminate]).
Qed.

Lemma handler_step n c c2 cf dd :
  k_conf c = Some cf -> k_data c = VDict dd -> dwf (c_mutable (co_dict cf)) ->
  (forall m s d, dget m (k_subs c) = Some s -> k_data s = VDict d -> dwf d) ->
  handler_update_one n c = (c2, None) ->
  exists cf2 dd2 s, k_conf c2 = Some cf2 /\ k_data c2 = VDict dd2 /\ k_subs c2 = k_subs c /\
    dwf (c_mutable (co_dict cf2)) /\
    (forall k, dget k dd2 = match dget k (sub_data c n) with Some v => Some v | None => dget k dd end) /\
    dget n (k_subs c) = Some s /\ HandlerDescribes cf2 n s /\
    (forall n' s', n' <> n -> HandlerDescribes cf n' s' -> HandlerDescribes cf2 n' s').
Proof.
  intros Hcf Hdd Hwf Hsd E. unfold handler_update_one in E.
  destruct (settings_name n) as [sn|] eqn:Esn; [|inversion E]. apply settings_name_iff in Esn.
  destruct (dget n (k_subs c)) as [s|] eqn:Es; [|inversion E].
  rewrite Hdd in E. destruct (k_data s) as [| | | | | |ds] eqn:Eds; try (inversion E; fail).
  cbn [with_data k_conf] in E. rewrite Hcf in E.
  destruct (k_conf s) as [cfs|] eqn:Ecfs; [|inversion E].
  destruct (dget "config" (c_mutable (co_dict cf))) as [[| | | | | |cd]|] eqn:Ecd; try (inversion E; fail).
  set (cd' := dset sn (VDict (co_config cfs)) (dset n (VStr (k_class s)) cd)) in E.
  destruct (update_mutable_settings _ _) as [cf1 [e1|]] eqn:Eu; [inversion E|].
  destruct (replace_sub_component n s cf1) as [cf2|] eqn:Er; [|inversion E]. injection E as E. subst c2.
  apply replace_inv in Er. destruct Er as (_ & _ & d & _ & (_ & Rm & _) & Rc & _).
  unfold update_mutable_settings in Eu.
  destruct (update_loop _ _) as [mm [ee|]] eqn:Eloop; [inversion Eu|].
  destruct (combine_settings _) as [cfg|] eqn:Eco; [|inversion Eu]. injection Eu as Eu. subst cf1. cbn [co_dict co_config] in Rm, Rc.
  cbn [set_mutable c_mutable] in Rm.
  apply update_loop_ok in Eloop. destruct Eloop as (Hk1 & Hmm & Hk2).
  assert (Hwf1 : dwf (dset "config" (VDict cd') (c_mutable (co_dict cf)))) by (apply dwf_dset; exact Hwf).
  assert (Hwfm : dwf mm) by (unfold dwf; rewrite Hk2; exact Hwf).
  assert (Hget : dget "config" mm = Some (VDict cd')).
  { rewrite Hmm, dget_dupdate by exact Hwf1. rewrite dget_dset_same. reflexivity. }
  assert (Hcfg : dget "config" cfg = Some (VDict cd')).
  { unfold combine_settings in Eco. destruct (existsb _ _); [discriminate|]. injection Eco as <-.
    cbn [set_mutable c_mutable c_settings]. rewrite dget_dupdate by exact Hwfm. rewrite Hget. reflexivity. }
  assert (Hsub : sub_data c n = ds) by (unfold sub_data; rewrite Es, Eds; reflexivity).
  exists cf2, (dupdate dd ds), s. cbn [with_conf with_data k_conf k_data k_subs].
  split; [reflexivity|]. split; [reflexivity|]. split; [reflexivity|].
  split; [rewrite <- Rm; exact Hwfm|].
  split; [intros k; rewrite Hsub; apply dget_dupdate; exact (Hsd n s ds Es Eds)|].
  split; [reflexivity|]. split.
  - exists sn, cd', cfs. rewrite <- Rm, Rc. repeat (split; [assumption|]). split.
    + unfold cd'. rewrite dget_dset_other by (apply (module_settings_inj _ _ _ _ Esn Esn)). apply dget_dset_same.
    + unfold cd'. apply dget_dset_same.
  - intros n' s' Hne (sn' & cd0 & cfs' & D1 & D2 & D3 & D4 & D5 & D6).
    assert (cd0 = cd) by congruence. subst cd0.
    destruct (module_settings_inj _ _ _ _ D1 Esn) as (J1 & J2 & J3).
    exists sn', cd', cfs'. rewrite <- Rm, Rc. repeat (split; [assumption|]). unfold cd'. split.
    + rewrite dget_dset_other, dget_dset_other by assumption. exact D5.
    + rewrite dget_dset_other, dget_dset_other; [exact D6| |]; [exact J3|].
      intros K. apply Hne. apply J1. exact K.
Qed.

Lemma handler_loop names : forall c c1 cf dd,
  k_conf c = Some cf -> k_data c = VDict dd -> dwf (c_mutable (co_dict cf)) ->
  (forall m s d, dget m (k_subs c) = Some s -> k_data s = VDict d -> dwf d) ->
  handler_update_loop names c = (c1, None) ->
  exists cf1 dd1, k_conf c1 = Some cf1 /\ k_data c1 = VDict dd1 /\ k_subs c1 = k_subs c /\
    (forall k, dget k dd1 = latest k (map (sub_data c) names) (dget k dd)) /\
    (forall n, In n names -> exists s, dget n (k_subs c) = Some s /\ HandlerDescribes cf1 n s) /\
    (forall n s, dget n (k_subs c) = Some s -> HandlerDescribes cf n s -> HandlerDescribes cf1 n s).
Proof.
  induction names as [|n names IH]; intros c c1 cf dd Hcf Hdd Hwf Hsd H; cbn [handler_update_loop] in H.
  - injection H as <-. exists cf, dd. split; [exact Hcf|]. split; [exact Hdd|].
    do 2 (split; [reflexivity|]). split; [intros n []|auto].
  - destruct (handler_update_one n c) as [c2 [e2|]] eqn:E; [inversion H|].
    destruct (handler_step n c c2 cf dd Hcf Hdd Hwf Hsd E)
      as (cf2 & dd2 & s & A1 & A2 & A3 & A4 & A5 & A6 & A7 & A8).
    assert (Hsd2 : forall m s d, dget m (k_subs c2) = Some s -> k_data s = VDict d -> dwf d)
      by (intros ? ? ?; rewrite A3; apply Hsd).
    destruct (IH c2 c1 cf2 dd2 A1 A2 A4 Hsd2 H) as (cf1 & dd1 & B1 & B2 & B3 & B4 & B5 & B6).
    rewrite A3 in *. exists cf1, dd1. split; [exact B1|]. split; [exact B2|]. split; [congruence|].
    assert (Hsame : forall m, sub_data c2 m = sub_data c m) by (intros m; unfold sub_data; rewrite A3; reflexivity).
    split.
    { intros k. rewrite B4. cbn [map latest]. rewrite A5. f_equal. apply map_ext. exact Hsame. }
    split.
    + intros m [<-|Hm]; [|exact (B5 m Hm)]. exists s. auto.
    + intros m s' Hs' Hd. destruct (string_dec m n) as [->|N]; [|auto].
      assert (s' = s) by congruence. subst s'. apply B6; assumption.
Qed.

Section Update.
Variable rv : string.
Variable kn : string -> bool.
Variable kind_of : string -> kind.
Variable rebuild : dict value -> result value.

Notation load := (load rv kn kind_of rebuild).

Lemma configuration_init_dict c o : configuration_init rv c = Ok o ->
  co_dict o = mkConfig rv (c_git c) (c_class c) (c_check c) (c_settings c)
    (c_mutable c) (c_subs c) (c_dep c) (c_mut_subs c).
Proof.
  unfold configuration_init. destruct (check_dependent_names _ _); [discriminate|].
  destruct (combine_settings _); intros H; inversion H; reflexivity.
Qed.

(** A successful load which replaces something runs the update. *)
Lemma load_updates fuel fs cls p m c m' cfg :
  dwf m -> m <> [] -> fs (splitext_path p) FConf = Some (CConf cfg) -> NoDup (c_dep cfg) ->
  load (S fuel) fs (new_component cls) p m = (c, None, m') ->
  exists v self3 self4 cf',
    fs (splitext_path p) FData = Some (CData v) /\
    update_sub_components rv kind_of rebuild (filter (fun n => dmem n m) (c_dep cfg)) self3 = (self4, None) /\
    c = set_configured self4 /\ k_conf self3 = Some cf' /\ c_mutable (co_dict cf') = c_mutable cfg /\
    k_data self3 = v /\ k_class self3 = cls /\ k_subs self4 = k_subs self3 /\
    (forall n, In n (dkeys m) -> In n (filter (fun n => dmem n m) (c_dep cfg))) /\
    dkeys (k_subs self3) = c_dep cfg.
Proof.
  intros Hwf Hne Hfile Hnd Hl. 
  pose proof (load_replace _ _ _ _ _ _ _ _ _ _ _ _ Hwf Hfile Hnd Hl) as (cfr & _ & _ & Hks & Hall & _).
  pose proof Hl as Hl0. apply load_ok in Hl.
  destruct Hl as (fuel' & cfg0 & cf & v & self3 & upd & self4 & Hf & _ & _ & F1 & F2 & Hinit & Hver & Hcls & Hv & Hloop & Hupd & Hc & _).
  rewrite Hfile in F1. injection F1 as <-.
  apply configuration_init_dict in Hinit.
  eapply load_loop_spec with (cf := cf) in Hloop; [|exact kind_of|exact Hnd|exact Hwf|reflexivity|intros n _ []].
  destruct Hloop as (cf' & I1 & I2 & I3 & I4 & I5 & I6 & I7 & I8 & I9 & I10 & _).
  simpl app in I10.
  assert (Hin : forall n, In n (dkeys m) -> In n (filter (fun n => dmem n m) (c_dep cfg))).
  { intros n Hn. apply filter_In. split; [apply Hall; exact Hn|apply dmem_In; exact Hn]. }
  destruct Hupd as [[Hu _]|[_ Hu]].
  { exfalso. destruct m as [|[n x] m]; [contradiction|]. specialize (Hin n (or_introl eq_refl)).
    rewrite <- I10, Hu in Hin. destruct Hin. }
  rewrite I10 in Hu. exists v, self3, self4, cf'.
  split; [exact F2|]. split; [exact Hu|]. split; [exact Hc|]. split; [exact I1|].
  destruct I2 as (_ & Q2 & _). split; [rewrite <- Q2, Hinit; reflexivity|].
  split; [rewrite I4; reflexivity|]. split; [rewrite I5; reflexivity|].
  apply update_configured in Hu. destruct Hu as [_ [_ Hs]]. split; [exact Hs|]. split; [exact Hin|].
  rewrite <- Hks, Hc. cbn [set_configured k_subs]. rewrite Hs. reflexivity.
Qed.

Lemma handler_follows fuel fs cls p m c m' cfg v :
  dwf m -> m <> [] -> fs (splitext_path p) FConf = Some (CConf cfg) -> NoDup (c_dep cfg) ->
  fs (splitext_path p) FData = Some (CData v) -> dwf (c_mutable cfg) -> kind_of cls = KHandler ->
  load (S fuel) fs (new_component cls) p m = (c, None, m') ->
  (forall n s d, dget n (k_subs c) = Some s -> k_data s = VDict d -> dwf d) ->
  exists cf d0 d1 tensors, k_conf c = Some cf /\ v = VDict d0 /\
    (forall n, In n (dkeys m) -> exists s, dget n (k_subs c) = Some s /\ HandlerDescribes cf n s) /\
    (forall k, dget k d1 =
       latest k (map (sub_data c) (filter (fun n => dmem n m) (c_dep cfg))) (dget k d0)) /\
    rebuild d1 = Ok tensors /\ k_data c = VDict (dset "tensors" tensors d1).
Proof.
  intros Hwf Hne Hfile Hnd Hdata Hmut Hkind Hl Hsd.
  destruct (load_updates _ _ _ _ _ _ _ _ Hwf Hne Hfile Hnd Hl)
    as (v' & self3 & self4 & cf' & F2 & Hu & -> & I1 & I2 & I3 & I4 & I5 & I6 & I7).
  assert (I3v : k_data self3 = v) by congruence. clear v' F2 I3. rename I3v into I3.
  cbn [set_configured k_subs k_conf k_data] in *. rewrite I5 in Hsd.
  unfold update_sub_components in Hu. rewrite I4, Hkind in Hu. unfold handler_update in Hu.
  destruct (handler_update_loop _ self3) as [c1 [e1|]] eqn:Eloop; [inversion Hu|].
  destruct (k_data c1) as [| | | | | |d1] eqn:Ed1; try (inversion Hu; fail).
  destruct (rebuild d1) as [t|] eqn:Er; [|inversion Hu]. injection Hu as Hu.
  rewrite <- I2 in Hmut.
  assert (Hv : exists d0, v = VDict d0).
  { assert (Hin : exists n, In n (filter (fun n => dmem n m) (c_dep cfg))).
    { destruct m as [|[n x] m]; [contradiction|]. exists n. apply I6. left. reflexivity. }
    destruct (filter _ _) as [|n names]; [destruct Hin as [? []]|].
    cbn [handler_update_loop] in Eloop. destruct (handler_update_one n self3) as [c2 [e2|]] eqn:E1; [inversion Eloop|].
    unfold handler_update_one in E1. destruct (settings_name n); [|inversion E1].
    destruct (dget n (k_subs self3)); [|inversion E1]. rewrite I3 in E1.
    destruct v; try (inversion E1; fail). eauto. }
  destruct Hv as [d0 ->].
  destruct (handler_loop _ _ _ _ _ I1 I3 Hmut Hsd Eloop) as (cf1 & dd1 & B1 & B2 & B3 & B4 & B5 & _).
  assert (dd1 = d1) by congruence. subst dd1.
  exists cf1, d0, d1, t. rewrite <- Hu. cbn [with_data k_conf k_data k_subs].
  split; [exact B1|]. split; [reflexivity|]. rewrite B3. split.
  { intros n Hn. apply B5. apply I6. exact Hn. }
  split; [|auto]. intros k. rewrite B4. f_equal. apply map_ext. intros n. unfold sub_data.
  cbn [set_configured with_data k_subs]. rewrite B3. reflexivity.
Qed.

Lemma is_compatible_version a g k c s m u d ms v v' :
  is_compatible rv a (mkConfig v g k c s m u d ms) = is_compatible rv a (mkConfig v' g k c s m u d ms).
Proof. destruct a; reflexivity. Qed.

Lemma manager_check_ok subs all : manager_check rv subs all = None ->
  forall n model, In (n, model) subs -> n <> "data_handler" ->
  exists h, dget "data_handler" all = Some h /\ TrainedWith rv h model.
Proof.
  induction subs as [|[k x] subs IH]; intros H n model Hin Hne; [destruct Hin|]. cbn [manager_check] in H.
  destruct (String.eqb k "data_handler") eqn:Ek.
  - apply String.eqb_eq in Ek. destruct Hin as [E|Hin]; [congruence|]. eapply IH; eassumption.
  - destruct (conf_dict x) as [mc|] eqn:E1; [|discriminate].
    destruct (dget "data_trafo" (c_subs mc)) as [tc|] eqn:E2; [|discriminate].
    destruct (configuration_init rv tc) as [tcf|] eqn:E3; [|discriminate].
    destruct (dget "data_handler" (c_subs (co_dict tcf))) as [hc|] eqn:E4; [|discriminate].
    destruct (configuration_init rv hc) as [hcf|] eqn:E5; [|discriminate].
    destruct (dget "data_handler" all) as [h|] eqn:E6; [|discriminate].
    destruct (conf_dict h) as [hd|] eqn:E7; [|discriminate].
    destruct (is_compatible rv hd (co_dict hcf)) as [[]|] eqn:E8; try discriminate.
    destruct Hin as [E|Hin]; [|eapply IH; eassumption]. injection E as -> ->.
    exists h. split; [reflexivity|]. exists hd, mc, tc, hc.
    apply configuration_init_dict in E3, E5. rewrite E3 in E4. cbn [c_subs] in E4.
    repeat (split; [assumption|]). rewrite <- E8, E5. destruct hc. apply is_compatible_version.
Qed.

Lemma manager_models fuel fs cls p m c m' cfg :
  dwf m -> m <> [] -> fs (splitext_path p) FConf = Some (CConf cfg) -> NoDup (c_dep cfg) ->
  kind_of cls = KManager ->
  load (S fuel) fs (new_component cls) p m = (c, None, m') ->
  (forall n, In n (dkeys m) -> n = "data_handler") /\
  exists h, dget "data_handler" (k_subs c) = Some h /\
    forall n model, In (n, model) (k_subs c) -> n <> "data_handler" -> TrainedWith rv h model.
Proof.
  intros Hwf Hne Hfile Hnd Hkind Hl.
  destruct (load_updates _ _ _ _ _ _ _ _ Hwf Hne Hfile Hnd Hl)
    as (v & self3 & self4 & cf' & F2 & Hu & -> & I1 & I2 & I3 & I4 & I5 & I6 & I7).
  unfold update_sub_components in Hu. rewrite I4, Hkind in Hu. unfold manager_update in Hu.
  destruct (forallb _ _) eqn:Eall; [|inversion Hu]. injection Hu as Hs Hc. subst self4.
  assert (Hnames : forall n, In n (dkeys m) -> n = "data_handler").
  { intros n Hn. apply I6 in Hn. rewrite forallb_forall in Eall. apply Eall in Hn.
    apply String.eqb_eq in Hn. congruence. }
  split; [exact Hnames|]. cbn [set_configured k_subs].
  assert (Hh : exists h, dget "data_handler" (k_subs self3) = Some h).
  { apply In_keys_dget. rewrite I7. destruct m as [|[n x] m]; [contradiction|].
    assert (In n (dkeys ((n, x) :: m))) as Hn by (left; reflexivity).
    rewrite <- (Hnames n Hn). apply I6 in Hn. apply filter_In in Hn. apply Hn. }
  destruct Hh as [h Hh]. exists h. split; [exact Hh|]. intros n model Hin Hn.
  destruct (manager_check_ok _ _ Hc n model Hin Hn) as (h' & H1 & H2). congruence.
Qed.
End Update.
