(** Property theorems C01, C02, C04: configurations. *)
From Verif Require Import Py PyFacts M_Config S_Config L_Config.

(** ** C01 *)

(** Whatever [Configuration] the public constructor returns is well-formed, so
    the hypotheses [wf] below hold for every configuration a program can get
    hold of. *)
Theorem C01_constructed_configurations_are_wf : forall rv c o,
  dvwf (c_settings c) -> dvwf (c_check c) -> dvwf (c_mutable c) -> dwf (c_subs c) ->
  Forall (fun s => wf (snd s)) (c_subs c) ->
  configuration_init rv c = Ok o -> wf (co_dict o).
Proof. exact init_wf. Qed.
Print Assumptions C01_constructed_configurations_are_wf.

Theorem C01_compatible_iff : forall rv a b, wf a -> wf b ->
  exists answer, is_compatible rv a b = Ok answer /\ (answer = true <-> Compat a b).
Proof. exact is_compatible_correct. Qed.
Print Assumptions C01_compatible_iff.

Theorem C01_compatible_refl : forall rv a, wf a -> is_compatible rv a a = Ok true.
Proof. intros rv a W. apply is_compatible_true_iff; auto using Compat_refl. Qed.
Print Assumptions C01_compatible_refl.

(** Mutable settings, versions, git information and dependent lists do not
    influence the answer, at any depth. *)
Theorem C01_compatible_ignores : forall rv a a' b b', wf a -> wf a' -> wf b -> wf b' ->
  SameCore a a' -> SameCore b b' -> is_compatible rv a b = is_compatible rv a' b'.
Proof. exact compat_ignores. Qed.
Print Assumptions C01_compatible_ignores.

(** Declaring further sub-components as mutable (or dependent) keeps the earlier
    declarations, adds exactly the given names and touches nothing else; it
    fails, changing nothing, exactly when a name is not a sub-component. *)
Theorem C01_declaring_mutable_sub_components : forall names o o' e,
  add_mutable_sub_components names o = (o', e) ->
  (e = None <-> forall n, In n names -> In n (dkeys (c_subs (co_dict o)))) /\
  (e <> None -> e = Some KeyError /\ o' = o) /\
  (e = None ->
   (forall n, In n (c_mut_subs (co_dict o')) <-> In n (c_mut_subs (co_dict o)) \/ In n names) /\
   SameButDeclarations (co_dict o) (co_dict o') /\ c_dep (co_dict o') = c_dep (co_dict o) /\
   co_config o' = co_config o).
Proof.
  intros names o o' e H. unfold add_mutable_sub_components in H. rewrite check_dependent_ok.
  destruct (check_dependent_names names (co_dict o)) as [x|] eqn:E; injection H as <- <-.
  - split; [tauto|]. split; [|discriminate]. intros _. split; [|reflexivity].
    unfold check_dependent_names in E. destruct (forallb _ names); congruence.
  - repeat split; try congruence; intros; cbn in *; rewrite in_app_iff in *; tauto.
Qed.
Print Assumptions C01_declaring_mutable_sub_components.

Theorem C01_declaring_dependent_sub_components : forall names o o' e,
  add_dependent_sub_components names o = (o', e) ->
  (e = None <-> forall n, In n names -> In n (dkeys (c_subs (co_dict o)))) /\
  (e <> None -> e = Some KeyError /\ o' = o) /\
  (e = None ->
   (forall n, In n (c_dep (co_dict o')) <-> In n (c_dep (co_dict o)) \/ In n names) /\
   SameButDeclarations (co_dict o) (co_dict o') /\
   c_mut_subs (co_dict o') = c_mut_subs (co_dict o) /\ co_config o' = co_config o).
Proof.
  intros names o o' e H. unfold add_dependent_sub_components in H. rewrite check_dependent_ok.
  destruct (check_dependent_names names (co_dict o)) as [x|] eqn:E; injection H as <- <-.
  - split; [tauto|]. split; [|discriminate]. intros _. split; [|reflexivity].
    unfold check_dependent_names in E. destruct (forallb _ names); congruence.
  - repeat split; try congruence; intros; cbn in *; rewrite in_app_iff in *; tauto.
Qed.
Print Assumptions C01_declaring_dependent_sub_components.

(** Concrete data: a handler with a mutable sub-component. *)
Definition ex_leaf (x : Z) : config :=
  mkConfig "1" VNone "leaf" [] [("x", VInt x)] [("m", VInt 0)] [] [] [].
Definition ex_handler (muts : list string) (x : Z) : config :=
  mkConfig "1" VNone "handler" [("nvals", VInt 3)] [("s", VStr "a")] []
    [("label", ex_leaf x)] ["label"] muts.

Lemma ex_leaf_wf x : wf (ex_leaf x).
Proof.
  constructor; simpl; repeat constructor; simpl; intuition (try discriminate); subst; discriminate.
Qed.

Lemma ex_handler_wf muts x : wf (ex_handler muts x).
Proof.
  constructor; simpl; try (repeat constructor; simpl; tauto).
  constructor; [apply ex_leaf_wf|constructor].
Qed.

Example C01_example_yes : wf (ex_handler ["label"] 1) /\ wf (ex_handler [] 2) /\
  is_compatible "9" (ex_handler ["label"] 1) (ex_handler [] 2) = Ok true.
Proof. auto using ex_handler_wf. Qed.
Example C01_example_no :
  is_compatible "9" (ex_handler [] 1) (ex_handler ["label"] 2) = Ok false.
Proof. reflexivity. Qed.
Example C01_example_ignores :
  SameCore (ex_leaf 1) (mkConfig "2" (VBool true) "leaf" [] [("x", VInt 1)] [("z", VNone)] [] [] []).
Proof. constructor; simpl; auto. Qed.

Example C01_declaring_example : forall o, co_dict o = ex_handler [] 1 ->
  snd (add_mutable_sub_components ["label"] o) = None /\
  c_mut_subs (co_dict (fst (add_mutable_sub_components ["label"] o))) = ["label"] /\
  add_mutable_sub_components ["label"; "other"] o = (o, Some KeyError).
Proof. intros [d c] E. cbn in E. subst d. repeat split. Qed.

(** ** C02 *)

Theorem C02_symmetric : forall rv a b, wf a -> wf b -> NoMutableSubs a -> NoMutableSubs b ->
  is_compatible rv a b = is_compatible rv b a.
Proof.
  intros rv a b Wa Wb Na Nb.
  destruct (is_compatible_correct rv a b Wa Wb) as [r [Hr Hi]].
  destruct (is_compatible_correct rv b a Wb Wa) as [r' [Hr' Hi']].
  rewrite Hr, Hr'. f_equal. apply eq_true_iff_eq. rewrite Hi, Hi'. split; apply Compat_sym; assumption.
Qed.
Print Assumptions C02_symmetric.

(** It suffices that the middle configuration declares nothing mutable. *)
Theorem C02_transitive : forall rv a b c, wf a -> wf b -> wf c -> NoMutableSubs b ->
  is_compatible rv a b = Ok true -> is_compatible rv b c = Ok true ->
  is_compatible rv a c = Ok true.
Proof.
  intros rv a b c Wa Wb Wc Nb H1 H2. apply is_compatible_true_iff in H1; auto.
  apply is_compatible_true_iff in H2; auto. apply is_compatible_true_iff; eauto using Compat_trans.
Qed.
Print Assumptions C02_transitive.

Theorem C02_symmetric_refuted : exists rv a b, wf a /\ wf b /\
  is_compatible rv a b = Ok true /\ is_compatible rv b a = Ok false.
Proof.
  exists "9", (ex_handler ["label"] 1), (ex_handler [] 2). auto using ex_handler_wf.
Qed.
Print Assumptions C02_symmetric_refuted.

Theorem C02_transitive_refuted : exists rv a b c, wf a /\ wf b /\ wf c /\
  is_compatible rv a b = Ok true /\ is_compatible rv b c = Ok true /\
  is_compatible rv a c = Ok false.
Proof.
  exists "9", (ex_handler [] 1), (ex_handler ["label"] 1), (ex_handler [] 2).
  do 3 (split; [apply ex_handler_wf|]). auto.
Qed.
Print Assumptions C02_transitive_refuted.

Example C02_example : NoMutableSubs (ex_handler [] 1) /\ NoMutableSubs (ex_handler [] 2) /\
  is_compatible "9" (ex_handler [] 1) (ex_handler [] 2) = Ok false.
Proof. split; [|split; [|reflexivity]]; repeat constructor. Qed.

(** ** C04 *)

Theorem C04_effective_configuration : forall rv c o0 calls o es,
  dwf (c_mutable c) -> Forall dwf calls ->
  configuration_init rv c = Ok o0 ->
  run_updates calls o0 = (o, es) -> Forall (fun e => e = None) es ->
  (* everything but the mutable settings is as given initially *)
  c_settings (co_dict o) = c_settings c /\ c_check (co_dict o) = c_check c /\
  c_class (co_dict o) = c_class c /\ c_subs (co_dict o) = c_subs c /\
  c_dep (co_dict o) = c_dep c /\ c_mut_subs (co_dict o) = c_mut_subs c /\
  (* no mutable key appears or disappears; values are the latest written *)
  dkeys (c_mutable (co_dict o)) = dkeys (c_mutable c) /\
  (forall k, dget k (c_mutable (co_dict o)) = latest k calls (dget k (c_mutable c))) /\
  (* the effective configuration is the overlay *)
  overlay (c_settings c) (c_mutable (co_dict o)) (co_config o).
Proof.
  intros rv c o0 calls o es Hwf Hcalls Hi Hrun Hes.
  pose proof (init_synced rv c o0 Hi) as Hs.
  assert (Hd : co_dict o0 = mkConfig rv (c_git c) (c_class c) (c_check c) (c_settings c) (c_mutable c)
                              (c_subs c) (c_dep c) (c_mut_subs c)).
  { unfold configuration_init in Hi. destruct (check_dependent_names _ _); [discriminate|].
    destruct (combine_settings _); inversion Hi; reflexivity. }
  assert (Hm : dwf (c_mutable (co_dict o0))) by (rewrite Hd; exact Hwf).
  destruct (run_updates_ok calls o0 o es Hm Hcalls Hs Hrun Hes) as [H1 [H2 [H3 H4]]].
  rewrite Hd in H2, H3. simpl in H2, H3.
  assert (Hset : c_settings (co_dict o) = c_settings c) by (rewrite H1, Hd; reflexivity).
  repeat split; auto; try (rewrite H1, Hd; reflexivity).
  rewrite <- Hset. apply synced_overlay; [unfold dwf; rewrite H2; exact Hwf|exact H4].
Qed.
Print Assumptions C04_effective_configuration.

(** An update call succeeds iff it mentions only known mutable settings. *)
Theorem C04_update_succeeds_iff : forall rv c o0 calls o es new,
  dwf (c_mutable c) -> Forall dwf calls ->
  configuration_init rv c = Ok o0 ->
  run_updates calls o0 = (o, es) -> Forall (fun e => e = None) es ->
  (snd (update_mutable_settings new o) = None <->
   forall k, In k (dkeys new) -> In k (dkeys (c_mutable c))).
Proof.
  intros rv c o0 calls o es new Hwf Hcalls Hi Hrun Hes.
  destruct (C04_effective_configuration rv c o0 calls o es Hwf Hcalls Hi Hrun Hes)
    as (_ & _ & _ & _ & _ & _ & Hk & _).
  assert (Hs : synced o).
  { pose proof (init_synced rv c o0 Hi) as Hs0.
    assert (Hm : dwf (c_mutable (co_dict o0))).
    { unfold configuration_init in Hi. destruct (check_dependent_names _ _); [discriminate|].
      destruct (combine_settings _); inversion Hi; exact Hwf. }
    apply (run_updates_ok calls o0 o es Hm Hcalls Hs0 Hrun Hes). }
  rewrite <- Hk. destruct (update_mutable_settings new o) as [o' [e|]] eqn:E; simpl.
  - split; [discriminate|]. intros Hall. apply update_fail in E; [|exact Hs].
    destruct E as (pre & k & v & post & -> & _ & Hn & _). exfalso. apply Hn. apply Hall.
    unfold dkeys. rewrite map_app. apply in_or_app. right. left. reflexivity.
  - split; [|reflexivity]. intros _. unfold update_mutable_settings in E.
    destruct (update_loop _ _) as [m [e|]] eqn:El; [discriminate|]. apply update_loop_ok in El. apply El.
Qed.
Print Assumptions C04_update_succeeds_iff.

(** A failing call raises KeyError, stores the entries preceding the first
    unknown key, and leaves the effective configuration untouched. *)
Theorem C04_failing_update : forall rv c o0 calls o es new o' e,
  dwf (c_mutable c) -> Forall dwf calls ->
  configuration_init rv c = Ok o0 ->
  run_updates calls o0 = (o, es) -> Forall (fun e => e = None) es ->
  update_mutable_settings new o = (o', Some e) ->
  e = KeyError /\ co_config o' = co_config o /\
  c_settings (co_dict o') = c_settings (co_dict o) /\
  exists pre k v post, new = pre ++ (k, v) :: post /\
    (forall k', In k' (dkeys pre) -> In k' (dkeys (c_mutable c))) /\
    ~ In k (dkeys (c_mutable c)) /\
    c_mutable (co_dict o') = dupdate (c_mutable (co_dict o)) pre.
Proof.
  intros rv c o0 calls o es new o' e Hwf Hcalls Hi Hrun Hes Hu.
  destruct (C04_effective_configuration rv c o0 calls o es Hwf Hcalls Hi Hrun Hes)
    as (_ & _ & _ & _ & _ & _ & Hk & _).
  assert (Hs : synced o).
  { pose proof (init_synced rv c o0 Hi) as Hs0.
    assert (Hm : dwf (c_mutable (co_dict o0))).
    { unfold configuration_init in Hi. destruct (check_dependent_names _ _); [discriminate|].
      destruct (combine_settings _); inversion Hi; exact Hwf. }
    apply (run_updates_ok calls o0 o es Hm Hcalls Hs0 Hrun Hes). }
  apply update_fail in Hu; [|exact Hs].
  destruct Hu as (pre & k & v & post & -> & H1 & H2 & H3 & H4 & ->). rewrite Hk in H1, H2.
  repeat split; auto.
  - rewrite H3; reflexivity.
  - exists pre, k, v, post. repeat split; auto. rewrite H3; reflexivity.
Qed.
Print Assumptions C04_failing_update.

(** Expectation refuted: a failing update is not atomic, and afterwards the
    effective configuration disagrees with the stored mutable settings. *)
Theorem C04_failing_update_keeps_overlay_refuted : exists rv c o new o',
  configuration_init rv c = Ok o /\ dwf new /\
  update_mutable_settings new o = (o', Some KeyError) /\
  c_mutable (co_dict o') <> c_mutable (co_dict o) /\
  ~ overlay (c_settings (co_dict o')) (c_mutable (co_dict o')) (co_config o').
Proof.
  set (c := ex_leaf 1). set (new := [("m", VInt 5); ("typo", VNone)]).
  destruct (configuration_init "9" c) as [o|] eqn:E; [|discriminate].
  assert (Ho : o = mkConf (co_dict o) [("x", VInt 1); ("m", VInt 0)]) by (inversion E; reflexivity).
  exists "9", c, o, new. eexists. split; [exact E|]. split; [repeat constructor; simpl; intuition discriminate|].
  split; [inversion E; reflexivity|]. inversion E; subst. split; [discriminate|].
  intros Hov. specialize (Hov "m"). discriminate.
Qed.
Print Assumptions C04_failing_update_keeps_overlay_refuted.

Example C04_example : exists o0 o,
  configuration_init "9" (ex_leaf 1) = Ok o0 /\
  run_updates [[("m", VInt 5)]; [("m", VInt 6)]] o0 = (o, [None; None]) /\
  dget "m" (co_config o) = Some (VInt 6).
Proof. eexists; eexists. split; [reflexivity|]. split; reflexivity. Qed.
