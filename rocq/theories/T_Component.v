(** Property theorems C03, C05 - C12: components, saving and loading. *)
From Verif Require Import Py PyFacts PyStr PyStrFacts M_Config S_Config L_Config
  M_Component S_Component L_Component L_Load L_Replace L_Update.

(** ** Concrete data used by the examples *)

Definition ex_conf (cls : string) (settings mut : dict value) (subs : list (string * config))
  (dep muts : list string) : conf :=
  mkConf (mkConfig "1" VNone cls [] settings mut subs dep muts) (dupdate settings mut).
Definition ex_leaf_c (x : Z) : component :=
  mkComp "m.Leaf" [] true (Some (ex_conf "m.Leaf" [("x", VInt x)] [("mu", VInt 7)] [] [] []))
    (VDict [("d", VInt x)]) [].
Definition leaf_dict (x : Z) : config := co_dict (ex_conf "m.Leaf" [("x", VInt x)] [("mu", VInt 7)] [] [] []).
Definition ex_tree (name : string) (x y : Z) : component :=
  mkComp "m.Handler" [] true
    (Some (ex_conf "m.Handler" [] [("config", VDict [])] [(name, leaf_dict y)] [name] [name]))
    (VDict [("p", VInt x)]) [(name, ex_leaf_c y)].

Definition all_known (_ : string) := true.
Definition ex_kind (cls : string) : kind :=
  if String.eqb cls "m.Handler" then KHandler else KBase.
Definition ex_rebuild (_ : dict value) : result value := Ok VNone.
Definition no_files : fsys := fun _ _ => None.
Definition ex_load := load "1" all_known ex_kind ex_rebuild.
Definition saved (c : component) (p : path) : fsys := snd (fst (save false false c p no_files)).

Lemma ex_leaf_consistent x : Consistent "1" all_known (ex_leaf_c x).
Proof.
  apply Consistent_intro.
  - reflexivity.
  - reflexivity.
  - right; reflexivity.
  - reflexivity.
  - constructor.
  - intros n s [].
  - constructor.
Qed.

Lemma ex_tree_consistent name x y : Consistent "1" all_known (ex_tree name x y).
Proof.
  apply Consistent_intro.
  - unfold configuration_init, check_dependent_names, combine_settings, dmem. cbn.
    rewrite String.eqb_refl. reflexivity.
  - reflexivity.
  - right; reflexivity.
  - reflexivity.
  - constructor; [intros []|constructor].
  - intros n s [H|[]]. inversion H; subst. exists (leaf_dict y). cbn. rewrite String.eqb_refl. auto.
  - constructor; [apply ex_leaf_consistent|constructor].
Qed.

(** ** C03 *)

Section C03.
Variable rv : string.
Variable known_class : string -> bool.
Variable kind_of : string -> kind.
Variable rebuild_tensors : dict value -> result value.
Notation do_call := (do_call rv known_class kind_of rebuild_tensors).
Notation run_calls := (run_calls rv known_class kind_of rebuild_tensors).

(** Every configure or load call on a configured component raises and changes
    nothing. *)
Theorem C03_configured_is_final : forall k c,
  k_configured c = true ->
  fst (do_call k c) = c /\ (is_setup k = true -> snd (do_call k c) <> None).
Proof.
  intros [h kw|fuel fs p m|ov al p fs] c Hc; simpl.
  - rewrite configure_configured by exact Hc. split; [reflexivity|discriminate].
  - destruct fuel as [|fuel]; simpl; [split; [reflexivity|discriminate]|].
    rewrite Hc. simpl. split; [reflexivity|discriminate].
  - destruct (save ov al c p fs) as [[ops fs'] e]. simpl. split; [reflexivity|discriminate].
Qed.

(** A configure or load call that raises on an unconfigured component leaves it
    unconfigured; one that returns leaves it configured. *)
Theorem C03_configured_iff_returned : forall k c,
  is_setup k = true -> k_configured c = false ->
  (k_configured (fst (do_call k c)) = true <-> snd (do_call k c) = None).
Proof.
  intros [h kw|fuel fs p m|ov al p fs] c Hk Hc; simpl.
  - destruct (configure h kw c) as [c' [e|]] eqn:E; simpl.
    + apply configure_err in E. destruct E as [[E _]|[_ E]]; [congruence|]. rewrite E. split; discriminate.
    + apply configure_ok in E. destruct E as (_ & _ & ms & ps & out & cf & subs & _ & _ & _ & _ & _ & _ & _ & ->).
      split; reflexivity.
  - destruct (load rv known_class kind_of rebuild_tensors fuel fs c p m) as [[c' [e|]] m'] eqn:E; simpl.
    + apply load_err in E. destruct E as [[E _]|[_ E]]; [congruence|]. rewrite E. split; discriminate.
    + apply load_ok in E. destruct E as (? & ? & ? & ? & ? & ? & ? & _ & _ & _ & _ & _ & _ & _ & _ & _ & _ & _ & -> & _).
      split; reflexivity.
  - discriminate.
Qed.

(** In every history at most one configure or load call returns, and what it
    made is never changed by later calls. *)
Theorem C03_configured_at_most_once : forall pre k post c,
  is_setup k = true ->
  snd (do_call k (run_calls pre c)) = None ->
  run_calls post (fst (do_call k (run_calls pre c))) = fst (do_call k (run_calls pre c)) /\
  (forall pre' k' post', post = pre' ++ k' :: post' -> is_setup k' = true ->
     snd (do_call k' (run_calls (pre ++ k :: pre') c)) <> None).
Proof.
  intros pre k post c Hk Hret.
  assert (Hconf : k_configured (fst (do_call k (run_calls pre c))) = true).
  { destruct (k_configured (run_calls pre c)) eqn:E.
    - destruct (C03_configured_is_final k _ E) as [_ H]. exfalso. exact (H Hk Hret).
    - apply C03_configured_iff_returned; assumption. }
  assert (Hstay : forall ks x, k_configured x = true -> run_calls ks x = x).
  { induction ks as [|k' ks IH]; intros x Hx; [reflexivity|]. simpl.
    rewrite (proj1 (C03_configured_is_final k' x Hx)). apply IH. exact Hx. }
  split; [apply Hstay; exact Hconf|].
  intros pre' k' post' _ Hk'.
  assert (Hrun : forall a b x, run_calls (a ++ b) x = run_calls b (run_calls a x)).
  { induction a as [|y a IH]; intros b x; [reflexivity|]. simpl. apply IH. }
  rewrite Hrun. simpl. rewrite Hstay by exact Hconf.
  apply (proj2 (C03_configured_is_final k' _ Hconf)). exact Hk'.
Qed.

(** Saving an unconfigured component raises and writes nothing. *)
Theorem C03_save_needs_configured : forall ov al c p fs, k_configured c = false ->
  save ov al c p fs = ([], fs, Some ValueError).
Proof. intros ov al c p fs H. rewrite save_unfold, H. reflexivity. Qed.
End C03.
Print Assumptions C03_configured_is_final.
Print Assumptions C03_configured_iff_returned.
Print Assumptions C03_configured_at_most_once.
Print Assumptions C03_save_needs_configured.

Definition ex_hook (kw : dict arg) : result hook_out :=
  Ok (mkHook (ex_conf "m.P" [("a", VInt 1)] [] [] [] []) VNone HNone []).

Example C03_example :
  snd (configure ex_hook [("a", AScalar (VInt 1))] (new_component "m.P")) = None /\
  snd (configure ex_hook [("a", AScalar (VInt 2))] (new_component "m.P")) = Some ValueError.
Proof. split; reflexivity. Qed.

(** ** C05 *)

Lemma dget_dupdate_occ {A} (l : dict A) : forall d n x, dget n (dupdate d l) = Some x ->
  In (n, x) l \/ dget n d = Some x.
Proof.
  induction l as [|[k v] l IH]; intros d n x H; [right; exact H|].
  unfold dupdate in *. simpl in H. apply IH in H. destruct H as [H|H]; [left; right; exact H|].
  destruct (String.eqb n k) eqn:E.
  - apply String.eqb_eq in E. subst. rewrite dget_dset_same in H. inversion H; subst. left; left; reflexivity.
  - apply String.eqb_neq in E. rewrite dget_dset_other in H by congruence. right; exact H.
Qed.

Lemma dkeys_dupdate {A} (l : dict A) : forall d n, In n (dkeys (dupdate d l)) <-> In n (dkeys d) \/ In n (dkeys l).
Proof.
  induction l as [|[k v] l IH]; intros d n; simpl; [tauto|].
  unfold dupdate in *. simpl. rewrite IH, In_dkeys_dset. intuition.
Qed.

Theorem C05_arguments_recorded : forall h kwargs self c,
  dwf kwargs -> configure h kwargs self = (c, None) ->
  exists cf, k_conf c = Some cf /\
    (* plain arguments *)
    (forall k a, dget k kwargs = Some a -> Plain a ->
       exists v w, HasValue a v /\ dget k (co_config cf) = Some w /\ veqb v w = true) /\
    (* every name under which a component is passed is recorded, with the
       configuration of a configured component passed under that name *)
    (forall n c0 k0 a0, dget k0 kwargs = Some a0 -> PassedAs k0 a0 n c0 ->
       exists c1 k1 a1 d, dget k1 kwargs = Some a1 /\ PassedAs k1 a1 n c1 /\
         k_configured c1 = true /\ conf_dict c1 = Ok d /\
         dget n (c_subs (co_dict cf)) = Some d) /\
    (* the dependent sub-components held are all recorded *)
    (forall n, In n (dkeys (k_subs c)) -> In n (dkeys (c_subs (co_dict cf)))).
Proof.
  intros h kwargs self c Hwf H. apply configure_ok in H.
  destruct H as (_ & _ & missing & params & out & cf1 & subs & Hcol & Hh & Hsubs & Hadd & Hdep & Hdata & Hset & ->).
  apply collect_spec in Hcol; [|exact Hwf]. destruct Hcol as [Hpar [Hconf [Hmiss _]]].
  assert (Hnd : NoDup (dkeys params)) by (rewrite Hpar; apply dwf_dupdate; constructor).
  apply add_sub_components_spec in Hadd; [|exact Hnd].
  destruct Hadd as (A1 & A2 & A3 & A4 & A5 & A6 & A7 & A8 & A8' & A9 & A10).
  eexists. split; [reflexivity|]. cbn [co_config co_dict set_dep c_subs k_subs]. split; [|split].
  - intros k a Hk HP. apply dget_In in Hk.
    pose proof (Hmiss k a Hk HP) as Hm. apply dget_In in Hm.
    destruct (check_settings_spec _ _ Hset k a Hm) as (w & v & W1 & W2 & W3).
    apply arg_value_spec in W1. exists w, v. auto.
  - intros n c0 k0 a0 Hk0 HP.
    assert (Hocc : In (n, c0) (occ kwargs)) by (apply occ_In; exists k0, a0; split; [apply dget_In; exact Hk0|exact HP]).
    assert (Hin : In n (dkeys params)).
    { rewrite Hpar. apply dkeys_dupdate. right. apply (in_map fst) in Hocc. exact Hocc. }
    apply In_keys_dget in Hin. destruct Hin as [c1 Hc1].
    pose proof (dget_In _ _ _ Hc1) as Hc1in. destruct (A9 _ _ Hc1in) as (_ & d & D1 & D2).
    rewrite Hpar in Hc1. apply dget_dupdate_occ in Hc1. destruct Hc1 as [Hc1|Hc1]; [|discriminate].
    assert (Hc1' : k_configured c1 = true) by (rewrite Forall_forall in Hconf; apply (Hconf _ Hc1)).
    apply occ_In in Hc1. destruct Hc1 as (k1 & a1 & Hk1 & HP1).
    exists c1, k1, a1, d. split; [apply In_dget; [exact Hwf|exact Hk1]|]. auto.
  - intros n Hn. pose proof (proj2 (check_dependent_ok _ _) Hdep) as Hd. auto.
Qed.
Print Assumptions C05_arguments_recorded.

(** A component passed under a name used only once is recorded. *)
Theorem C05_component_recorded : forall h kwargs self c n c0 k0 a0,
  dwf kwargs -> configure h kwargs self = (c, None) ->
  dget k0 kwargs = Some a0 -> PassedAs k0 a0 n c0 ->
  (forall k a c1, dget k kwargs = Some a -> PassedAs k a n c1 -> c1 = c0) ->
  exists cf d, k_conf c = Some cf /\ conf_dict c0 = Ok d /\ k_configured c0 = true /\
    dget n (c_subs (co_dict cf)) = Some d.
Proof.
  intros h kwargs self c n c0 k0 a0 Hwf H Hk HP Huniq.
  destruct (C05_arguments_recorded h kwargs self c Hwf H) as (cf & Hcf & _ & Hpass & _).
  destruct (Hpass n c0 k0 a0 Hk HP) as (c1 & k1 & a1 & d & H1 & H2 & H3 & H4 & H5).
  rewrite (Huniq _ _ _ H1 H2) in *. exists cf, d. auto.
Qed.
Print Assumptions C05_component_recorded.

(** Elements of one list argument never share a name, so a list of components
    is always recorded completely. *)
Theorem C05_list_names_distinct : forall key i j : nat, forall k : string,
  (k ++ "_" ++ fmt04 i)%string = (k ++ "_" ++ fmt04 j)%string -> i = j.
Proof.
  intros _ i j k H. apply append_inj_l in H. apply append_inj_l in H. apply fmt04_inj. exact H.
Qed.
Print Assumptions C05_list_names_distinct.

(** Empty containers are not checked at all. *)
Theorem C05_empty_containers_recorded_refuted : exists h kwargs self c cf,
  dwf kwargs /\ configure h kwargs self = (c, None) /\ k_conf c = Some cf /\
  dget "extra" kwargs = Some (ASeq false []) /\ dget "extra" (co_config cf) = None /\
  dget "extra" (c_subs (co_dict cf)) = None.
Proof.
  exists ex_hook, [("a", AScalar (VInt 1)); ("extra", ASeq false [])], (new_component "m.P").
  eexists; eexists. split; [repeat constructor; simpl; intuition discriminate|]. repeat split.
Qed.
Print Assumptions C05_empty_containers_recorded_refuted.

(** A component argument can be shadowed by one inside a dict argument. *)
Theorem C05_shadowed_component_refuted : exists h kwargs self c cf c0 d0,
  dwf kwargs /\ configure h kwargs self = (c, None) /\ k_conf c = Some cf /\
  dget "model" kwargs = Some (AComp c0) /\ conf_dict c0 = Ok d0 /\
  dget "model" (c_subs (co_dict cf)) <> Some d0.
Proof.
  exists ex_hook, [("model", AComp (ex_leaf_c 1)); ("models", ADict [("model", IComp (ex_leaf_c 2))])],
    (new_component "m.P").
  eexists; eexists. exists (ex_leaf_c 1). eexists.
  split; [repeat constructor; simpl; intuition discriminate|].
  split; [reflexivity|]. split; [reflexivity|]. split; [reflexivity|]. split; [reflexivity|]. discriminate.
Qed.
Print Assumptions C05_shadowed_component_refuted.

Example C05_example : exists c,
  configure ex_hook [("a", AScalar (VInt 1)); ("l", ASeq false [IComp (ex_leaf_c 1); IComp (ex_leaf_c 2)])]
    (new_component "m.P") = (c, None) /\
  Plain (AScalar (VInt 1)) /\
  PassedAs "l" (ASeq false [IComp (ex_leaf_c 1); IComp (ex_leaf_c 2)]) "l_0001" (ex_leaf_c 2).
Proof.
  eexists. split; [reflexivity|]. split; [constructor|].
  change "l_0001" with ("l" ++ "_" ++ fmt04 1)%string. constructor. reflexivity.
Qed.

(** ** C06 *)

(** Loading what a successful save wrote gives back the same component,
    whatever else is in the file system and whether or not older files were
    overwritten. *)
Theorem C06_save_load_identity : forall rv kn kind_of rebuild ov al c p fs ops fs' fuel,
  Consistent rv kn c -> save ov al c p fs = (ops, fs', None) -> depth c <= fuel ->
  load rv kn kind_of rebuild fuel fs' (new_component (k_class c)) p [] = (c, None, []).
Proof.
  intros. apply load_stored; [assumption| |assumption].
  eapply save_stored; [eapply Consistent_distinct; eassumption|eassumption].
Qed.
Print Assumptions C06_save_load_identity.

(** Saving a consistent tree where nothing exists succeeds. *)
Theorem C06_save_succeeds : forall rv kn c p fs ov al,
  Consistent rv kn c -> fresh_dir fs (splitext_path p) ->
  snd (save ov al c p fs) = None.
Proof.
  intros rv kn c. induction c as [cls unt b cf data subs H] using component_ind'.
  intros p fs ov al HC Hfr. inversion HC as [cls' cf' data' subs' Hinit Hcls Hdata Hdep Hnd Hsub Hall]; subst.
  rewrite save_unfold. cbn [k_configured k_untracked k_conf k_data k_subs negb length Nat.eqb].
  rewrite andb_false_r. cbv zeta. set (d := splitext_path p) in *.
  assert (Hex : fs_exists fs d FConf || fs_exists fs d FData = false).
  { unfold fs_exists. pose proof (Hfr [] FConf) as F1. pose proof (Hfr [] FData) as F2.
    rewrite app_nil_r in F1, F2. rewrite F1, F2. reflexivity. }
  rewrite Hex. cbn [andb].
  set (fs2 := apply_op _ (apply_op _ fs)).
  assert (Hfr2 : forall n, fresh_dir fs2 (d ++ [splitext_root n])).
  { intros n q g. unfold fs2, apply_op. cbn [o_path o_file o_content].
    assert (Hne : d <> (d ++ [splitext_root n]) ++ q).
    { intros Heq. rewrite <- app_assoc in Heq. rewrite <- (app_nil_r d) in Heq at 1.
      apply app_inv_head in Heq. discriminate. }
    rewrite !fs_write_other by exact Hne. rewrite <- app_assoc. apply Hfr. }
  clearbody fs2.
  assert (Hloop : forall l fs2, incl l subs -> NoDup (map splitext_root (dkeys l)) ->
    (forall n, In n (dkeys l) -> fresh_dir fs2 (d ++ [splitext_root n])) ->
    snd (save_subs ov al d l fs2) = None).
  { clear Hfr2 fs2 Hnd. induction l as [|[n s] l IHl]; intros fs2 Hincl Hnd Hf; [reflexivity|].
    cbn [save_subs]. simpl in Hnd. inversion Hnd as [|? ? Hni Hnd']; subst.
    assert (Hn : In (n, s) subs) by (apply Hincl; left; reflexivity).
    rewrite Forall_forall in H, Hall.
    assert (Hs : snd (save ov al s (d ++ [n]) fs2) = None).
    { apply (H _ Hn); [apply (Hall _ Hn)|]. rewrite splitext_path_snoc. apply Hf. left; reflexivity. }
    destruct (save ov al s (d ++ [n]) fs2) as [[opsa fsa] ea] eqn:E1. simpl in Hs. subst ea.
    pose proof (save_run _ _ _ _ _ _ _ _ E1) as Ra. pose proof (save_under _ _ _ _ _ _ _ _ E1) as Ua.
    rewrite splitext_path_snoc in Ua.
    assert (Hr : snd (save_subs ov al d l fsa) = None).
    { apply IHl; [intros x Hx; apply Hincl; right; exact Hx|exact Hnd'|].
      intros k Hk q g. rewrite Ra. rewrite run_ops_frame; [apply Hf; right; exact Hk|].
      eapply ops_other_dir; [exact Ua|]. intros Heq. apply Hni. rewrite Heq. apply in_map. exact Hk. }
    destruct (save_subs ov al d l fsa) as [[opsb fsb] eb]. exact Hr. }
  specialize (Hloop subs fs2 (incl_refl _) Hnd (fun n _ => Hfr2 n)).
  destruct (save_subs ov al d subs fs2) as [[opsb fsb] eb]. exact Hloop.
Qed.
Print Assumptions C06_save_succeeds.

(** The trees that configure builds are consistent, provided the hook returns a
    configuration created by the running version for its own class, without
    dependent names of its own, and its sub-components are consistent with
    distinct (extension-free) names and recorded under their class. *)
Theorem C06_configured_is_consistent : forall rv kn h kwargs self c out,
  dwf kwargs -> configure h kwargs self = (c, None) -> h kwargs = Ok out ->
  configuration_init rv (co_dict (h_conf out)) = Ok (h_conf out) ->
  c_class (co_dict (h_conf out)) = k_class self ->
  c_dep (co_dict (h_conf out)) = [] -> h_untracked out = [] ->
  (forall subs, h_subs out = HDict subs ->
     NoDup (map splitext_root (dkeys subs)) /\
     forall n s, In (n, s) subs -> Consistent rv kn s /\ kn (k_class s) = true /\
       ((exists sc, dget n (c_subs (co_dict (h_conf out))) = Some sc /\ c_class sc = k_class s) \/
        (exists k a, dget k kwargs = Some a /\ PassedAs k a n s) /\
        (forall k a s', dget k kwargs = Some a -> PassedAs k a n s' -> s' = s))) ->
  Consistent rv kn c.
Proof.
  intros rv kn h kwargs self c out Hwf H Hout Hinit Hcls Hdep Hunt Hsubs.
  pose proof H as H0. apply configure_ok in H.
  destruct H as (_ & _ & missing & params & out' & cf1 & subs & Hcol & Hh & Hs & Hadd & Hd & Hdata & Hset & ->).
  rewrite Hout in Hh. inversion Hh; subst out'. clear Hh.
  apply collect_spec in Hcol; [|exact Hwf]. destruct Hcol as [Hpar [Hconf _]].
  assert (Hnd : NoDup (dkeys params)) by (rewrite Hpar; apply dwf_dupdate; constructor).
  apply add_sub_components_spec in Hadd; [|exact Hnd].
  destruct Hadd as (A1 & A2 & A3 & A4 & A5 & A6 & A7 & A8 & A8' & A9 & A10).
  pose proof (init_self_facts _ _ Hinit) as Hver.
  rewrite Hunt.
  assert (Hsubs' : NoDup (map splitext_root (dkeys subs)) /\
    forall n s, In (n, s) subs -> Consistent rv kn s /\ kn (k_class s) = true /\
       ((exists sc, dget n (c_subs (co_dict (h_conf out))) = Some sc /\ c_class sc = k_class s) \/
        (exists k a, dget k kwargs = Some a /\ PassedAs k a n s) /\
        (forall k a s', dget k kwargs = Some a -> PassedAs k a n s' -> s' = s))).
  { destruct Hs as [[_ ->]|Hs]; [split; [constructor|intros n s []]|apply Hsubs; exact Hs]. }
  destruct Hsubs' as [HN Hall].
  pose proof (proj2 (check_dependent_ok _ _) Hd) as Hdk.
  assert (Hcomb : combine_settings (co_dict (h_conf out)) = Ok (co_config (h_conf out))) by (apply (init_synced _ _ _ Hinit)).
  constructor.
  - unfold configuration_init. cbn [co_dict co_config set_dep c_git c_class c_check c_settings c_mutable c_subs c_dep c_mut_subs].
    rewrite A6, Hdep. cbn [app].
    match goal with |- context [check_dependent_names ?n ?c] =>
      assert (Hck : check_dependent_names n c = None) by (apply (proj1 (check_dependent_ok n c)); exact Hdk) end.
    rewrite Hck. unfold combine_settings in *. cbn [c_settings c_mutable].
    assert (HV : c_version (co_dict cf1) = rv) by congruence.
    unfold set_dep. cbn [c_settings c_mutable]. rewrite A2, A3, A1, HV.
    destruct (existsb _ _); [discriminate|]. inversion Hcomb as [Hc]. rewrite Hc. reflexivity.
  - cbn [co_dict set_dep c_class]. congruence.
  - right. exact Hdata.
  - cbn [co_dict set_dep c_dep]. rewrite A6, Hdep. reflexivity.
  - exact HN.
  - intros n s Hin. cbn [co_dict set_dep c_subs]. destruct (Hall n s Hin) as (Hcons & Hkn & Hrec).
    destruct (in_dec string_dec n (dkeys params)) as [Hp|Hnp].
    + apply In_keys_dget in Hp. destruct Hp as [c1 Hc1]. pose proof (dget_In _ _ _ Hc1) as Hc1in.
      destruct (A9 _ _ Hc1in) as (Hmem & dd & D1 & D2). exists dd. split; [exact D2|]. split; [|exact Hkn].
      destruct Hrec as [(sc & Hsc & _)|[_ Huniq]].
      * unfold dmem in Hmem. rewrite Hsc in Hmem. discriminate.
      * rewrite Hpar in Hc1. apply dget_dupdate_occ in Hc1. destruct Hc1 as [Hc1|Hc1]; [|discriminate].
        apply occ_In in Hc1. destruct Hc1 as (k1 & a1 & Hk1 & HP1).
        assert (c1 = s) by (eapply Huniq; [apply In_dget; [exact Hwf|exact Hk1]|exact HP1]). subst c1.
        inversion Hcons; subst. cbn in D1. inversion D1; subst. reflexivity.
    + rewrite A10 by exact Hnp.
      assert (Hin2 : In n (dkeys (c_subs (co_dict cf1)))) by (apply Hdk; apply (in_map fst) in Hin; exact Hin).
      apply In_keys_dget in Hin2. destruct Hin2 as [sc Hsc]. rewrite A10 in Hsc by exact Hnp.
      exists sc. split; [exact Hsc|]. split; [|exact Hkn].
      destruct Hrec as [(sc' & Hsc' & Hc)|[(k & a & Hk & HP) _]]; [congruence|].
      exfalso. apply Hnp. rewrite Hpar. apply dkeys_dupdate. right.
      assert (Ho : In (n, s) (occ kwargs)) by (apply occ_In; exists k, a; split; [apply dget_In; exact Hk|exact HP]).
      apply (in_map fst) in Ho. exact Ho.
  - apply Forall_forall. intros [n s] Hin. apply (Hall n s Hin).
Qed.
Print Assumptions C06_configured_is_consistent.

Definition ex_parent_hook (kw : dict arg) : result hook_out :=
  match dget "leaf" kw with
  | Some (AComp l) =>
      Ok (mkHook (ex_conf "m.P" [("a", VInt 1)] [] [] [] []) VNone (HDict [("leaf", l)]) [])
  | _ => Err KeyError
  end.
Definition ex_parent : component :=
  fst (configure ex_parent_hook [("a", AScalar (VInt 1)); ("leaf", AComp (ex_leaf_c 5))]
         (new_component "m.P")).

Example C06_example_consistent : Consistent "1" all_known ex_parent.
Proof.
  eapply C06_configured_is_consistent
    with (h := ex_parent_hook) (kwargs := [("a", AScalar (VInt 1)); ("leaf", AComp (ex_leaf_c 5))])
         (self := new_component "m.P").
  - repeat constructor; simpl; intuition discriminate.
  - reflexivity.
  - reflexivity.
  - reflexivity.
  - reflexivity.
  - reflexivity.
  - reflexivity.
  - intros subs H. inversion H; subst. split; [constructor; [intros []|constructor]|].
    intros n s [Hin|[]]. inversion Hin; subst. split; [apply ex_leaf_consistent|]. split; [reflexivity|].
    right. split.
    + exists "leaf", (AComp (ex_leaf_c 5)). split; [reflexivity|constructor].
    + intros k a s' Hk HP. cbn [dget] in Hk.
      destruct (String.eqb k "a"); [inversion Hk; subst; inversion HP|].
      destruct (String.eqb k "leaf"); inversion Hk; subst. inversion HP; reflexivity.
Qed.

Example C06_example : exists ops fs',
  save false false ex_parent ["model.dir"] no_files = (ops, fs', None) /\ length ops = 4 /\
  depth ex_parent <= 2 /\
  ex_load 2 fs' (new_component "m.P") ["model.dir"] [] = (ex_parent, None, []).
Proof. eexists; eexists. split; [reflexivity|]. repeat split. simpl. auto. Qed.

(** ** C07 *)

(** Saving without [overwrite] never changes a file that existed before the
    call, whatever the outcome and wherever the process dies. *)
Theorem C07_existing_files_kept : forall al c p fs ops fs' e fs'',
  save false al c p fs = (ops, fs', e) -> Crash ops fs fs'' ->
  forall q g x, fs q g = Some x -> fs'' q g = Some x.
Proof. exact crash_protects. Qed.
Print Assumptions C07_existing_files_kept.

(** In particular not when the call runs to its end. *)
Theorem C07_existing_files_kept_at_end : forall al c p fs ops fs' e,
  save false al c p fs = (ops, fs', e) ->
  forall q g x, fs q g = Some x -> fs' q g = Some x.
Proof.
  intros al c p fs ops fs' e H. eapply crash_protects; [exact H|].
  rewrite (save_run _ _ _ _ _ _ _ _ H). apply run_ops_crash.
Qed.
Print Assumptions C07_existing_files_kept_at_end.

(** If the target directory holds one of the two files, the call raises and
    writes nothing at all. *)
Theorem C07_refused : forall al c p fs f x,
  fs (splitext_path p) f = Some x ->
  exists e, save false al c p fs = ([], fs, Some e).
Proof.
  intros al c p fs f x Hx. rewrite save_unfold.
  destruct (negb (k_configured c)); [eauto|]. destruct (negb al && _); [eauto|]. cbv zeta.
  assert (E : fs_exists fs (splitext_path p) FConf || fs_exists fs (splitext_path p) FData = true).
  { unfold fs_exists. destruct f; rewrite Hx; [reflexivity|apply orb_true_r]. }
  rewrite E. simpl. eauto.
Qed.
Print Assumptions C07_refused.

(** Saving touches nothing outside the target directory, even with
    [overwrite]. *)
Theorem C07_only_below_target : forall ov al c p fs ops fs' e fs'',
  save ov al c p fs = (ops, fs', e) -> Crash ops fs fs'' ->
  forall q g, (forall r, q <> splitext_path p ++ r) -> fs'' q g = fs q g.
Proof.
  intros ov al c p fs ops fs' e fs'' Hs HC q g Hq. eapply crash_frame; [exact HC|].
  apply save_under in Hs. eapply Forall_impl; [|exact Hs]. intros o [r Hr] Heq. inversion Heq; subst.
  exact (Hq r Hr).
Qed.
Print Assumptions C07_only_below_target.

(** But a refused save is not all-or-nothing: an occupied sub-directory makes
    it raise after the parent's files were written. *)
Theorem C07_all_or_nothing_refuted : exists c p fs ops fs' e,
  Consistent "1" all_known c /\ save false false c p fs = (ops, fs', Some e) /\ ops <> [].
Proof.
  exists (ex_tree "data_module" 1 2), ["d"], (fs_write ["d"; "data_module"] FData CGarbage no_files).
  eexists; eexists; eexists. split; [apply ex_tree_consistent|]. split; [reflexivity|discriminate].
Qed.
Print Assumptions C07_all_or_nothing_refuted.

Example C07_example :
  save false false (ex_leaf_c 1) ["d"] (saved (ex_leaf_c 2) ["d"]) =
  ([], saved (ex_leaf_c 2) ["d"], Some IOError).
Proof. reflexivity. Qed.

(** ** C08 *)

(** After a load with replacements every requested replacement is in place,
    was legal, and is what the configuration records; all other
    sub-components are loaded from disk and stay recorded as stored. *)
Theorem C08_replacements : forall rv kn kind_of rebuild fuel fs cls p m c m' cfg,
  dwf m -> fs (splitext_path p) FConf = Some (CConf cfg) -> NoDup (c_dep cfg) ->
  load rv kn kind_of rebuild (S fuel) fs (new_component cls) p m = (c, None, m') ->
  exists cf, k_conf c = Some cf /\ k_configured c = true /\
    dkeys (k_subs c) = c_dep cfg /\
    (forall n, In n (dkeys m) -> In n (c_dep cfg)) /\
    (forall n, In n (c_dep cfg) -> exists recorded final recorded',
       dget n (c_subs cfg) = Some recorded /\
       dget n (k_subs c) = Some final /\
       dget n (c_subs (co_dict cf)) = Some recorded' /\
       Outcome rv (load rv kn kind_of rebuild fuel fs) (splitext_path p) (c_mut_subs cfg) n (dget n m)
         recorded final recorded') /\
    (forall n, ~ In n (c_dep cfg) -> dget n (c_subs (co_dict cf)) = dget n (c_subs cfg)) /\
    c_settings (co_dict cf) = c_settings cfg /\ c_check (co_dict cf) = c_check cfg /\
    c_class (co_dict cf) = cls /\ c_dep (co_dict cf) = c_dep cfg /\
    c_mut_subs (co_dict cf) = c_mut_subs cfg.
Proof. intros. eapply load_replace; eassumption. Qed.
Print Assumptions C08_replacements.

(** Unknown names are refused. *)
Theorem C08_unknown_name_refused : forall rv kn kind_of rebuild fuel fs cls p m c e m' cfg n,
  dwf m -> fs (splitext_path p) FConf = Some (CConf cfg) -> NoDup (c_dep cfg) ->
  load rv kn kind_of rebuild (S fuel) fs (new_component cls) p m = (c, e, m') ->
  In n (dkeys m) -> ~ In n (c_dep cfg) -> e <> None.
Proof.
  intros rv kn kind_of rebuild fuel fs cls p m c e m' cfg n Hm Hf Hnd Hl Hin Hni ->.
  destruct (load_replace _ _ _ _ _ _ _ _ _ _ _ _ Hm Hf Hnd Hl) as (cf & _ & _ & _ & H & _).
  exact (Hni (H n Hin)).
Qed.
Print Assumptions C08_unknown_name_refused.

(** An incompatible replacement of a sub-component that is not marked mutable
    is refused. *)
Theorem C08_incompatible_refused : forall rv kn kind_of rebuild fuel fs cls p m c e m' cfg n r recorded s m2,
  dwf m -> fs (splitext_path p) FConf = Some (CConf cfg) -> NoDup (c_dep cfg) ->
  load rv kn kind_of rebuild (S fuel) fs (new_component cls) p m = (c, e, m') ->
  In n (c_dep cfg) -> ~ In n (c_mut_subs cfg) -> dget n m = Some (MComp r) ->
  dget n (c_subs cfg) = Some recorded ->
  load rv kn kind_of rebuild fuel fs (new_component (c_class recorded)) (splitext_path p ++ [n]) [] = (s, None, m2) ->
  ~ MayReplace rv s r -> e <> None.
Proof.
  intros rv kn kind_of rebuild fuel fs cls p m c e m' cfg n r recorded s m2 Hm Hf Hnd Hl Hn Hmut Hr Hrec Hs Hinc ->.
  destruct (load_replace _ _ _ _ _ _ _ _ _ _ _ _ Hm Hf Hnd Hl) as (cf & _ & _ & _ & _ & H & _).
  destruct (H n Hn) as (rec & fin & rec' & R1 & R2 & R3 & O). rewrite Hr in O. rewrite Hrec in R1. inversion R1; subst rec.
  inversion O as [| |r' rr s' m3 rec'' O1 O2 O3 O4]; subst. rewrite Hs in O1. inversion O1; subst.
  destruct O3; contradiction.
Qed.
Print Assumptions C08_incompatible_refused.

(** Classes without their own update method refuse every replacement. *)
Theorem C08_base_class_refuses : forall rv kn kind_of rebuild fuel fs cls p m c e m',
  kind_of cls = KBase -> m <> [] -> dwf m ->
  (forall cfg, fs (splitext_path p) FConf = Some (CConf cfg) -> NoDup (c_dep cfg)) ->
  load rv kn kind_of rebuild fuel fs (new_component cls) p m = (c, e, m') -> e <> None.
Proof. intros. eapply base_refuses; eassumption. Qed.
Print Assumptions C08_base_class_refuses.

Lemma load_loop_nil rv kn sub_load d : forall names self upd self' m' upd',
  (forall n, In n names -> ~ In n upd) ->
  load_loop rv kn sub_load d names (self, [], upd) = ((self', m', upd'), None) ->
  k_conf self' = k_conf self /\ upd' = upd.
Proof.
  induction names as [|n names IH]; intros self upd self' m' upd' Hupd H; cbn [load_loop dget] in H.
  - inversion H; subst. auto.
  - destruct (k_conf self) as [cf|] eqn:Ecf; [|inversion H].
    destruct (dget n (c_subs (co_dict cf))) as [sc|]; [|inversion H].
    destruct (negb (kn (c_class sc))); [inversion H|].
    destruct (sub_load (new_component (c_class sc)) (d ++ [n]) []) as [[s [e|]] ms]; [inversion H|].
    rewrite (proj2 (smem_false n upd)) in H by (apply Hupd; left; reflexivity).
    apply IH in H; [|intros k Hk; apply Hupd; right; exact Hk]. destruct H as [H1 H2].
    split; [|exact H2]. rewrite H1. reflexivity.
Qed.

(** Loaded without modifications, a component has the configuration in its
    file. *)
Lemma load_nil_conf rv kn kind_of rebuild fuel fs cls p c m' :
  load rv kn kind_of rebuild fuel fs (new_component cls) p [] = (c, None, m') ->
  exists cfg, fs (splitext_path p) FConf = Some (CConf cfg) /\ conf_dict c = Ok cfg.
Proof.
  intros Hl. apply load_ok in Hl.
  destruct Hl as (fuel' & cfg & cf & v & self3 & upd & self4 & _ & _ & _ & F1 & _ & Hinit & Hver & _ & _ & Hloop & Hupd & -> & _).
  apply load_loop_nil in Hloop; [|intros n _ []]. destruct Hloop as [Hc Hu].
  destruct Hupd as [[_ ->]|[Hne _]]; [|rewrite Hu in Hne; contradiction].
  exists cfg. split; [exact F1|]. unfold conf_dict, set_configured. cbn [k_conf]. rewrite Hc. cbn.
  unfold configuration_init in Hinit. destruct (check_dependent_names _ _); [discriminate|].
  destruct (combine_settings _); inversion Hinit; subst; simpl. destruct cfg; reflexivity.
Qed.

(** If the configurations recorded in the stored parent agree with the files of
    its sub-components, then after any load, with or without replacements, the
    recorded configurations agree with the sub-components held. *)
Theorem C08_records_agree : forall rv kn kind_of rebuild fuel fs cls p m c m' cfg,
  dwf m -> fs (splitext_path p) FConf = Some (CConf cfg) -> NoDup (c_dep cfg) ->
  (forall n, In n (c_dep cfg) -> exists sc, dget n (c_subs cfg) = Some sc /\
     fs (splitext_path p ++ [splitext_root n]) FConf = Some (CConf sc)) ->
  load rv kn kind_of rebuild (S fuel) fs (new_component cls) p m = (c, None, m') ->
  exists cf, k_conf c = Some cf /\
    forall n s, dget n (k_subs c) = Some s ->
      exists d, conf_dict s = Ok d /\ dget n (c_subs (co_dict cf)) = Some d.
Proof.
  intros rv kn kind_of rebuild fuel fs cls p m c m' cfg Hm Hf Hnd Hagree Hl.
  destruct (load_replace _ _ _ _ _ _ _ _ _ _ _ _ Hm Hf Hnd Hl) as (cf & Hcf & _ & Hk & _ & H & _).
  exists cf. split; [exact Hcf|]. intros n s Hs.
  assert (Hn : In n (c_dep cfg)) by (rewrite <- Hk; eapply dget_Some_In_keys; exact Hs).
  destruct (H n Hn) as (rec & fin & rec' & R1 & R2 & R3 & O). rewrite Hs in R2. inversion R2; subst fin.
  exists rec'. split; [|exact R3]. inversion O as [rc s' m2 O1|nd rc s' m2 rc' O1 O2|r rc s' m2 rc' O1 O2 O3 O4]; subst.
  - destruct (load_nil_conf _ _ _ _ _ _ _ _ _ _ O1) as (scf & S1 & S2). rewrite splitext_path_snoc in S1.
    destruct (Hagree n Hn) as (sc & A1 & A2). rewrite A1 in R1. inversion R1; subst. congruence.
  - exact O2.
  - exact O4.
Qed.
Print Assumptions C08_records_agree.

Example C08_example : exists c,
  ex_load 2 (saved (ex_tree "data_module" 1 2) ["d"]) (new_component "m.Handler") ["d"]
    [("data_module", MComp (ex_leaf_c 9))] = (c, None, []) /\
  dget "data_module" (k_subs c) = Some (ex_leaf_c 9).
Proof. eexists. split; vm_compute; reflexivity. Qed.

(** A data handler loaded with replaced modules describes them: class and
    settings of each replaced module are recorded in its configuration, its
    data are the stored ones overlaid with those of the replaced modules in the
    order of the modules, and its tensor list is built from the result. *)
Theorem C08_handler_follows_modules : forall rv kn kind_of rebuild fuel fs cls p m c m' cfg v,
  dwf m -> m <> [] -> fs (splitext_path p) FConf = Some (CConf cfg) -> NoDup (c_dep cfg) ->
  fs (splitext_path p) FData = Some (CData v) -> dwf (c_mutable cfg) -> kind_of cls = KHandler ->
  load rv kn kind_of rebuild (S fuel) fs (new_component cls) p m = (c, None, m') ->
  (forall n s d, dget n (k_subs c) = Some s -> k_data s = VDict d -> dwf d) ->
  exists cf d0 d1 tensors, k_conf c = Some cf /\ v = VDict d0 /\
    (forall n, In n (dkeys m) -> exists s, dget n (k_subs c) = Some s /\ HandlerDescribes cf n s) /\
    (forall k, dget k d1 =
       latest k (map (sub_data c) (filter (fun n => dmem n m) (c_dep cfg))) (dget k d0)) /\
    rebuild d1 = Ok tensors /\ k_data c = VDict (dset "tensors" tensors d1).
Proof. intros. eapply handler_follows; eassumption. Qed.
Print Assumptions C08_handler_follows_modules.

Example C08_handler_example : exists c cf,
  ex_load 2 (saved (ex_tree "label_module" 1 2) ["d"]) (new_component "m.Handler") ["d"]
    [("label_module", MComp (ex_leaf_c 9))] = (c, None, []) /\
  k_conf c = Some cf /\ HandlerDescribes cf "label_module" (ex_leaf_c 9) /\
  k_data c = VDict [("p", VInt 1); ("d", VInt 9); ("tensors", VNone)].
Proof.
  eexists. eexists. split; [vm_compute; reflexivity|]. split; [reflexivity|]. split; [|reflexivity].
  eexists. eexists. eexists. split; [constructor|]. repeat split; reflexivity.
Qed.

(** Loading a model manager with another data handler succeeds only if every
    model it holds was trained with a data handler compatible with the new one;
    nothing but the data handler can be replaced. *)
Theorem C08_manager_models_compatible : forall rv kn kind_of rebuild fuel fs cls p m c m' cfg,
  dwf m -> m <> [] -> fs (splitext_path p) FConf = Some (CConf cfg) -> NoDup (c_dep cfg) ->
  kind_of cls = KManager ->
  load rv kn kind_of rebuild (S fuel) fs (new_component cls) p m = (c, None, m') ->
  (forall n, In n (dkeys m) -> n = "data_handler") /\
  exists h, dget "data_handler" (k_subs c) = Some h /\
    forall n model, In (n, model) (k_subs c) -> n <> "data_handler" -> TrainedWith rv h model.
Proof. intros. eapply manager_models; eassumption. Qed.
Print Assumptions C08_manager_models_compatible.

Definition ex_model (h : config) : component :=
  mkComp "m.Model" [] true
    (Some (ex_conf "m.Model" [] []
       [("data_trafo", mkConfig "1" VNone "m.Trafo" [] [] [] [("data_handler", h)] [] [])] [] []))
    (VDict []) [].
Definition dict_of_comp (c : component) : config :=
  match k_conf c with Some cf => co_dict cf | None => leaf_dict 0 end.
Definition ex_manager (recorded1 recorded2 : config) : component :=
  let h := ex_tree "data_module" 1 2 in
  let m1 := ex_model recorded1 in
  let m2 := ex_model recorded2 in
  mkComp "m.Manager" [] true
    (Some (ex_conf "m.Manager" [] []
       [("data_handler", dict_of_comp h); ("models_0", dict_of_comp m1); ("models_1", dict_of_comp m2)]
       ["data_handler"; "models_0"; "models_1"] ["data_handler"]))
    (VDict []) [("data_handler", h); ("models_0", m1); ("models_1", m2)].
Definition ex_kind2 (cls : string) : kind := if String.eqb cls "m.Manager" then KManager else ex_kind cls.
Definition ex_load_manager (recorded1 recorded2 : config) :=
  load "1" all_known ex_kind2 ex_rebuild 3 (saved (ex_manager recorded1 recorded2) ["d"])
    (new_component "m.Manager") ["d"] [("data_handler", MComp (ex_tree "data_module" 1 9))].

(** The second model was trained with another kind of handler. *)
Example C08_manager_example :
  let good := dict_of_comp (ex_tree "data_module" 7 3) in
  (exists c, ex_load_manager good good = (c, None, [])) /\
  snd (fst (ex_load_manager good (leaf_dict 1))) = Some ValueError.
Proof. split; [eexists; vm_compute; reflexivity|vm_compute; reflexivity]. Qed.

(** The same modification is refused when the class has no update method. *)
Example C08_example_refused :
  snd (fst (ex_load 2 (saved ex_parent ["d"]) (new_component "m.P") ["d"]
    [("leaf", MComp (ex_leaf_c 5))])) = Some NotImplementedError.
Proof. vm_compute. reflexivity. Qed.

(** ** C09 *)

(** A crash while saving into an empty directory leaves something that either
    cannot be loaded or loads as exactly the saved component. *)
Theorem C09_crash_fresh : forall rv kn kind_of rebuild ov al c p fs ops fs' e fs'' fuel c' m,
  Consistent rv kn c -> fresh_dir fs (splitext_path p) ->
  save ov al c p fs = (ops, fs', e) -> Crash ops fs fs'' ->
  load rv kn kind_of rebuild fuel fs'' (new_component (k_class c)) p [] = (c', None, m) -> c' = c.
Proof.
  intros rv kn kind_of rebuild ov al c p fs ops fs' e fs'' fuel c' m HC Hf Hs Hcr Hl.
  eapply load_safe; [exact HC| |exact Hl]. eapply crash_safe; eauto. eapply Consistent_distinct; eauto.
Qed.
Print Assumptions C09_crash_fresh.

(** With [overwrite] that is false: new configuration, old data. *)
Theorem C09_crash_overwrite_refuted : exists c c0 p fs ops fs' fs'' c' m,
  Consistent "1" all_known c /\ Consistent "1" all_known c0 /\ fs = saved c0 p /\
  save true false c p fs = (ops, fs', None) /\ Crash ops fs fs'' /\
  ex_load 1 fs'' (new_component (k_class c)) p [] = (c', None, m) /\ c' <> c /\ c' <> c0.
Proof.
  exists (ex_leaf_c 1), (ex_leaf_c 2), ["d"]. eexists; eexists; eexists; eexists; eexists; eexists.
  split; [apply ex_leaf_consistent|]. split; [apply ex_leaf_consistent|]. split; [reflexivity|].
  split; [reflexivity|]. split; [apply Crash_later; apply Crash_here|].
  split; [vm_compute; reflexivity|]. split; discriminate.
Qed.
Print Assumptions C09_crash_overwrite_refuted.

Example C09_example : exists ops fs' fs'',
  fresh_dir no_files (splitext_path ["d"]) /\
  save false false (ex_leaf_c 1) ["d"] no_files = (ops, fs', None) /\ Crash ops no_files fs'' /\
  snd (fst (ex_load 1 fs'' (new_component "m.Leaf") ["d"] [])) = Some IOError.
Proof.
  eexists; eexists; eexists. split; [intros q f; reflexivity|]. split; [reflexivity|].
  split; [apply Crash_later; apply Crash_here|]. reflexivity.
Qed.

(** ** C10 *)

(** Only the part of the path before the extension of its last element counts,
    for saving and for loading. *)
Theorem C10_extension_dropped : forall d base ext,
  has_non_dot base = true -> before_last_dot ext = None ->
  splitext_path (d ++ [(base ++ String "." ext)%string]) = d ++ [base].
Proof. intros d base ext Hb He. rewrite splitext_path_snoc, splitext_root_ext by assumption. reflexivity. Qed.
Print Assumptions C10_extension_dropped.

Theorem C10_dot_free_kept : forall d x,
  before_last_dot x = None -> splitext_path (d ++ [x]) = d ++ [x].
Proof. intros d x H. rewrite splitext_path_snoc, splitext_root_nodot by assumption. reflexivity. Qed.
Print Assumptions C10_dot_free_kept.

Theorem C10_same_target : forall ov al c p q fs,
  splitext_path p = splitext_path q -> save ov al c p fs = save ov al c q fs.
Proof. intros ov al c p q fs H. rewrite !save_unfold, H. reflexivity. Qed.
Print Assumptions C10_same_target.

Theorem C10_same_source : forall rv kn kind_of rebuild fuel fs self p q m,
  splitext_path p = splitext_path q ->
  load rv kn kind_of rebuild fuel fs self p m = load rv kn kind_of rebuild fuel fs self q m.
Proof. intros rv kn kind_of rebuild [|fuel] fs self p q m H; [reflexivity|]. cbn [load]. rewrite H. reflexivity. Qed.
Print Assumptions C10_same_source.

(** Hence two different targets which differ only in the extension collide:
    the second save is refused, or overwrites the first. *)
Theorem C10_targets_collide : forall al c c2 p q fs ops fs' al2,
  splitext_path p = splitext_path q ->
  save false al c p fs = (ops, fs', None) -> exists e, save false al2 c2 q fs' = ([], fs', Some e).
Proof.
  intros al c c2 p q fs ops fs' al2 Hpq Hs. rewrite (C10_same_target _ _ _ _ p) by (symmetry; exact Hpq).
  pose proof (save_run _ _ _ _ _ _ _ _ Hs) as R. pose proof Hs as Hs0.
  rewrite save_unfold in Hs.
  destruct (negb (k_configured c)); [inversion Hs|]. destruct (negb al && _); [inversion Hs|]. cbv zeta in Hs.
  destruct (_ && negb false); [inversion Hs|]. destruct (k_conf c) as [cf|]; [|inversion Hs].
  destruct (save_subs _ _ _ _ _) as [[ops0 fs0] e0] eqn:E. inversion Hs; subst. clear Hs.
  destruct (save_subs_under _ _ _ _ _ _ _ _ E) as [U _]. apply subs_ops_neq_dir in U.
  eapply (C07_refused _ _ _ _ FData). simpl. rewrite run_ops_frame by exact U.
  unfold apply_op. cbn [o_path o_file o_content]. apply fs_write_same.
Qed.
Print Assumptions C10_targets_collide.

(** Sibling sub-components whose names differ only in the extension make the
    save raise (without overwrite) ... *)
Theorem C10_siblings_collide : forall al c p fs ops fs' e s1 s2 n1 n2 a b r,
  k_subs c = a ++ (n1, s1) :: b ++ (n2, s2) :: r ->
  splitext_root n1 = splitext_root n2 ->
  save false al c p fs = (ops, fs', e) -> e <> None.
Proof.
  intros al c p fs ops fs' e s1 s2 n1 n2 a b r Hsubs Hroot Hs ->.
  rewrite save_unfold in Hs.
  destruct (negb (k_configured c)); [inversion Hs|]. destruct (negb al && _); [inversion Hs|]. cbv zeta in Hs.
  destruct (_ && negb false); [inversion Hs|]. destruct (k_conf c) as [cf|]; [|inversion Hs].
  destruct (save_subs _ _ _ _ _) as [[ops0 fs0] e0] eqn:E. inversion Hs; subst. clear Hs.
  rewrite Hsubs in E.
  set (d := splitext_path p) in *. clearbody d.
  match type of E with save_subs _ _ _ _ ?f = _ => revert E; generalize f end.
  clear Hsubs. revert ops0 fs'.
  assert (Hb : forall b ops0 fs' f, (exists x, f (d ++ [splitext_root n2]) FData = Some x) ->
    save_subs false al d (b ++ (n2, s2) :: r) f = (ops0, fs', None) -> False).
  { clear b. induction b as [|[n s] b IH]; intros ops0 fs' f [x Hx] E; cbn [app save_subs] in E.
    - destruct (C07_refused al s2 (d ++ [n2]) f FData x) as [e He].
      { rewrite splitext_path_snoc. exact Hx. }
      rewrite He in E. inversion E.
    - destruct (save false al s (d ++ [n]) f) as [[ops1 f1] [e1|]] eqn:E1; [inversion E|].
      destruct (save_subs false al d (b ++ (n2, s2) :: r) f1) as [[ops2 f2] e2] eqn:E2. inversion E; subst.
      eapply IH; [|exact E2]. exists x. eapply C07_existing_files_kept_at_end; eauto. }
  induction a as [|[n s] a IH]; intros ops0 fs' f E; cbn [app save_subs] in E.
  - destruct (save false al s1 (d ++ [n1]) f) as [[ops1 f1] [e1|]] eqn:E1; [inversion E|].
    destruct (save_subs false al d (b ++ (n2, s2) :: r) f1) as [[ops2 f2] e2] eqn:E2. inversion E; subst.
    assert (Hst : exists x, f1 (d ++ [splitext_root n2]) FData = Some x).
    { rewrite <- Hroot, <- splitext_path_snoc. clear - E1. rewrite save_unfold in E1.
      pose proof E1 as E0.
      destruct (negb (k_configured s1)); [inversion E1|]. destruct (negb al && _); [inversion E1|]. cbv zeta in E1.
      destruct (_ && negb false); [inversion E1|]. destruct (k_conf s1) as [cf|]; [|inversion E1].
      destruct (save_subs _ _ _ _ _) as [[ops0 fs0] e0] eqn:E. inversion E1; subst.
      destruct (save_subs_under _ _ _ _ _ _ _ _ E) as [U R]. apply subs_ops_neq_dir in U.
      rewrite R, run_ops_frame by exact U. eexists. unfold apply_op. cbn [o_path o_file o_content]. apply fs_write_same. }
    exact (Hb b _ _ _ Hst E2).
  - destruct (save false al s (d ++ [n]) f) as [[ops1 f1] [e1|]] eqn:E1; [inversion E|].
    destruct (save_subs false al d (a ++ (n1, s1) :: b ++ (n2, s2) :: r) f1) as [[ops2 f2] e2] eqn:E2.
    inversion E; subst. eapply IH; exact E2.
Qed.
Print Assumptions C10_siblings_collide.

(** ... and with overwrite the load silently returns something else. *)
Definition ex_siblings : component :=
  mkComp "m.Q" [] true
    (Some (ex_conf "m.Q" [] [] [("m.1", leaf_dict 1); ("m.2", leaf_dict 2)] ["m.1"; "m.2"] []))
    (VDict []) [("m.1", ex_leaf_c 1); ("m.2", ex_leaf_c 2)].

Theorem C10_overwrite_siblings_refuted : exists ops fs' c',
  save true false ex_siblings ["d"] no_files = (ops, fs', None) /\
  ex_load 2 fs' (new_component "m.Q") ["d"] [] = (c', None, []) /\ c' <> ex_siblings.
Proof. eexists; eexists; eexists. split; [reflexivity|]. split; [vm_compute; reflexivity|discriminate]. Qed.
Print Assumptions C10_overwrite_siblings_refuted.

Example C10_example : splitext_path ["exp"; "model_v1.2"] = ["exp"; "model_v1"] /\
  splitext_path ["exp"; "model_v1.3"] = ["exp"; "model_v1"] /\
  exists e, save false false ex_siblings ["d"] no_files = e /\ snd e = Some IOError.
Proof. repeat split. eexists. split; reflexivity. Qed.

(** ** C11 *)

(** A component stored by another version is never loaded. *)
Theorem C11_version_mismatch_raises : forall rv kn kind_of rebuild fuel fs cls p m c e m' cfg,
  fs (splitext_path p) FConf = Some (CConf cfg) -> c_version cfg <> rv ->
  load rv kn kind_of rebuild fuel fs (new_component cls) p m = (c, e, m') ->
  e <> None /\ k_configured c = false.
Proof.
  intros rv kn kind_of rebuild fuel fs cls p m c e m' cfg Hf Hv Hl.
  destruct e as [e|].
  - split; [discriminate|]. apply load_err in Hl. destruct Hl as [[H _]|[_ H]]; [discriminate|exact H].
  - exfalso. apply load_ok in Hl.
    destruct Hl as (fuel' & cfg0 & cf & v & self3 & upd & self4 & _ & _ & _ & F1 & _ & _ & Hver & _).
    rewrite Hf in F1. inversion F1; subst. contradiction.
Qed.
Print Assumptions C11_version_mismatch_raises.

(** If the files are readable and the configuration valid the exception is the
    AttributeError of the missing logger, not a warning. *)
Theorem C11_version_mismatch_attribute_error : forall rv kn kind_of rebuild fuel fs cls p m cfg v cf,
  fs (splitext_path p) FConf = Some (CConf cfg) -> fs (splitext_path p) FData = Some (CData v) ->
  configuration_init rv cfg = Ok cf -> c_version cfg <> rv ->
  exists c, load rv kn kind_of rebuild (S fuel) fs (new_component cls) p m = (c, Some AttributeError, m) /\
    k_configured c = false.
Proof.
  intros rv kn kind_of rebuild fuel fs cls p m cfg v cf F1 F2 Hi Hv. eexists.
  cbn [load new_component k_configured k_untracked length Nat.eqb negb]. rewrite F1, F2, Hi.
  apply String.eqb_neq in Hv. rewrite Hv. cbn [negb]. split; reflexivity.
Qed.
Print Assumptions C11_version_mismatch_attribute_error.

(** A tree holding one sub-component stored by another version cannot be loaded
    unmodified. *)
Theorem C11_nested_mismatch_raises : forall rv kn kind_of rebuild fuel fs cls p c e m' cfg n sub,
  fs (splitext_path p) FConf = Some (CConf cfg) -> NoDup (c_dep cfg) -> In n (c_dep cfg) ->
  fs (splitext_path p ++ [splitext_root n]) FConf = Some (CConf sub) -> c_version sub <> rv ->
  load rv kn kind_of rebuild fuel fs (new_component cls) p [] = (c, e, m') -> e <> None.
Proof.
  intros rv kn kind_of rebuild [|fuel] fs cls p c e m' cfg n sub Hf Hnd Hn Hs Hv Hl ->; [inversion Hl|].
  destruct (load_replace _ _ _ _ _ _ _ _ [] _ _ _ (NoDup_nil _) Hf Hnd Hl) as (cf & _ & _ & _ & _ & H & _).
  destruct (H n Hn) as (rec & fin & rec' & R1 & R2 & R3 & O). simpl in O. inversion O as [rc s m2 O1| |]; subst.
  eapply C11_version_mismatch_raises in O1; [|rewrite splitext_path_snoc; exact Hs|exact Hv].
  destruct O1 as [O1 _]. apply O1. reflexivity.
Qed.
Print Assumptions C11_nested_mismatch_raises.

Example C11_example : exists cfg,
  saved (ex_leaf_c 1) ["d"] (splitext_path ["d"]) FConf = Some (CConf cfg) /\ c_version cfg <> "2".
Proof. eexists. split; [reflexivity|discriminate]. Qed.

(** ** C12 *)

(** A successful load has removed every entry from the caller's dictionary. *)
Theorem C12_load_consumes : forall rv kn kind_of rebuild fuel fs self p m c m',
  load rv kn kind_of rebuild fuel fs self p m = (c, None, m') -> m' = [].
Proof.
  intros rv kn kind_of rebuild fuel fs self p m c m' Hl. apply load_ok in Hl.
  destruct Hl as (? & ? & ? & ? & ? & ? & ? & _ & _ & _ & _ & _ & _ & _ & _ & _ & _ & _ & _ & H). exact H.
Qed.
Print Assumptions C12_load_consumes.

(** Hence in an ensemble sharing one dictionary only the first member gets the
    replacements: the remaining ones are loaded as if none had been requested. *)
Theorem C12_ensemble_only_first : forall rv kn kind_of rebuild fuel fs cls p ps m c m',
  load rv kn kind_of rebuild fuel fs (new_component cls) p m = (c, None, m') ->
  load_ensemble rv kn kind_of rebuild fuel fs cls (p :: ps) m =
  let '(cs, e, m2) := load_ensemble rv kn kind_of rebuild fuel fs cls ps [] in (c :: cs, e, m2).
Proof.
  intros rv kn kind_of rebuild fuel fs cls p ps m c m' Hl. cbn [load_ensemble]. rewrite Hl.
  rewrite (C12_load_consumes _ _ _ _ _ _ _ _ _ _ _ Hl). reflexivity.
Qed.
Print Assumptions C12_ensemble_only_first.

Theorem C12_ensemble_replaced_refuted : exists fs m r c1 c2,
  m = [("data_module", MComp r)] /\
  load_ensemble "1" all_known ex_kind ex_rebuild 2 fs "m.Handler" [["a"]; ["b"]] m = ([c1; c2], None, []) /\
  dget "data_module" (k_subs c1) = Some r /\ dget "data_module" (k_subs c2) <> Some r.
Proof.
  exists (snd (fst (save false false (ex_tree "data_module" 1 2) ["b"] (saved (ex_tree "data_module" 1 2) ["a"])))).
  eexists. exists (ex_leaf_c 9). eexists; eexists. split; [reflexivity|].
  split; [vm_compute; reflexivity|]. split; [reflexivity|discriminate].
Qed.
Print Assumptions C12_ensemble_replaced_refuted.
