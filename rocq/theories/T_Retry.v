(** Property theorems C195 - C197: loading again into an object whose load failed. *)
From Verif Require Import Py PyFacts PyStr PyStrFacts M_Config S_Config L_Config
  M_Component S_Component L_Component L_Load L_Replace L_Update S_Retry L_Retry T_Component.

Section Retry.
Variable rv : string.
Variable kn : string -> bool.
Variable kind_of : string -> kind.
Variable rebuild : dict value -> result value.
Notation load := (load rv kn kind_of rebuild).

(** An object of class [cls] on which any number of loads, each from some
    directory in some state of the disk and with some modifications, has been
    tried and has raised. *)
Inductive OnlyFailed (cls : string) : component -> Prop :=
| OnlyFailed_new : OnlyFailed cls (new_component cls)
| OnlyFailed_more c fuel fs p m c' e m' :
    OnlyFailed cls c -> load fuel fs c p m = (c', Some e, m') -> OnlyFailed cls c'.

Lemma only_failed_members cls c : OnlyFailed cls c ->
  k_configured c = false /\ k_class c = cls /\ k_untracked c = [].
Proof.
  induction 1 as [|c fuel fs p m c' e m' _ [IH1 [IH2 IH3]] H]; [repeat split|].
  destruct (load_failed _ _ _ _ _ _ _ _ _ _ _ _ IH1 H) as [H1 [H2 H3]].
  repeat split; congruence.
Qed.

(** A failed attempt never makes the object count as configured, and it does
    not prevent a later attempt: the later attempt raises exactly when a fresh
    object would, with the same exception.  When it succeeds, configuration
    and data are those of a fresh object, every recorded sub-component is the
    one of a fresh object, and what is left under other names is what the
    failed attempts had loaded. *)
Theorem C195_retry cls c1 fuel fs p c0 e0 m0 c2 e2 m2 :
  OnlyFailed cls c1 ->
  load fuel fs (new_component cls) p [] = (c0, e0, m0) ->
  load fuel fs c1 p [] = (c2, e2, m2) ->
  k_configured c1 = false /\ e2 = e0 /\
  (e0 = None ->
     SameButSubs c0 c2 /\ k_configured c2 = true /\
     exists cfg, fs (splitext_path p) FConf = Some (CConf cfg) /\
       (forall n, In n (c_dep cfg) ->
          dget n (k_subs c2) = dget n (k_subs c0) /\ dget n (k_subs c0) <> None) /\
       (forall n, ~ In n (c_dep cfg) ->
          dget n (k_subs c2) = dget n (k_subs c1) /\ dget n (k_subs c0) = None)).
Proof.
  intros HF H0 H2. destruct (only_failed_members _ _ HF) as [Hc [Hk Hu]]. subst cls.
  destruct (load_overlaid _ _ _ _ _ _ _ _ _ _ _ _ _ _ Hc Hu H0 H2) as [He Hr].
  split; [exact Hc|]. split; [auto|]. intros E. destruct (Hr E) as [Hs [Ho [cfg [Hf Hn]]]].
  split; [exact Hs|]. split.
  { rewrite <- He, E in H2.
    destruct (load_ok _ _ _ _ _ _ _ _ _ _ _ H2)
      as (f' & g1 & g2 & g3 & s3 & u & s4 & _ & _ & _ & _ & _ & _ & _ & _ & _ & _ & _ & Hc2 & _).
    subst c2. reflexivity. }
  exists cfg. split; [exact Hf|]. split.
  - intros n Hin. apply Hn in Hin. split; [|exact Hin]. rewrite Ho. destruct (dget n (k_subs c0)); congruence.
  - intros n Hin. assert (H : dget n (k_subs c0) = None).
    { destruct (dget n (k_subs c0)) eqn:E0; [|reflexivity].
      exfalso. apply Hin. apply Hn. rewrite E0. discriminate. }
    split; [|exact H]. rewrite Ho, H. reflexivity.
Qed.

(** What failed attempts leave behind are fully loaded components: a
    sub-component which could not be loaded is not kept. *)
Theorem C195_left_behind cls c n s :
  OnlyFailed cls c -> dget n (k_subs c) = Some s -> k_configured s = true.
Proof.
  intros HF. revert n s. change (AllConfigured (k_subs c)).
  induction HF as [|c fuel fs p m c' e m' _ IH H].
  - intros n s Hn. discriminate.
  - exact (load_all_configured _ _ _ _ _ _ _ _ _ _ _ _ H IH).
Qed.

(** Attempts which all read the same configuration file, e.g. a directory of
    which a file of a sub-component was missing until it was restored. *)
Inductive OnlyFailedFrom (cls : string) (cfg : config) : component -> Prop :=
| OnlyFailedFrom_new : OnlyFailedFrom cls cfg (new_component cls)
| OnlyFailedFrom_more c fuel fs p m c' e m' :
    OnlyFailedFrom cls cfg c -> fs (splitext_path p) FConf = Some (CConf cfg) ->
    load fuel fs c p m = (c', Some e, m') -> OnlyFailedFrom cls cfg c'.

(** Then the object ends up as a fresh one would. *)
Theorem C195_same_directory cls cfg c1 fuel fs p c0 m0 c2 e2 m2 :
  OnlyFailedFrom cls cfg c1 ->
  fs (splitext_path p) FConf = Some (CConf cfg) ->
  load fuel fs (new_component cls) p [] = (c0, None, m0) ->
  load fuel fs c1 p [] = (c2, e2, m2) ->
  e2 = None /\ SameButSubs c0 c2 /\ forall n, dget n (k_subs c2) = dget n (k_subs c0).
Proof.
  intros HF Hf H0 H2.
  assert (HO : OnlyFailed cls c1).
  { clear - HF. induction HF; [constructor|econstructor; eassumption]. }
  assert (HN : forall n, ~ In n (c_dep cfg) -> dget n (k_subs c1) = None).
  { clear - HF. induction HF as [|c fuel fs p m c' e m' _ IH Hf H]; intros n Hn; [reflexivity|].
    rewrite (load_names _ _ _ _ _ _ _ _ _ _ _ _ _ _ Hf H Hn). apply IH. exact Hn. }
  destruct (C195_retry _ _ _ _ _ _ _ _ _ _ _ HO H0 H2) as [_ [He Hr]].
  split; [exact He|]. destruct (Hr eq_refl) as [Hs [_ [cfg' [Hf' [Hin Hout]]]]].
  split; [exact Hs|]. intros n. rewrite Hf in Hf'. inversion Hf'; subst cfg'.
  destruct (in_dec string_dec n (c_dep cfg)) as [Hd|Hd].
  - apply Hin. exact Hd.
  - destruct (Hout n Hd) as [-> ->]. apply HN. exact Hd.
Qed.

(** A component [c] is saved to [p], loaded from there into an object on which
    attempts have failed before, saved again to [q], and loaded from there: the
    result is [c].  The sub-components left behind by the failed attempts are
    written below [q], but they are not read back. *)
Theorem C196_saved_again c p ov al fs0 ops fs c1 fuel c2 e2 m2 q ov' al' fs1 ops' fs2 fuel' :
  Consistent rv kn c -> save ov al c p fs0 = (ops, fs, None) ->
  OnlyFailed (k_class c) c1 -> depth c <= fuel -> load fuel fs c1 p [] = (c2, e2, m2) ->
  DistinctNames c2 -> save ov' al' c2 q fs1 = (ops', fs2, None) -> depth c <= fuel' ->
  e2 = None /\ SameButSubs c c2 /\
  load fuel' fs2 (new_component (k_class c)) q [] = (c, None, []) /\
  (forall n s, dget n (k_subs c) = None -> dget n (k_subs c1) = Some s ->
     dget n (k_subs c2) = Some s /\
     fs2 (splitext_path (splitext_path q ++ [n])) FData = Some (CData (k_data s))).
Proof.
  intros HC HS HF Hd HL HD HS2 Hd2.
  assert (H0 : load fuel fs (new_component (k_class c)) p [] = (c, None, [])).
  { apply load_stored; [assumption| |assumption].
    eapply save_stored; [eapply Consistent_distinct; eassumption|eassumption]. }
  destruct (C195_retry _ _ _ _ _ _ _ _ _ _ _ HF H0 HL) as [_ [He Hr]].
  destruct (Hr eq_refl) as [Hs [_ [cfg [Hf [Hin Hout]]]]].
  split; [exact He|]. split; [exact Hs|].
  pose proof (save_stored _ _ _ _ _ _ _ HD HS2) as HT.
  inversion HT as [x y cf T1 T2 T3 T4]; subst x y.
  assert (Hwf : dwf (k_subs c)).
  { inversion HC as [cls cf' data subs _ _ _ _ Hnd _ _]; subst. cbn in Hnd |- *.
    unfold dwf. apply NoDup_map_inv with (f := splitext_root). exact Hnd. }
  destruct Hs as [_ [_ [_ [Hs1 Hs2]]]].
  split.
  - apply load_stored; [assumption| |assumption].
    apply Stored_intro with (cf := cf); [congruence|exact T2|congruence|].
    intros n s Hns. apply T4. apply (In_dget _ _ _ Hwf) in Hns. apply dget_In.
    destruct (in_dec string_dec n (c_dep cfg)) as [Hi|Hi].
    + destruct (Hin n Hi) as [-> _]. exact Hns.
    + destruct (Hout n Hi) as [_ H']. congruence.
  - intros n s Hn Hn1.
    assert (H2 : dget n (k_subs c2) = Some s).
    { destruct (in_dec string_dec n (c_dep cfg)) as [Hi|Hi].
      - destruct (Hin n Hi) as [_ H']. contradiction.
      - destruct (Hout n Hi) as [-> _]. exact Hn1. }
    split; [exact H2|]. apply dget_In in H2. apply T4 in H2.
    inversion H2 as [x y cfs S1 S2 S3 S4]; subst x y. exact S3.
Qed.

(** What a load that raises does to the caller's dictionary of modifications:
    either nothing was loaded and the dictionary is as before, or the names of
    the sub-components loaded so far are taken out (and possibly the one at
    which it stopped), while all other entries are as before. *)
Theorem C197_consumed fuel fs self p (m : mods) c e m' :
  dwf m -> load fuel fs self p m = (c, Some e, m') ->
  (m' = m /\ k_subs c = k_subs self) \/
  exists cfg done rest, fs (splitext_path p) FConf = Some (CConf cfg) /\ c_dep cfg = done ++ rest /\
    TakenOut done (hd_error rest) m m' /\ (forall k, In k done -> dget k (k_subs c) <> None).
Proof.
  intros Hwf H. destruct (load_taken _ _ _ _ _ _ _ _ _ _ _ _ Hwf H) as [[H1 [H2 _]]|H1]; auto.
Qed.

(** Hence, when a first attempt on a fresh object fails after it has taken out
    all entries, repeating the call with the same dictionary loads the object
    without any of the requested modifications. *)
Theorem C197_repeated fuel0 fs0 cls p (m : mods) c1 e fuel fs c2 m2 :
  load fuel0 fs0 (new_component cls) p m = (c1, Some e, []) ->
  load fuel fs c1 p [] = (c2, None, m2) ->
  fs (splitext_path p) FConf = fs0 (splitext_path p) FConf ->
  exists c0, load fuel fs (new_component cls) p [] = (c0, None, []) /\ SameButSubs c0 c2 /\
    forall n, dget n (k_subs c2) = dget n (k_subs c0).
Proof.
  intros H1 H2 Hf.
  assert (HO : OnlyFailed cls c1) by (econstructor; [constructor|exact H1]).
  destruct (load fuel fs (new_component cls) p []) as [[c0 e0] m0] eqn:H0.
  destruct (C195_retry _ _ _ _ _ _ _ _ _ _ _ HO H0 H2) as [_ [He Hr]]. subst e0.
  destruct (Hr eq_refl) as [Hs [_ [cfg [Hc [_ _]]]]].
  assert (HF : OnlyFailedFrom cls cfg c1).
  { econstructor; [constructor| |exact H1]. congruence. }
  destruct (C195_same_directory _ _ _ _ _ _ _ _ _ _ _ HF Hc H0 H2) as [_ [_ Hd]].
  exists c0. split; [|split; [exact Hs|exact Hd]].
  rewrite (C12_load_consumes _ _ _ _ _ _ _ _ _ _ _ H0). reflexivity.
Qed.

End Retry.

(** ** The sub-components are not always those which the directory records *)

(** A handler with two sub-components, and the same without any. *)
Definition ex_two : component :=
  mkComp "m.Handler" [] true
    (Some (ex_conf "m.Handler" [] [("config", VDict [])]
             [("data_module", leaf_dict 1); ("label_module", leaf_dict 2)]
             ["data_module"; "label_module"] ["data_module"; "label_module"]))
    (VDict [("p", VInt 1)]) [("data_module", ex_leaf_c 1); ("label_module", ex_leaf_c 2)].
Definition ex_none : component :=
  mkComp "m.Handler" [] true (Some (ex_conf "m.Handler" [] [("config", VDict [])] [] [] []))
    (VDict [("p", VInt 3)]) [].

(** The disk: [ex_two] in a/, without the data file of its second
    sub-component, and [ex_none] in b/. *)
Definition ex_whole : fsys := snd (fst (save false false ex_none ["b"] (saved ex_two ["a"]))).
Definition ex_damaged : fsys := fun d k =>
  match d, k with ["a"; "label_module"], FData => None | _, _ => ex_whole d k end.

Theorem C195_recorded_only_refuted : exists c1 e m c2 cfg n,
  ex_load 3 ex_damaged (new_component "m.Handler") ["a"] [] = (c1, Some e, m) /\
  ex_load 3 ex_damaged c1 ["b"] [] = (c2, None, []) /\
  ex_damaged ["b"] FConf = Some (CConf cfg) /\
  ~ In n (c_dep cfg) /\ dget n (c_subs cfg) = None /\ dget n (k_subs c2) <> None.
Proof.
  do 5 eexists. exists "data_module".
  split; [vm_compute; reflexivity|]. split; [vm_compute; reflexivity|].
  split; [vm_compute; reflexivity|]. split; [vm_compute; tauto|].
  split; [reflexivity|discriminate].
Qed.

(** The hypotheses of the theorems are met: one failed attempt, then the file
    is restored. *)
Example C195_example :
  let c1 := fst (fst (ex_load 3 ex_damaged (new_component "m.Handler") ["a"] [])) in
  OnlyFailedFrom "1" all_known ex_kind ex_rebuild "m.Handler"
    (co_dict (ex_conf "m.Handler" [] [("config", VDict [])]
             [("data_module", leaf_dict 1); ("label_module", leaf_dict 2)]
             ["data_module"; "label_module"] ["data_module"; "label_module"])) c1 /\
  dkeys (k_subs c1) = ["data_module"] /\
  (exists c0, ex_load 3 ex_whole (new_component "m.Handler") ["a"] [] = (c0, None, [])) /\
  exists c2, ex_load 3 ex_whole c1 ["a"] [] = (c2, None, []) /\
    dkeys (k_subs c2) = ["data_module"; "label_module"].
Proof.
  intros c1. split.
  { eapply OnlyFailedFrom_more with (c := new_component "m.Handler") (fuel := 3%nat) (fs := ex_damaged)
      (p := ["a"]) (m := []); [constructor|vm_compute; reflexivity|vm_compute; reflexivity]. }
  split; [vm_compute; reflexivity|]. split; [eexists; vm_compute; reflexivity|].
  eexists. split; vm_compute; reflexivity.
Qed.

(** The failed attempt on a/, then another component is saved to b/, loaded
    into the object, saved to e/ and loaded again. *)
Definition ex_disk : fsys := fun d k =>
  match d, k with ["a"; "label_module"], FData => None | _, _ => saved ex_two ["a"] d k end.
Definition ex_failed : component :=
  fst (fst (ex_load 3 ex_disk (new_component "m.Handler") ["a"] [])).
Example C196_example :
  Consistent "1" all_known ex_none /\
  OnlyFailed "1" all_known ex_kind ex_rebuild (k_class ex_none) ex_failed /\
  exists ops fs, save false false ex_none ["b"] ex_disk = (ops, fs, None) /\
  exists c2, ex_load 3 fs ex_failed ["b"] [] = (c2, None, []) /\ DistinctNames c2 /\
    dkeys (k_subs c2) = ["data_module"] /\
    exists ops' fs2, save false false c2 ["e"] fs = (ops', fs2, None) /\
      ex_load 3 fs2 (new_component "m.Handler") ["e"] [] = (ex_none, None, []) /\
      fs2 ["e"; "data_module"] FData = Some (CData (VDict [("d", VInt 1)])).
Proof.
  split.
  { constructor; [reflexivity|reflexivity|right; reflexivity|reflexivity|constructor|intros n s []|constructor]. }
  split.
  { eapply OnlyFailed_more with (c := new_component "m.Handler") (fuel := 3%nat) (fs := ex_disk)
      (p := ["a"]) (m := []); [constructor|vm_compute; reflexivity]. }
  eexists. eexists. split; [reflexivity|].
  eexists. split; [vm_compute; reflexivity|]. split.
  { constructor; cbn; [constructor; [intros []|constructor]|].
    constructor; [|constructor]. constructor; cbn; constructor. }
  split; [reflexivity|].
  eexists. eexists. split; [reflexivity|]. split; vm_compute; reflexivity.
Qed.

(** The call is repeated with the same dictionary once the missing file is
    back: it succeeds, but the requested sub-component is not used, while a
    fresh object with the dictionary as it was first would have got it. *)
Theorem C197_requested_used_refuted : exists m r c1 e m' c2 c0,
  m = [("data_module", MComp r)] /\
  ex_load 3 ex_disk (new_component "m.Handler") ["a"] m = (c1, Some e, m') /\
  dget "data_module" (k_subs c1) = Some r /\
  ex_load 3 ex_whole c1 ["a"] m' = (c2, None, []) /\
  dget "data_module" (k_subs c2) <> Some r /\
  ex_load 3 ex_whole (new_component "m.Handler") ["a"] m = (c0, None, []) /\
  dget "data_module" (k_subs c0) = Some r.
Proof.
  exists [("data_module", MComp (ex_leaf_c 9))], (ex_leaf_c 9). do 5 eexists.
  split; [reflexivity|]. split; [vm_compute; reflexivity|]. split; [reflexivity|].
  split; [vm_compute; reflexivity|]. split; [discriminate|].
  split; [vm_compute; reflexivity|reflexivity].
Qed.

(** An attempt which stops at the second sub-component with entries for both:
    the first entry is gone, the second one is still there. *)
Example C197_example :
  let m := [("label_module", MComp (ex_leaf_c 8)); ("data_module", MComp (ex_leaf_c 9))] in
  dwf m /\ exists c1,
  ex_load 3 ex_disk (new_component "m.Handler") ["a"] m
    = (c1, Some IOError, [("label_module", MComp (ex_leaf_c 8))]).
Proof.
  split; [repeat constructor; cbn; intuition discriminate|]. eexists. vm_compute. reflexivity.
Qed.

(** With modifications a repeated attempt may fail where a fresh object would
    not: the models left behind by the failed attempt are checked, too.  Here
    a/ holds two models, of which the second was trained with another kind of
    data handler, and b/ holds the first one only. *)
Definition ex_manager_one (recorded : config) : component :=
  let h := ex_tree "data_module" 1 2 in
  let m1 := ex_model recorded in
  mkComp "m.Manager" [] true
    (Some (ex_conf "m.Manager" [] []
       [("data_handler", dict_of_comp h); ("models_0", dict_of_comp m1)]
       ["data_handler"; "models_0"] ["data_handler"]))
    (VDict []) [("data_handler", h); ("models_0", m1)].

Theorem C195_modified_refuted : exists good fs m c1 m1 c0 c2 e m2,
  let ld := load "1" all_known ex_kind2 ex_rebuild 3 fs in
  fs = snd (fst (save false false (ex_manager_one good) ["b"]
                   (saved (ex_manager good (leaf_dict 1)) ["a"]))) /\
  ld (new_component "m.Manager") ["a"] m = (c1, Some ValueError, m1) /\
  ld (new_component "m.Manager") ["b"] m = (c0, None, []) /\
  ld c1 ["b"] m = (c2, Some e, m2) /\
  (exists c3, ld c1 ["b"] [] = (c3, None, [])).
Proof.
  exists (dict_of_comp (ex_tree "data_module" 7 3)). eexists.
  exists [("data_handler", MComp (ex_tree "data_module" 1 9))]. do 6 eexists. cbv zeta.
  split; [reflexivity|]. split; [vm_compute; reflexivity|]. split; [vm_compute; reflexivity|].
  split; [vm_compute; reflexivity|]. eexists. vm_compute. reflexivity.
Qed.
Print Assumptions C195_retry.
Print Assumptions C195_left_behind.
Print Assumptions C195_same_directory.
Print Assumptions C196_saved_again.
Print Assumptions C197_consumed.
Print Assumptions C197_repeated.
Print Assumptions C195_recorded_only_refuted.
Print Assumptions C197_requested_used_refuted.
Print Assumptions C195_modified_refuted.
