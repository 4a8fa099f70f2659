(** Properties of the command line scripts (C165-C170). *)
From Verif Require Import Py PyFacts PyStr PyStrFacts M_Component M_Build M_Handler M_Scripts S_Scripts L_Scripts.

Section Scripts.
Variables Model Handler Trafo Loss Module : Type.
Variable parts : string -> path.
Variable parse : list (path * string) -> result value.
Variable make_loss : value -> result Loss.
Variable make_evaluation : value -> result Module.
Notation manager := (manager Model Handler Trafo).
Variable load_manager : value -> list (string * Module) -> disk -> result manager.
Variable new_manager : value -> disk -> result manager.
Variable combine : value -> list Model -> Handler -> Trafo -> result manager.
Variable files_of : manager -> list written.
Variable weight_dirs : manager -> list path.
Variable training_files : manager -> value -> Loss -> option Module -> list written.
Variable loop : manager -> value -> Loss -> option Module -> nat * option exn.
Variables steps_content weights_content log_content : string.

Notation get_config := (get_config parse).
Notation evaluation := (evaluation Module make_evaluation).
Notation train := (train Model Handler Trafo Loss Module parts files_of weight_dirs training_files loop steps_content weights_content log_content).
Notation train_model := (train_model Model Handler Trafo Loss Module parts parse make_loss make_evaluation load_manager new_manager
  files_of weight_dirs training_files loop steps_content weights_content log_content).
Notation g_dir := (g_dir Model Handler Trafo).

Notation Configuration := (Configuration parse).

Lemma read_files_spec files d l : read_files files d = Ok l <-> exists contents, Forall2 (Content d) files contents /\ l = List.combine files contents.
Proof.
  revert l. induction files as [|f files IH]; intros l; cbn [read_files].
  - split; [intros E; inversion E; exists []; split; [constructor|reflexivity]|]. intros (cs & H & ->). reflexivity.
  - split.
    + destruct (file_at f d) as [c|] eqn:E; [|discriminate]. destruct (read_files files d) as [l'|]; [|discriminate]. cbn [bind]. intros X. inversion X; subst.
      destruct (proj1 (IH l') eq_refl) as (cs & H & ->). exists (c :: cs). split; [|reflexivity]. constructor; [apply file_content; exact E|exact H].
    + intros (cs & H & ->). inversion H as [|a c f' cs' Hc H']; subst. apply file_content in Hc. rewrite Hc. rewrite (proj2 (IH (List.combine files cs')) (ex_intro _ cs' (conj H' eq_refl))). reflexivity.
Qed.

Lemma configuration_iff files d config : get_config files d = Ok config <-> Configuration files d config.
Proof.
  unfold M_Scripts.get_config, S_Scripts.Configuration. destruct files as [|f files]; [split; [discriminate|intros [N _]; congruence]|]. split.
  - destruct (read_files (f :: files) d) as [l|] eqn:E; [|discriminate]. cbn [bind]. intros H. apply read_files_spec in E. destruct E as (cs & H1 & ->). split; [discriminate|]. exists cs. auto.
  - intros (_ & cs & H1 & H2). assert (E : read_files (f :: files) d = Ok (List.combine (f :: files) cs)) by (apply read_files_spec; exists cs; auto). rewrite E. exact H2.
Qed.

Lemma configfile_iff files reco rf : reco_file files reco = Ok rf <-> ConfigFile files reco rf.
Proof.
  unfold reco_file. split.
  - destruct reco as [f|]; [intros E; inversion E; constructor|]. destruct files as [|f rest]; [discriminate|]. intros E. inversion E. econstructor. reflexivity.
  - intros H. inversion H as [f|f rest E]; subst; reflexivity.
Qed.

Lemma setting_one v k x : vget v k = Ok x <-> Setting v [k] x.
Proof. apply setting_vget. Qed.

Lemma evaluation_iff config ev : evaluation config = Ok ev <-> EvaluationOf make_evaluation config ev.
Proof.
  unfold M_Scripts.evaluation. split.
  - destruct config as [| | | | | |d]; try discriminate. cbn [vmem bind]. unfold dmem. destruct (dget "evaluation_module_settings" d) as [s|] eqn:E; [|intros X; inversion X; constructor; exact E].
    cbn [vget]. rewrite E. cbn [bind]. destruct (vget s "evaluation_module") as [name|] eqn:E2; [|discriminate]. cbn [bind]. intros H.
    assert (H1 : Setting (VDict d) ["evaluation_module_settings"%string] s) by (econstructor; [exact E|constructor]). apply setting_one in E2.
    assert (C : name = VNone \/ name <> VNone) by (destruct name; auto; right; discriminate). destruct C as [ -> | N].
    + inversion H. apply Evaluation_none. econstructor; [exact E|exact E2].
    + assert (HB : bind (make_evaluation s) (fun m => Ok (Some m)) = Ok ev) by (destruct name; try exact H; congruence). destruct (make_evaluation s) as [m|] eqn:E3; [|discriminate]. inversion HB. eapply Evaluation_made; eassumption.
  - intros H. inversion H as [d E|c HS|c s name m HS HN N HM]; subst.
    + cbn [vmem bind]. unfold dmem. rewrite E. reflexivity.
    + inversion HS as [|d k ks v x H1 H2]; subst. cbn [vmem bind]. unfold dmem. rewrite H1. cbn [vget]. rewrite H1. cbn [bind]. apply setting_one in H2. rewrite H2. reflexivity.
    + inversion HS as [|d k ks v x H1 H2]; subst. inversion H2; subst. cbn [vmem bind]. unfold dmem. rewrite H1. cbn [vget]. rewrite H1. cbn [bind]. apply setting_one in HN. rewrite HN. cbn [bind]. rewrite HM.
      destruct name; try reflexivity. congruence.
Qed.

(** The configuration files were read, the loss module and the evaluation module
    were built, and the settings of the manager are complete. *)
Record Prepared (files : list path) (d : disk) (config : value) (loss : Loss) (ev : option Module)
    (settings : value) (p : path) (restore : value) : Prop := {
  pr_config : Configuration files d config;
  pr_loss : make_loss config = Ok loss;
  pr_evaluation : EvaluationOf make_evaluation config ev;
  pr_settings : Setting config ["model_manager_settings"] settings;
  pr_dir : exists s, Setting settings ["config"; "manager_dir"] (VStr s) /\ parts s = p;
  pr_restore : Setting settings ["restore_model"] restore;
  pr_iterations : exists v, Setting config ["training_settings"; "num_training_iterations"] v }.

Lemma train_model_eq answer files d config loss ev settings p restore :
  Prepared files d config loss ev settings p restore ->
  train_model answer files d =
  (r <~ decide answer p (truthy restore) ;;
   (m <~ load_or_build Model Handler Trafo Module load_manager new_manager config settings p r ;;
    train m config loss ev)) d.
Proof.
  intros [H1 H2 H3 H4 (s & H5 & <-) H6 (v & H7)]. unfold M_Scripts.train_model. apply configuration_iff in H1. apply evaluation_iff in H3.
  rewrite (andthen_look _ _ _ _ H1), (andthen_lift _ _ _ _ H2), (andthen_lift _ _ _ _ H3).
  assert (Hs : manager_settings config = Ok (settings, VStr s, truthy restore)).
  { unfold manager_settings. apply setting_vget in H4. rewrite H4. cbn [bind].
    apply setting_cons in H5; [|discriminate]. destruct H5 as (c & Hc & H5). rewrite Hc. cbn [bind].
    apply setting_vget in H5. rewrite H5. cbn [bind]. apply setting_vget in H6. rewrite H6. reflexivity. }
  rewrite (andthen_lift _ _ _ _ Hs). cbv iota beta.
  rewrite (andthen_lift _ _ _ (parts s)) by reflexivity.
  apply setting_cons in H7; [|discriminate]. destruct H7 as (t & Ht & H7). apply setting_vget in H7.
  unfold andthen at 1 4. destruct (decide answer (parts s) (truthy restore) d) as [[d1 ev1] [r|e]]; [|reflexivity].
  unfold andthen at 1 3. destruct (load_or_build _ _ _ _ _ _ _ _ _ r d1) as [[d2 ev2] [m|e]]; [|reflexivity].
  rewrite (andthen_lift _ _ _ v); [reflexivity|]. rewrite Ht. cbn [bind]. exact H7.
Qed.

Lemma decide_restore answer p restore d : True_value restore -> decide answer p (truthy restore) d = (d, [], Ok (exists_at (p ++ ["configuration.yaml"]) d)).
Proof. intro H. apply truthy_true in H. unfold decide. erewrite andthen_look by reflexivity. rewrite H. reflexivity. Qed.

Lemma truthy_false v : ~ True_value v -> truthy v = false.
Proof. rewrite <- truthy_true. destruct (truthy v); congruence. Qed.

(** With 'restore_model' and a saved model in the directory, the model is loaded
    from the files below the directory, and nobody is asked. *)
Theorem C165_restored answer files d config loss ev settings p restore :
  Prepared files d config loss ev settings p restore -> True_value restore ->
  Present d (p ++ ["configuration.yaml"]) ->
  match load_manager settings [] (tree (splitext_path p) d) with
  | Err e => train_model answer files d = (d, [Loaded p], Err e)
  | Ok m => forall d' tr r, train m config loss ev d = (d', tr, r) -> train_model answer files d = (d', Loaded p :: tr, r)
  end.
Proof.
  intros HP HR HE. rewrite (train_model_eq _ _ _ _ _ _ _ _ _ HP).
  apply exists_present in HE. rewrite (andthen_pure _ _ _ true) by (rewrite decide_restore, HE by exact HR; reflexivity).
  unfold load_or_build. destruct (load_manager settings [] (tree (splitext_path p) d)) as [m|e] eqn:E.
  - intros d' tr r H. unfold andthen at 1. rewrite andthen_note. unfold look. rewrite E, H. reflexivity.
  - unfold andthen at 1. rewrite andthen_note. unfold look. rewrite E. reflexivity.
Qed.

(** Without a saved model in the directory a new one is built, whatever
    'restore_model' says; nobody is asked and nothing is deleted. *)
Theorem C165_scratch answer files d config loss ev settings p restore :
  Prepared files d config loss ev settings p restore ->
  ~ Present d (p ++ ["configuration.yaml"]) ->
  match new_manager config d with
  | Err e => train_model answer files d = (d, [], Err e)
  | Ok m => forall d' tr r, train m config loss ev d = (d', tr, r) -> train_model answer files d = (d', Configured :: tr, r)
  end.
Proof.
  intros HP HE. rewrite (train_model_eq _ _ _ _ _ _ _ _ _ HP). apply exists_false in HE.
  rewrite (andthen_pure _ _ _ false).
  2: { unfold decide. erewrite andthen_look by reflexivity. rewrite HE. destruct (truthy restore); reflexivity. }
  unfold load_or_build. destruct (new_manager config d) as [m|e] eqn:E.
  - intros d' tr r H. unfold andthen at 1. rewrite (andthen_look _ _ _ _ E), andthen_note. unfold ret. rewrite H. reflexivity.
  - unfold andthen at 1 2, look. rewrite E. reflexivity.
Qed.

(** Without 'restore_model' the user is asked about a saved model; if they decline,
    nothing happens. *)
Theorem C165_declined files d config loss ev settings p restore :
  Prepared files d config loss ev settings p restore -> ~ True_value restore ->
  Present d (p ++ ["configuration.yaml"]) ->
  train_model false files d = (d, [Asked p], Err ValueError).
Proof.
  intros HP HR HE. rewrite (train_model_eq _ _ _ _ _ _ _ _ _ HP). apply exists_present in HE. apply truthy_false in HR.
  apply andthen_err. unfold decide. erewrite andthen_look by reflexivity. rewrite HE, HR. reflexivity.
Qed.

(** If they agree, the whole directory is deleted before the new model is built. *)
Theorem C165_confirmed files d config loss ev settings p restore :
  Prepared files d config loss ev settings p restore -> ~ True_value restore ->
  Present d (p ++ ["configuration.yaml"]) -> Missing d p ->
  exists d0, (forall q, Under p q -> Missing d0 q) /\ (forall q, ~ Under p q -> Untouched d d0 q) /\
  match new_manager config d0 with
  | Err e => train_model true files d = (d0, [Asked p; Deleted p], Err e)
  | Ok m => forall d' tr r, train m config loss ev d0 = (d', tr, r) ->
              train_model true files d = (d', Asked p :: Deleted p :: Configured :: tr, r)
  end.
Proof.
  intros HP HR HE HM. exists (remove p d). split; [|split].
  - intros q Hq. apply file_missing. rewrite file_remove. apply below_under in Hq. rewrite Hq. reflexivity.
  - intros q Hq. apply untouched_iff. rewrite file_remove. apply below_not in Hq. rewrite Hq. reflexivity.
  - rewrite (train_model_eq _ _ _ _ _ _ _ _ _ HP). apply exists_present in HE. apply truthy_false in HR.
    assert (HD : decide true p (truthy restore) d = (remove p d, [Asked p; Deleted p], Ok false)).
    { unfold decide. erewrite andthen_look by reflexivity. rewrite HE, HR. unfold confirm, rmtree, andthen, note, ret, look, change, is_file.
      apply file_missing in HM. rewrite HM. reflexivity. }
    rewrite (andthen_ok _ _ _ _ _ _ HD). unfold load_or_build. destruct (new_manager config (remove p d)) as [m|e] eqn:E.
    + intros d' tr r H. unfold andthen at 1. rewrite (andthen_look _ _ _ _ E), andthen_note. unfold ret. rewrite H. reflexivity.
    + unfold andthen at 1 2, look. rewrite E. reflexivity.
Qed.

(** If the configuration cannot be read or the loss or evaluation module cannot be
    built, nothing has happened. *)
Theorem C165_unprepared answer files d d' tr r :
  (forall config loss ev, Configuration files d config -> make_loss config = Ok loss -> EvaluationOf make_evaluation config ev -> False) ->
  train_model answer files d = (d', tr, r) -> d' = d /\ tr = [] /\ exists e, r = Err e.
Proof.
  intros N H. unfold M_Scripts.train_model in H.
  destruct (get_config files d) as [config|e] eqn:E1.
  2: { unfold andthen at 1, look in H. rewrite E1 in H. inversion H; subst. eauto. }
  rewrite (andthen_look _ _ _ _ E1) in H. destruct (make_loss config) as [loss|e] eqn:E2.
  2: { inversion H; subst. eauto. }
  rewrite (andthen_lift _ _ _ loss) in H by reflexivity. destruct (evaluation config) as [ev|e] eqn:E3.
  2: { inversion H; subst. eauto. }
  exfalso. eapply N; [apply configuration_iff; exact E1|exact E2|apply evaluation_iff; exact E3].
Qed.

(** Without configuration files. *)
Theorem C165_no_files answer d : train_model answer [] d = (d, [], Err ValueError).
Proof. reflexivity. Qed.

(** ** Which files the training touches *)

Lemma keeps_weights (P : path -> Prop) p dirs : (forall q, P q -> ~ Under p q) -> Keeps P (save_weights_in steps_content weights_content p dirs).
Proof.
  intro N. assert (W : forall q c, Keeps P (change (write (p ++ q) c))).
  { intros q c. apply keeps_write. intro H. apply (N _ H). apply under_app. }
  induction dirs as [|w dirs IH]; cbn [save_weights_in]; [apply keeps_ret|].
  apply keeps_andthen; [apply keeps_look|]. intros []; [|apply keeps_lift].
  apply keeps_andthen; [apply W|]. intros _. apply keeps_andthen; [apply W|]. intros _. exact IH.
Qed.

Lemma keeps_repeated P n a : Keeps P a -> Keeps P (repeated n a).
Proof. intro H. induction n as [|n IH]; [apply keeps_ret|]. apply keeps_andthen; [exact H|]. intros _. exact IH. Qed.

Lemma keeps_train (P : path -> Prop) m config loss ev :
  (forall s q, g_dir m = VStr s -> P q -> ~ Under (parts s) q /\ ~ Under (splitext_path (parts s)) q) ->
  Keeps P (train m config loss ev).
Proof.
  intro N. unfold M_Scripts.train. unfold as_path. destruct (g_dir m) as [| | |s| | |] eqn:E.
  all: try (intros d1 d2 tr r H q _; unfold andthen, lift in H; inversion H; subst; reflexivity).
  intros d d' tr r H. rewrite (andthen_lift _ _ _ (parts s)) in H by reflexivity. revert d d' tr r H.
  assert (W : forall q c, Keeps P (change (write (parts s ++ q) c))).
  { intros q c. apply keeps_write. intro H. apply (proj1 (N _ _ eq_refl H)). apply under_app. }
  change (Keeps P (save_at true (parts s) (files_of m ++ training_files m config loss ev) ;;;
    (change (write (parts s ++ ["logs"; "training"; "events"]) log_content) ;;;
    (change (write (parts s ++ ["logs"; "validation"; "events"]) log_content) ;;;
    (change (write (parts s ++ ["logs"; "evaluation"; "events"]) log_content) ;;;
    (let '(n, e) := loop m config loss ev in
     repeated n (note (Weights (parts s)) ;;; save_weights_in steps_content weights_content (parts s) (weight_dirs m)) ;;;
     lift (match e with None => Ok tt | Some e => Err e end))))))).
  apply keeps_andthen; [apply keeps_save; intros q Hq; exact (proj2 (N _ _ eq_refl Hq))|]. intros _.
  apply keeps_andthen; [apply W|]. intros _. apply keeps_andthen; [apply W|]. intros _. apply keeps_andthen; [apply W|]. intros _.
  destruct (loop m config loss ev) as [n e]. apply keeps_andthen; [|intros _; apply keeps_lift].
  apply keeps_repeated. apply keeps_andthen; [apply keeps_note|]. intros _. apply keeps_weights.
  intros q Hq. exact (proj1 (N _ _ eq_refl Hq)).
Qed.

(** However the script ends, files outside 'manager_dir' and outside the directory
    recorded by the manager that is trained (with or without its extension) stay
    as they are. *)
Theorem C166_confined answer files d config loss ev settings p restore d' tr r q :
  Prepared files d config loss ev settings p restore ->
  train_model answer files d = (d', tr, r) ->
  ~ Under p q ->
  (forall m s, (exists d0, new_manager config d0 = Ok m \/ load_manager settings [] d0 = Ok m) -> g_dir m = VStr s ->
     ~ Under (parts s) q /\ forall p', Stripped (parts s) p' -> ~ Under p' q) ->
  Untouched d d' q.
Proof.
  intros HP H Hq N. rewrite (train_model_eq _ _ _ _ _ _ _ _ _ HP) in H. apply untouched_iff.
  assert (T : forall m d1 d2 ev2 r2, (exists d0, new_manager config d0 = Ok m \/ load_manager settings [] d0 = Ok m) ->
    train m config loss ev d1 = (d2, ev2, r2) -> file_at q d2 = file_at q d1).
  { intros m d1 d2 ev2 r2 Hm Ht. eapply (keeps_train (fun x => x = q)); [|exact Ht|reflexivity].
    intros s x Hs ->. destruct (N m s Hm Hs) as [N1 N2]. split; [exact N1|]. apply N2. apply splitext_stripped. }
  apply andthen_inv in H. destruct H as [(e & H & _)|(b & d1 & ev1 & ev2 & H1 & H2 & _)].
  - eapply (keeps_andthen (fun x => x = q)); [apply keeps_look| |exact H|reflexivity].
    intros there. destruct (truthy restore); [apply keeps_ret|]. destruct there; [|apply keeps_ret].
    apply keeps_andthen; [apply keeps_confirm|]. intros _. apply keeps_andthen; [|intros _; apply keeps_ret].
    apply keeps_rmtree. intros x ->. exact Hq.
  - assert (E1 : file_at q d1 = file_at q d).
    { eapply (keeps_andthen (fun x => x = q)); [apply keeps_look| |exact H1|reflexivity].
      intros there. destruct (truthy restore); [apply keeps_ret|]. destruct there; [|apply keeps_ret].
      apply keeps_andthen; [apply keeps_confirm|]. intros _. apply keeps_andthen; [|intros _; apply keeps_ret].
      apply keeps_rmtree. intros x ->. exact Hq. }
    rewrite <- E1. apply andthen_inv in H2. destruct H2 as [(e & H & _)|(m & d2 & ev3 & ev4 & H3 & H4 & _)].
    + unfold load_or_build in H. destruct b.
      * unfold andthen, note, look in H. inversion H; subst. reflexivity.
      * unfold andthen, note, look, ret in H. destruct (new_manager config d1); inversion H; subst; reflexivity.
    + unfold load_or_build in H3. destruct b.
      * unfold andthen, note, look in H3. destruct (load_manager settings [] (tree (splitext_path p) d1)) as [m'|e] eqn:E; inversion H3; subst.
        eapply T; [|exact H4]. eauto.
      * unfold andthen, note, look, ret in H3. destruct (new_manager config d1) as [m'|e] eqn:E; inversion H3; subst.
        eapply T; [|exact H4]. eauto.
Qed.

(** Restoring never deletes or changes anything outside the directory that the
    manager has recorded, not even in the directory it was loaded from. *)
Theorem C166_recorded answer files d config loss ev settings p restore m s d' tr r q :
  Prepared files d config loss ev settings p restore -> True_value restore ->
  Present d (p ++ ["configuration.yaml"]) ->
  load_manager settings [] (tree (splitext_path p) d) = Ok m -> g_dir m = VStr s ->
  train_model answer files d = (d', tr, r) ->
  ~ Under (parts s) q -> (forall p', Stripped (parts s) p' -> ~ Under p' q) ->
  Untouched d d' q.
Proof.
  intros HP HR HE Hm Hs H N1 N2. pose proof (C165_restored answer _ _ _ _ _ _ _ _ HP HR HE) as R. rewrite Hm in R.
  destruct (train m config loss ev d) as [[d2 ev2] r2] eqn:E. rewrite (R _ _ _ eq_refl) in H. inversion H; subst.
  apply untouched_iff. eapply (keeps_train (fun x => x = q)); [|exact E|reflexivity].
  intros s' x Hs' ->. rewrite Hs in Hs'. inversion Hs'; subst. split; [exact N1|]. apply N2. apply splitext_stripped.
Qed.

(** ** What is found after the training *)

Notation weights := (save_weights_in steps_content weights_content).

Lemma weights_others p dirs d d' tr r q : weights p dirs d = (d', tr, r) ->
  (forall n, Changing dirs n -> q <> p ++ n) -> file_at q d' = file_at q d.
Proof.
  revert d d' tr r. induction dirs as [|w dirs IH]; intros d d' tr r H N; cbn [save_weights_in] in H.
  - inversion H; subst. reflexivity.
  - erewrite andthen_look in H by reflexivity.
    destruct (exists_at (p ++ w ++ ["training"; "training_steps.yaml"]) d); [|inversion H; subst; reflexivity].
    rewrite !andthen_change in H. rewrite (IH _ _ _ _ H).
    + rewrite !file_write, !path_eqb_neq; [reflexivity| |].
      * apply N. right. exists w. split; [left; reflexivity|left; reflexivity].
      * apply N. right. exists w. split; [left; reflexivity|right; reflexivity].
    + intros n [Hn|(x & Hx & Hn)]; apply N; [left; exact Hn|right]. exists x. split; [right; exact Hx|exact Hn].
Qed.

Lemma weights_present p dirs d d' tr r q : weights p dirs d = (d', tr, r) -> Present d q -> Present d' q.
Proof.
  revert d d' tr r. induction dirs as [|w dirs IH]; intros d d' tr r H N; cbn [save_weights_in] in H.
  - inversion H; subst. exact N.
  - erewrite andthen_look in H by reflexivity.
    destruct (exists_at (p ++ w ++ ["training"; "training_steps.yaml"]) d); [|inversion H; subst; exact N].
    rewrite !andthen_change in H. eapply IH; [exact H|]. apply write_present, write_present. exact N.
Qed.

Lemma weights_ok p dirs d : (forall w, In w dirs -> Present d (p ++ w ++ ["training"; "training_steps.yaml"])) ->
  exists d', weights p dirs d = (d', [], Ok tt).
Proof.
  revert d. induction dirs as [|w dirs IH]; intros d N; cbn [save_weights_in]; [eexists; reflexivity|].
  erewrite andthen_look by reflexivity. pose proof (N w (or_introl eq_refl)) as E. apply exists_present in E. rewrite E.
  rewrite !andthen_change. apply IH. intros x Hx. apply write_present, write_present. apply N. right. exact Hx.
Qed.

Lemma repeated_others n p dirs d d' tr r q : repeated n (note (Weights p) ;;; weights p dirs) d = (d', tr, r) ->
  (forall n, Changing dirs n -> q <> p ++ n) -> file_at q d' = file_at q d.
Proof.
  intros H N. revert d d' tr r H. induction n as [|n IH]; intros d d' tr r H; cbn [repeated] in H.
  - inversion H; subst. reflexivity.
  - apply andthen_inv in H. destruct H as [(e & H & _)|(x & d1 & ev1 & ev2 & H1 & H2 & _)].
    + rewrite andthen_note in H. destruct (weights p dirs d) as [[d2 ev2] r2] eqn:E. inversion H; subst. eapply weights_others; eassumption.
    + rewrite andthen_note in H1. destruct (weights p dirs d) as [[d2 ev3] r2] eqn:E. inversion H1; subst.
      rewrite (IH _ _ _ _ H2). eapply weights_others; eassumption.
Qed.

Lemma repeated_ok n p dirs d : (forall w, In w dirs -> Present d (p ++ w ++ ["training"; "training_steps.yaml"])) ->
  exists d', repeated n (note (Weights p) ;;; weights p dirs) d = (d', repeat (Weights p) n, Ok tt).
Proof.
  revert d. induction n as [|n IH]; intros d N; cbn [repeated repeat]; [eexists; reflexivity|].
  destruct (weights_ok p dirs d N) as [d1 H1].
  assert (E : (note (Weights p) ;;; weights p dirs) d = (d1, [Weights p], Ok tt)) by (rewrite andthen_note, H1; reflexivity).
  rewrite (andthen_ok _ _ _ _ _ _ E). destruct (IH d1) as [d2 H2].
  { intros w Hw. eapply weights_present; [exact H1|]. apply N. exact Hw. }
  rewrite H2. eexists. reflexivity.
Qed.

Definition logs (p : path) (d : disk) : disk :=
  write (p ++ ["logs"; "evaluation"; "events"]) log_content (write (p ++ ["logs"; "validation"; "events"]) log_content
    (write (p ++ ["logs"; "training"; "events"]) log_content d)).

(** The steps of the training after the first saving *)
Lemma train_eq m config loss ev s d : g_dir m = VStr s -> exists d1,
  save_all true (splitext_path (parts s)) (files_of m ++ training_files m config loss ev) d = (d1, [], Ok tt) /\
  train m config loss ev d =
  let '(n, e) := loop m config loss ev in
  let '(d2, tr, r) := repeated n (note (Weights (parts s)) ;;; weights (parts s) (weight_dirs m)) (logs (parts s) d1) in
  (d2, Saved (parts s) :: tr, match r with Err x => Err x | Ok _ => match e with None => Ok tt | Some e => Err e end end).
Proof.
  intro Hs. destruct (save_all_overwrite (splitext_path (parts s)) (files_of m ++ training_files m config loss ev) d) as [d1 H1].
  exists d1. split; [exact H1|]. unfold M_Scripts.train, as_path. rewrite Hs. rewrite (andthen_lift _ _ _ (parts s)) by reflexivity.
  assert (E : save_at true (parts s) (files_of m ++ training_files m config loss ev) d = (d1, [Saved (parts s)], Ok tt)).
  { unfold save_at. rewrite andthen_note, H1. reflexivity. }
  rewrite (andthen_ok _ _ _ _ _ _ E), !andthen_change. fold (logs (parts s) d1).
  destruct (loop m config loss ev) as [n e]. unfold andthen at 1.
  destruct (repeated n (note (Weights (parts s)) ;;; weights (parts s) (weight_dirs m)) (logs (parts s) d1)) as [[d2 tr] [x|x]].
  - unfold lift. rewrite app_nil_r. reflexivity.
  - reflexivity.
Qed.

(** However the training ends: the files of the manager are in the directory
    without its extension, those that change during the training set aside. *)
Theorem C167_saved m config loss ev s p d d' tr r q c :
  g_dir m = VStr s -> Stripped (parts s) p ->
  Once (files_of m ++ training_files m config loss ev) ->
  train m config loss ev d = (d', tr, r) ->
  Output (files_of m ++ training_files m config loss ev) q c -> ~ Changing (weight_dirs m) q ->
  Content d' (p ++ q) c.
Proof.
  intros Hs HP HO H Hq NC. apply stripped_fun in HP. subst p. apply file_content.
  destruct (train_eq m config loss ev s d Hs) as (d1 & H1 & E). rewrite E in H. clear E.
  destruct (loop m config loss ev) as [n e].
  destruct (repeated n _ (logs (parts s) d1)) as [[d2 tr2] r2] eqn:ER. inversion H; subst. clear H.
  assert (N : forall x, Changing (weight_dirs m) x -> splitext_path (parts s) ++ q <> parts s ++ x).
  { intros x Hx E. destruct (list_eq_dec string_dec (splitext_path (parts s)) (parts s)) as [E1|E1].
    - rewrite E1 in E. apply app_inv_head in E. subst. contradiction.
    - apply E1. eapply under_same_length; [apply splitext_length|apply under_app|]. rewrite E. apply under_app. }
  rewrite (repeated_others _ _ _ _ _ _ _ _ ER N). unfold logs. rewrite !file_write, !path_eqb_neq.
  - eapply save_all_done; eassumption.
  - apply N. left. exists "training"%string. reflexivity.
  - apply N. left. exists "validation"%string. reflexivity.
  - apply N. left. exists "evaluation"%string. reflexivity.
Qed.

(** In a directory without extension the weights can always be saved: the script
    ends as the training loop does. *)
Theorem C167_continues m config loss ev s d d' tr r :
  g_dir m = VStr s -> ~ HasExtension (parts s) ->
  (forall w, In w (weight_dirs m) -> exists c, Output (files_of m ++ training_files m config loss ev) (w ++ ["training"; "training_steps.yaml"]) c) ->
  train m config loss ev d = (d', tr, r) ->
  tr = Saved (parts s) :: repeat (Weights (parts s)) (fst (loop m config loss ev)) /\
  match snd (loop m config loss ev) with None => r = Ok tt | Some e => r = Err e end.
Proof.
  intros Hs HX HW H. destruct (train_eq m config loss ev s d Hs) as (d1 & H1 & E). rewrite E in H. clear E.
  assert (E : splitext_path (parts s) = parts s) by (symmetry; apply stripped_fun; apply Stripped_same; exact HX).
  rewrite E in H1. destruct (loop m config loss ev) as [n e]. cbn [fst snd].
  destruct (repeated_ok n (parts s) (weight_dirs m) (logs (parts s) d1)) as [d2 H2].
  { intros w Hw. destruct (HW w Hw) as [c Hc]. unfold logs. apply write_present, write_present, write_present.
    eapply save_all_there; [exact H1|exact Hc]. }
  rewrite H2 in H. inversion H; subst. split; [reflexivity|]. destruct e; reflexivity.
Qed.

(** In a directory with an extension the first saving of weights fails, unless
    something else has put the training record there; the time since the start of
    the training is lost. *)
Theorem C167_extension m config loss ev s d d' tr r w ws :
  g_dir m = VStr s -> HasExtension (parts s) -> weight_dirs m = w :: ws ->
  ~ Present d (parts s ++ w ++ ["training"; "training_steps.yaml"]) ->
  (forall k, w ++ ["training"; "training_steps.yaml"] <> ["logs"; k; "events"]) ->
  fst (loop m config loss ev) <> 0 ->
  train m config loss ev d = (d', tr, r) ->
  r = Err IOError /\ tr = [Saved (parts s); Weights (parts s)].
Proof.
  intros Hs HX HW HN HL H0 H. destruct (train_eq m config loss ev s d Hs) as (d1 & H1 & E). rewrite E in H. clear E.
  destruct (loop m config loss ev) as [n e]. cbn [fst] in H0. destruct n as [|n]; [congruence|].
  assert (N : exists_at (parts s ++ w ++ ["training"; "training_steps.yaml"]) (logs (parts s) d1) = false).
  { apply exists_false. intro F. unfold logs in F.
    assert (U : forall k x y, parts s ++ w ++ ["training"%string; "training_steps.yaml"%string] <> parts s ++ ["logs"%string; k; "events"%string] ->
      Present (write (parts s ++ ["logs"%string; k; "events"%string]) x y) (parts s ++ w ++ ["training"%string; "training_steps.yaml"%string]) ->
      Present y (parts s ++ w ++ ["training"%string; "training_steps.yaml"%string])).
    { intros k x y NE HP. apply write_present_inv in HP. destruct HP as [HP|[t Ht]]; [exact HP|exfalso].
      rewrite <- !app_assoc in Ht. apply app_inv_head in Ht. destruct w as [|w1 [|w2 [|w3 w]]]; cbn in Ht.
      - inversion Ht.
      - inversion Ht; subst. 
      - inversion Ht; subst.
      - inversion Ht; subst. destruct w; discriminate. }
    apply U in F; [|intro X; apply app_inv_head in X; exact (HL _ X)].
    apply U in F; [|intro X; apply app_inv_head in X; exact (HL _ X)].
    apply U in F; [|intro X; apply app_inv_head in X; exact (HL _ X)].
    apply HN. destruct F as (x & y & F1 & F2). exists x, y. split; [exact F1|]. apply file_content in F2. apply file_content.
    rewrite <- F2. symmetry. eapply save_all_others; [exact H1|]. intros z t _ ->.
    eapply (extension_disjoint (parts s)); [exact HX|apply under_app|]. eapply under_trans; [|exact F1]. apply under_app. }
  cbn [repeated] in H. rewrite HW in H. unfold andthen at 1 in H. rewrite andthen_note in H. cbn [save_weights_in] in H.
  erewrite andthen_look in H by reflexivity. rewrite N in H. inversion H; subst. split; reflexivity.
Qed.

(** ** Loading the managers named by config files *)

Notation load_each := (load_each Model Handler Trafo Module parts parse load_manager).
Notation load_one := (load_one Model Handler Trafo Module parts parse load_manager).
Notation build_joint := (build_joint Model Handler Trafo combine).
Notation g_models := (g_models Model Handler Trafo).
Notation g_handler := (g_handler Model Handler Trafo).
Notation g_trafo := (g_trafo Model Handler Trafo).

(** The manager of a config file, loaded with replaced modules from the directory
    the file names *)
Definition LoadedFrom (mods : list (string * Module)) (d : disk) (f : path) (m : manager) : Prop :=
  exists config settings s p, Configuration [f] d config /\
    Setting config ["model_manager_settings"] settings /\ Setting settings ["config"; "manager_dir"] (VStr s) /\
    Stripped (parts s) p /\ load_manager settings mods (tree p d) = Ok m.

Lemma load_one_spec mods f d d' tr m : load_one mods f d = (d', tr, Ok m) -> d' = d /\ LoadedFrom mods d f m /\ exists p, tr = [Loaded p].
Proof.
  unfold M_Scripts.load_one. destruct (get_config [f] d) as [config|e] eqn:E1.
  2: { unfold andthen at 1, look. rewrite E1. discriminate. }
  rewrite (andthen_look _ _ _ _ E1).
  destruct (vget config "model_manager_settings") as [s|e] eqn:E2; cbn [bind]; [|discriminate].
  destruct (vget s "config") as [c|e] eqn:E3; cbn [bind]; [|discriminate].
  destruct (vget c "manager_dir") as [dir|e] eqn:E4; cbn [bind]; [|discriminate].
  destruct dir as [| | |x| | |]; cbn [as_path bind]; try discriminate.
  rewrite (andthen_lift _ _ _ (s, parts x)) by reflexivity. cbn [fst snd]. rewrite andthen_note. unfold look.
  intro H. inversion H; subst. split; [reflexivity|]. split; [|eauto].
  exists config, s, x, (splitext_path (parts x)). split; [apply configuration_iff; exact E1|]. split; [apply setting_vget; exact E2|].
  split; [apply setting_cons; [discriminate|]; exists c; split; [exact E3|apply setting_vget; exact E4]|].
  split; [apply splitext_stripped|reflexivity || assumption].
Qed.

Lemma load_one_pure mods f : Pure (load_one mods f).
Proof.
  unfold M_Scripts.load_one. apply pure_andthen; [apply pure_look|]. intro c. apply pure_andthen; [apply pure_lift|]. intro sp.
  apply pure_andthen; [apply pure_note|]. intros _. apply pure_look.
Qed.

Lemma load_each_pure mods files models last : Pure (load_each mods files models last).
Proof.
  revert models last. induction files as [|f files IH]; intros models last; [apply pure_ret|].
  apply pure_andthen; [apply load_one_pure|]. intro m. apply IH.
Qed.

Lemma load_each_spec mods files models last d d' tr ms l : load_each mods files models last d = (d', tr, Ok (ms, l)) ->
  exists gs, Forall2 (LoadedFrom mods d) files gs /\ ms = models ++ flat_map g_models gs /\
    l = fold_left (fun _ g => Some (g_handler g, g_trafo g)) gs last.
Proof.
  revert models last d d' tr ms l. induction files as [|f files IH]; intros models last d d' tr ms l H; cbn [M_Scripts.load_each] in H.
  - inversion H; subst. exists []. split; [constructor|]. split; [rewrite app_nil_r; reflexivity|reflexivity].
  - apply andthen_inv in H. destruct H as [(e & _ & H)|(m & d1 & ev1 & ev2 & H1 & H2 & _)]; [discriminate|].
    apply load_one_spec in H1. destruct H1 as (-> & H1 & _). apply IH in H2. destruct H2 as (gs & G1 & G2 & G3).
    exists (m :: gs). split; [constructor; assumption|]. split; [rewrite G2; cbn [flat_map]; rewrite app_assoc; reflexivity|exact G3].
Qed.

Lemma load_each_events mods files models last : Only (fun e => exists p, e = Loaded p) (load_each mods files models last).
Proof.
  revert models last. induction files as [|f files IH]; intros models last; cbn [M_Scripts.load_each]; [apply only_ret|].
  apply only_andthen; [|intro m; apply IH]. apply only_andthen; [apply only_look|]. intro c.
  apply only_andthen; [apply only_lift|]. intro sp. apply only_andthen; [apply only_note; eauto|]. intros _. apply only_look.
Qed.

Lemma build_joint_pure config ml : Pure (build_joint config ml).
Proof.
  unfold M_Scripts.build_joint. destruct (snd ml) as [[h t]|]; [|apply pure_lift]. apply pure_andthen; [apply pure_lift|]. intro s.
  apply pure_andthen; [apply pure_lift|]. intro m. apply pure_andthen; [apply pure_note|]. intros _. apply pure_ret.
Qed.

Lemma fold_left_last {A B} (f : A -> B) (gs : list A) init : gs <> [] ->
  exists up g, gs = up ++ [g] /\ fold_left (fun _ x => Some (f x)) gs init = Some (f g).
Proof.
  intro H. destruct gs as [|x gs] using rev_ind; [congruence|]. exists gs, x. split; [reflexivity|].
  rewrite fold_left_app. reflexivity.
Qed.

(** The joint manager of the config files *)
Definition Joint (mods : list (string * Module)) (d : disk) (files : list path) (config : value) (m : manager) : Prop :=
  exists settings before g, Setting config ["model_manager_settings"] settings /\
    Forall2 (LoadedFrom mods d) files (before ++ [g]) /\
    combine settings (flat_map g_models (before ++ [g])) (g_handler g) (g_trafo g) = Ok m.

Lemma joint_spec mods files d config d1 d2 tr1 tr2 ml m :
  load_each mods files [] None d = (d1, tr1, Ok ml) -> build_joint config ml d1 = (d2, tr2, Ok m) ->
  Joint mods d files config m /\ d2 = d /\ tr2 = [Configured].
Proof.
  intros H1 H2. pose proof (load_each_pure _ _ _ _ _ _ _ _ H1) as ->. destruct ml as [ms l].
  apply load_each_spec in H1. destruct H1 as (gs & G1 & G2 & G3). unfold M_Scripts.build_joint in H2. cbn [fst snd] in H2.
  destruct l as [[h t]|]; [|discriminate].
  destruct (vget config "model_manager_settings") as [s|e] eqn:E; [|discriminate].
  rewrite (andthen_lift _ _ _ s) in H2 by reflexivity. destruct (combine s ms h t) as [m'|e] eqn:E2; [|discriminate].
  rewrite (andthen_lift _ _ _ m') in H2 by reflexivity. rewrite andthen_note in H2. inversion H2; subst. split; [|split; reflexivity].
  destruct gs as [|g0 gs0]; [discriminate|].
  destruct (fold_left_last (fun g => (g_handler g, g_trafo g)) (g0 :: gs0) None) as (up & g & Hg & Hf); [discriminate|].
  rewrite Hf in G3. inversion G3; subst. rewrite Hg in *. exists s, up, g. split; [apply setting_vget; exact E|]. split; [exact G1|].
  cbn [app] in E2. exact E2.
Qed.

(** ** export_manager *)

Notation export := (export_manager Model Handler Trafo Loss Module parts parse make_loss load_manager combine files_of).

(** Files after the deletion of [out] *)
Definition Without (out : path) (d d0 : disk) : Prop :=
  (forall q, Under out q -> Missing d0 q) /\ (forall q, ~ Under out q -> Untouched d d0 q).

Lemma without_remove out d : Without out d (remove out d).
Proof.
  split; intros q Hq.
  - apply file_missing. rewrite file_remove. apply below_under in Hq. rewrite Hq. reflexivity.
  - apply untouched_iff. rewrite file_remove. apply below_not in Hq. rewrite Hq. reflexivity.
Qed.

Lemma without_absent out d : ~ Present d out -> Without out d d.
Proof.
  intro N. split; intros q Hq; [|apply untouched_iff; reflexivity]. intros c Hc. apply N. exists q, c. split; assumption.
Qed.

(** What follows the deletion *)
Definition export_rest (files : list path) (out : path) (reco : option path) : act unit :=
  rf <~ lift (reco_file files reco) ;;
  (config <~ look (get_config [rf]) ;;
  (_ <~ lift (make_loss config) ;;
  (ml <~ load_each [] files [] None ;;
  (m <~ build_joint config ml ;;
  (save_at false out (files_of m) ;;; copy_into rf out "reco_config.yaml"))))).

Lemma export_cases answer files out reco d : 
  (Present d out /\ answer = false /\ export answer files (Some out) reco d = (d, [Asked out], Err ValueError)) \/
  (Present d out /\ answer = true /\ is_file out d = true /\ export answer files (Some out) reco d = (d, [Asked out], Err IOError)) \/
  (Present d out /\ answer = true /\ is_file out d = false /\ export answer files (Some out) reco d =
     let '(d', tr, r) := export_rest files out reco (remove out d) in (d', Asked out :: Deleted out :: tr, r)) \/
  (~ Present d out /\ export answer files (Some out) reco d = export_rest files out reco d).
Proof.
  unfold export_manager. erewrite andthen_look by reflexivity. destruct (exists_at out d) eqn:E.
  - apply exists_present in E. destruct answer.
    + destruct (is_file out d) eqn:EF; [right; left|right; right; left]; split; auto; split; auto; split; auto.
      * unfold confirm, rmtree, andthen, note, ret, look. rewrite EF. reflexivity.
      * unfold andthen at 1. assert (H : (confirm true out ;;; rmtree out) d = (remove out d, [Asked out; Deleted out], Ok tt)).
        { unfold confirm, rmtree, andthen, note, ret, look, change. rewrite EF. reflexivity. }
        rewrite H. fold (export_rest files out reco). destruct (export_rest files out reco (remove out d)) as [[d' tr] r]. reflexivity.
    + left. split; [exact E|]. split; reflexivity.
  - right. right. right. apply exists_false in E. split; [exact E|]. unfold ret. erewrite andthen_pure by reflexivity. reflexivity.
Qed.

(** The user is asked exactly if something exists at the output directory; if they
    decline, nothing happens. *)
Theorem C168_declined files out reco d : Present d out ->
  export false files (Some out) reco d = (d, [Asked out], Err ValueError).
Proof.
  intro HP. destruct (export_cases false files out reco d) as [(_ & _ & H)|[(_ & H & _)|[(_ & H & _)|(N & _)]]]; try discriminate; [exact H|contradiction].
Qed.

Lemma export_rest_quiet files out reco : Only (fun e => forall q, e <> Asked q /\ e <> Deleted q) (export_rest files out reco).
Proof.
  unfold export_rest. apply only_andthen; [apply only_lift|]. intro rf. apply only_andthen; [apply only_look|]. intro c.
  apply only_andthen; [apply only_lift|]. intros _. apply only_andthen.
  { intros d d' ev r H. eapply Forall_impl; [|exact (load_each_events _ _ _ _ _ _ _ _ H)]. intros e [p ->] q. split; discriminate. }
  intro ml. apply only_andthen.
  { unfold M_Scripts.build_joint. destruct (snd ml) as [[h t]|]; [|apply only_lift]. apply only_andthen; [apply only_lift|]. intro s.
    apply only_andthen; [apply only_lift|]. intro m. apply only_andthen; [apply only_note; intro q; split; discriminate|]. intros _. apply only_ret. }
  intro m. apply only_andthen.
  { unfold save_at. apply only_andthen; [apply only_note; intro q; split; discriminate|]. intros _. apply only_save_all. }
  intros _. unfold copy_into. apply only_andthen; [apply only_look|]. intro x. apply only_andthen; [apply only_look|].
  intros []; [apply only_change|apply only_lift].
Qed.

Theorem C168_asks answer files out reco d d' tr r q : export answer files (Some out) reco d = (d', tr, r) ->
  (In (Asked q) tr <-> q = out /\ Present d out) /\
  (In (Deleted q) tr <-> q = out /\ Present d out /\ answer = true /\ Missing d out).
Proof.
  intro H. assert (Q : forall tr0 d0 d1 r0, export_rest files out reco d0 = (d1, tr0, r0) -> forall x, In x tr0 -> x <> Asked q /\ x <> Deleted q).
  { intros tr0 d0 d1 r0 HR x Hx. pose proof (export_rest_quiet _ _ _ _ _ _ _ HR) as F. rewrite Forall_forall in F. apply (F x Hx q). }
  destruct (export_cases answer files out reco d) as [(P & A & E)|[(P & A & F & E)|[(P & A & F & E)|(P & E)]]]; rewrite E in H; clear E.
  - inversion H; subst. cbn [In]. split; split.
    + intros [X|[]]. inversion X; subst. auto.
    + intros [-> _]. left. reflexivity.
    + intros [X|[]]. discriminate.
    + intros (_ & _ & X & _). discriminate.
  - inversion H; subst. cbn [In]. split; split.
    + intros [X|[]]. inversion X; subst. auto.
    + intros [-> _]. left. reflexivity.
    + intros [X|[]]. discriminate.
    + intros (_ & _ & _ & M). exfalso. unfold is_file in F. apply file_missing in M. rewrite M in F. discriminate.
  - destruct (export_rest files out reco (remove out d)) as [[d1 tr1] r1] eqn:ER. inversion H; subst. cbn [In]. split; split.
    + intros [X|[X|X]]; [inversion X; subst; auto|discriminate|]. exfalso. eapply (proj1 (Q _ _ _ _ ER _ X)). reflexivity.
    + intros [-> _]. left. reflexivity.
    + intros [X|[X|X]]; [discriminate|inversion X; subst|exfalso; eapply (proj2 (Q _ _ _ _ ER _ X)); reflexivity].
      split; [reflexivity|]. split; [exact P|]. split; [reflexivity|]. apply file_missing. unfold is_file in F. destruct (file_at q d); [discriminate|reflexivity].
    + intros [-> _]. right. left. reflexivity.
  - split; split.
    + intro X. exfalso. eapply (proj1 (Q _ _ _ _ H _ X)). reflexivity.
    + intros [_ X]. contradiction.
    + intro X. exfalso. eapply (proj2 (Q _ _ _ _ H _ X)). reflexivity.
    + intros (_ & X & _). contradiction.
Qed.

Lemma copy_into_spec src p name d d' tr r : copy_into src p name d = (d', tr, r) ->
  (d' = d /\ exists e, r = Err e) \/
  (exists c, file_at src d = Some c /\ is_dir p d = true /\ d' = write (p ++ [name]) c d /\ r = Ok tt).
Proof.
  unfold copy_into, andthen, look. destruct (file_at src d) as [c|] eqn:E.
  - destruct (is_dir p d) eqn:E2; unfold change, lift; intro H; inversion H; subst; [right|left; eauto]. exists c. auto.
  - intro H. inversion H; subst. left. eauto.
Qed.

(** How the rest of the export ends *)
Lemma export_rest_inv files out reco d d' tr r : export_rest files out reco d = (d', tr, r) ->
  (d' = d /\ exists e, r = Err e) \/
  exists rf config m, reco_file files reco = Ok rf /\ get_config [rf] d = Ok config /\ Joint [] d files config m /\
    exists d1 r1, save_all false (splitext_path out) (files_of m) d = (d1, [], r1) /\
      ((d' = d1 /\ exists e, r = Err e) \/
       (r1 = Ok tt /\ r = Ok tt /\ exists c, file_at rf d1 = Some c /\ is_dir out d1 = true /\ d' = write (out ++ ["reco_config.yaml"]) c d1)).
Proof.
  intro H. unfold export_rest in H.
  destruct (reco_file files reco) as [rf|e] eqn:E1.
  2: { inversion H; subst. left. eauto. }
  rewrite (andthen_lift _ _ _ rf) in H by reflexivity. destruct (get_config [rf] d) as [config|e] eqn:E2.
  2: { unfold andthen at 1, look in H. rewrite E2 in H. inversion H; subst. left. eauto. }
  rewrite (andthen_look _ _ _ _ E2) in H. destruct (make_loss config) as [loss|e] eqn:E3.
  2: { inversion H; subst. left. eauto. }
  rewrite (andthen_lift _ _ _ loss) in H by reflexivity.
  apply andthen_inv in H. destruct H as [(e & H & ->)|(ml & d1 & ev1 & ev2 & H1 & H2 & _)].
  { left. split; [exact (load_each_pure _ _ _ _ _ _ _ _ H)|eauto]. }
  pose proof (load_each_pure _ _ _ _ _ _ _ _ H1) as ->.
  apply andthen_inv in H2. destruct H2 as [(e & H & ->)|(m & d2 & ev3 & ev4 & H3 & H4 & _)].
  { left. split; [exact (build_joint_pure _ _ _ _ _ _ H)|eauto]. }
  destruct (joint_spec _ _ _ _ _ _ _ _ _ _ H1 H3) as (HJ & -> & _).
  right. exists rf, config, m. split; [reflexivity|]. split; [exact E2|]. split; [exact HJ|].
  destruct (save_all false (splitext_path out) (files_of m) d) as [[d1 ev5] r1] eqn:ES.
  pose proof (save_all_events _ _ _ _ _ _ _ ES) as ->. exists d1, r1. split; [reflexivity|].
  unfold andthen at 1, save_at in H4. rewrite andthen_note, ES in H4. destruct r1 as [[]|e].
  - destruct (copy_into rf out "reco_config.yaml" d1) as [[d3 ev6] r3] eqn:EC. inversion H4; subst.
    apply copy_into_spec in EC. destruct EC as [[-> X]|(c & C1 & C2 & -> & ->)]; [left; auto|right]. eauto 8.
  - inversion H4; subst. left. eauto.
Qed.

(** What a successful export consists of: the models of all config files in this
    order, data handler and transformer of the last one, all files of the joint
    manager and a copy of the configuration; nothing else below the output
    directory, nothing changed elsewhere. *)
Theorem C168_exported answer files out reco d d' tr : export answer files (Some out) reco d = (d', tr, Ok tt) ->
  ~ HasExtension out /\
  exists d0 rf config m c, Without out d d0 /\ ConfigFile files reco rf /\ Configuration [rf] d0 config /\
    Joint [] d0 files config m /\ Content d0 rf c /\ ~ Under out rf /\
    Content d' (out ++ ["reco_config.yaml"]) c /\
    (Once (files_of m) -> forall q x, Output (files_of m) q x -> q <> ["reco_config.yaml"] -> Content d' (out ++ q) x) /\
    (forall q, ~ Under out q -> Untouched d d' q) /\
    (forall q x, Content d' (out ++ q) x -> q = ["reco_config.yaml"] \/ exists y, Output (files_of m) q y).
Proof.
  intro H.
  assert (R : exists d0 tr0, Without out d d0 /\ export_rest files out reco d0 = (d', tr0, Ok tt)).
  { destruct (export_cases answer files out reco d) as [(P & A & E)|[(P & A & F & E)|[(P & A & F & E)|(P & E)]]]; rewrite E in H; clear E; try discriminate.
    - destruct (export_rest files out reco (remove out d)) as [[d1 tr1] r1] eqn:ER. inversion H; subst.
      exists (remove out d), tr1. split; [apply without_remove|exact ER].
    - exists d, tr. split; [apply without_absent; exact P|exact H]. }
  clear H. destruct R as (d0 & tr0 & W & H). apply export_rest_inv in H.
  destruct H as [(_ & e & X)|(rf & config & m & H1 & H2 & H3 & d1 & r1 & H4 & [(_ & e & X)|(-> & _ & c & H5 & H6 & ->)])]; [discriminate|discriminate|].
  assert (NP : ~ Present d0 out).
  { intros (q & x & Q1 & Q2). exact (proj1 W q Q1 x Q2). }
  assert (NX : ~ HasExtension out).
  { intro HX. apply is_dir_present in H6. apply NP. destruct H6 as (q & x & Q1 & Q2). exists q, x. split; [exact Q1|].
    apply file_content in Q2. apply file_content. rewrite <- Q2. symmetry. eapply save_all_others; [exact H4|].
    intros n y _ ->. eapply extension_disjoint; [exact HX|apply under_app|exact Q1]. }
  assert (ES : splitext_path out = out) by (symmetry; apply stripped_fun; apply Stripped_same; exact NX).
  rewrite ES in H4.
  assert (HR : exists c0, file_at rf d0 = Some c0).
  { unfold M_Scripts.get_config in H2. cbn [read_files] in H2. destruct (file_at rf d0); [eauto|discriminate]. }
  destruct HR as [c0 HR].
  assert (NU : ~ Under out rf).
  { intro U. apply file_content in HR. exact (proj1 W rf U c0 HR). }
  assert (HO : forall q, ~ Under out q -> file_at q d1 = file_at q d0).
  { intros q Hq. eapply save_all_others; [exact H4|]. intros n y _ ->. apply Hq. apply under_app. }
  assert (c0 = c) by (rewrite (HO rf NU), HR in H5; congruence). subst c0.
  split; [exact NX|]. exists d0, rf, config, m, c.
  split; [exact W|]. split; [apply configfile_iff; exact H1|]. split; [apply configuration_iff; exact H2|]. split; [exact H3|]. split; [apply file_content; exact HR|]. split; [exact NU|].
  split; [apply file_content; rewrite file_write, path_eqb_refl; reflexivity|]. split; [|split].
  - intros HOn q x Hq Nq. apply file_content. rewrite file_write, path_eqb_neq by (intro X; apply app_inv_head in X; contradiction).
    eapply save_all_done; eassumption.
  - intros q Hq. apply untouched_iff. rewrite file_write, path_eqb_neq by (intros ->; apply Hq; apply under_app).
    rewrite (HO q Hq). apply untouched_iff. apply (proj2 W). exact Hq.
  - intros q x Hx. apply file_content in Hx. rewrite file_write in Hx. destruct (path_eqb (out ++ q) (out ++ ["reco_config.yaml"%string])) eqn:EQ.
    + left. apply path_eqb_eq, app_inv_head in EQ. exact EQ.
    + right. destruct (file_at (out ++ q) d0) as [z|] eqn:EZ.
      * exfalso. apply file_content in EZ. exact (proj1 W _ (under_app out q) _ EZ).
      * assert (D : (exists y, Output (files_of m) q y) \/ ~ exists y, Output (files_of m) q y).
        { clear. induction (files_of m) as [|w l IH]; [right; intros [y Hy]; inversion Hy|].
          destruct IH as [[y IH]|IH]; [left; exists y; apply Output_later; exact IH|].
          destruct w as [n conf data|n c].
          - destruct (list_eq_dec string_dec q (n ++ ["configuration.yaml"])) as [->|N1]; [left; eexists; apply Output_conf|].
            destruct (list_eq_dec string_dec q (n ++ ["data.pickle"])) as [->|N2]; [left; eexists; apply Output_data|].
            right. intros [y Hy]. inversion Hy; subst; try contradiction. apply IH. eauto.
          - destruct (list_eq_dec string_dec q n) as [->|N1]; [left; eexists; apply Output_more|].
            right. intros [y Hy]. inversion Hy; subst; try contradiction. apply IH. eauto. }
        destruct D as [D|D]; [exact D|exfalso].
        rewrite (save_all_others _ _ _ _ _ _ _ (out ++ q) H4) in Hx; [congruence|].
        intros n y Hy X. apply app_inv_head in X. subst. apply D. eauto.
Qed.

(** With an extension in the name of the output directory the export always ends
    with an exception. *)
Theorem C168_extension answer files out reco d d' tr r : HasExtension out ->
  export answer files (Some out) reco d = (d', tr, r) -> exists e, r = Err e.
Proof.
  intros HX H. destruct r as [[]|e]; [|eauto]. exfalso. apply C168_exported in H. exact (proj1 H HX).
Qed.

(** A confirmed deletion comes first: whatever goes wrong before the saving, the
    content of the output directory is lost. *)
Theorem C168_lost files out reco d d' tr e : Present d out -> Missing d out ->
  export true files (Some out) reco d = (d', tr, Err e) -> ~ In (Saved out) tr ->
  Without out d d'.
Proof.
  intros P M H NS.
  destruct (export_cases true files out reco d) as [(_ & A & E)|[(_ & _ & F & _)|[(_ & _ & F & E)|(N & _)]]]; [discriminate| | |contradiction].
  { exfalso. unfold is_file in F. apply file_missing in M. rewrite M in F. discriminate. }
  rewrite E in H. clear E. destruct (export_rest files out reco (remove out d)) as [[d1 tr1] r1] eqn:ER. inversion H; subst.
  assert (NS1 : ~ In (Saved out) tr1) by (intro X; apply NS; right; right; exact X).
  assert (d' = remove out d) as ->; [|apply without_remove].
  clear - ER NS1. unfold export_rest in ER.
  destruct (reco_file files reco) as [rf|x] eqn:E1; [|inversion ER; reflexivity].
  rewrite (andthen_lift _ _ _ rf) in ER by reflexivity. destruct (get_config [rf] (remove out d)) as [config|x] eqn:E2.
  2: { unfold andthen at 1, look in ER. rewrite E2 in ER. inversion ER; reflexivity. }
  rewrite (andthen_look _ _ _ _ E2) in ER. destruct (make_loss config) as [loss|x] eqn:E3; [|inversion ER; reflexivity].
  rewrite (andthen_lift _ _ _ loss) in ER by reflexivity.
  apply andthen_inv in ER. destruct ER as [(x & H & _)|(ml & d1 & ev1 & ev2 & H1 & H2 & ->)].
  { exact (load_each_pure _ _ _ _ _ _ _ _ H). }
  pose proof (load_each_pure _ _ _ _ _ _ _ _ H1) as ->.
  apply andthen_inv in H2. destruct H2 as [(x & H & _)|(m & d2 & ev3 & ev4 & H3 & H4 & ->)].
  { exact (build_joint_pure _ _ _ _ _ _ H). }
  exfalso. apply NS1. apply in_or_app. right. apply in_or_app. right.
  apply andthen_inv in H4. destruct H4 as [(x & H & _)|(u & d3 & ev5 & ev6 & H5 & H6 & ->)].
  - unfold save_at in H. rewrite andthen_note in H. destruct (save_all _ _ _ d2) as [[d4 ev7] r7]. inversion H; subst. left. reflexivity.
  - unfold save_at in H5. rewrite andthen_note in H5. destruct (save_all _ _ _ d2) as [[d4 ev7] r7]. inversion H5; subst. left. reflexivity.
Qed.

Lemma get_config_inv f d config : get_config [f] d = Ok config -> exists c, file_at f d = Some c /\ parse [(f, c)] = Ok config.
Proof.
  unfold M_Scripts.get_config. cbn [read_files bind]. destruct (file_at f d) as [c|]; [|discriminate]. cbn [bind]. eauto.
Qed.

(** A configuration file that lies in the output directory is deleted before it is
    read. *)
Theorem C168_inputs files out reco rf f d d' tr r : Present d out -> Missing d out ->
  ConfigFile files reco rf -> In f (rf :: files) -> Under out f ->
  export true files (Some out) reco d = (d', tr, r) ->
  (exists e, r = Err e) /\ Without out d d'.
Proof.
  intros P M HRF HF HU H. apply configfile_iff in HRF.
  destruct (export_cases true files out reco d) as [(_ & A & E)|[(_ & _ & F & _)|[(_ & _ & F & E)|(N & _)]]]; [discriminate| | |contradiction].
  { exfalso. unfold is_file in F. apply file_missing in M. rewrite M in F. discriminate. }
  rewrite E in H. clear E. destruct (export_rest files out reco (remove out d)) as [[d1 tr1] r1] eqn:ER. inversion H; subst.
  assert (NF : file_at f (remove out d) = None) by (rewrite file_remove; apply below_under in HU; rewrite HU; reflexivity).
  apply export_rest_inv in ER. destruct ER as [(-> & X)|(rf' & config & m & H1 & H2 & H3 & _)]; [split; [exact X|apply without_remove]|exfalso].
  assert (rf' = rf) by congruence. subst rf'. destruct HF as [->|HF].
  - apply get_config_inv in H2. destruct H2 as (c & H2 & _). congruence.
  - destruct H3 as (s & before & g & _ & H3 & _).
    assert (K : forall gs, Forall2 (LoadedFrom [] (remove out d)) files gs -> False).
    { clear - HF NF. intros gs H. induction H as [|a b l1 l2 HL H IH]; [inversion HF|]. destruct HF as [->|HF]; [|auto].
      destruct HL as (config & settings & s & p & HC & _). apply configuration_iff, get_config_inv in HC. destruct HC as (c & HC & _). congruence. }
    exact (K _ H3).
Qed.

Lemma setting_fun v ks x y : Setting v ks x -> Setting v ks y -> x = y.
Proof.
  intro H. revert y. induction H as [v|d k ks v x H1 H2 IH]; intros y H; inversion H; subst; [reflexivity|].
  apply IH. congruence.
Qed.

(** A model to be exported that lies in the output directory is deleted before it
    is loaded. *)
Theorem C168_models files out reco f config settings s p d d' tr r : Present d out -> Missing d out ->
  In f files -> Configuration [f] d config -> Setting config ["model_manager_settings"] settings ->
  Setting settings ["config"; "manager_dir"] (VStr s) -> Stripped (parts s) p -> Under out p ->
  (forall x, load_manager settings [] [] <> Ok x) ->
  export true files (Some out) reco d = (d', tr, r) ->
  (exists e, r = Err e) /\ Without out d d'.
Proof.
  intros P M HF HC HS HD HP HU HL H.
  destruct (export_cases true files out reco d) as [(_ & A & E)|[(_ & _ & F & _)|[(_ & _ & F & E)|(N & _)]]]; [discriminate| | |contradiction].
  { exfalso. unfold is_file in F. apply file_missing in M. rewrite M in F. discriminate. }
  rewrite E in H. clear E. destruct (export_rest files out reco (remove out d)) as [[d1 tr1] r1] eqn:ER. inversion H; subst.
  apply export_rest_inv in ER. destruct ER as [(-> & X)|(rf & config' & m & H1 & H2 & H3 & _)]; [split; [exact X|apply without_remove]|exfalso].
  destruct H3 as (x & before & g & _ & H3 & _).
  assert (K : forall gs, Forall2 (LoadedFrom [] (remove out d)) files gs -> False); [|exact (K _ H3)].
  clear - HF HC HS HD HP HU HL. intros gs H3. induction H3 as [|a b l1 l2 HL1 H3 IH]; [inversion HF|]. destruct HF as [->|HF]; [|exact (IH HF)].
  destruct HL1 as (c1 & s1 & t1 & p1 & L1 & L2 & L3 & L4 & L5).
  apply configuration_iff, get_config_inv in L1. destruct L1 as (y & Y1 & Y2). apply configuration_iff, get_config_inv in HC. destruct HC as (z & Z1 & Z2).
  rewrite file_remove in Y1. destruct (below out f); [discriminate|]. assert (y = z) by congruence. subst y.
  assert (c1 = config) by congruence. subst c1. assert (s1 = settings) by (eapply setting_fun; eassumption). subst s1.
  assert (VStr t1 = VStr s) as X by (eapply setting_fun; eassumption). inversion X; subst t1.
  apply stripped_fun in L4. apply stripped_fun in HP. subst. rewrite tree_empty in L5; [exact (HL _ L5)|].
  intro Q. apply (present_remove out d). eapply present_under; eassumption.
Qed.

(** Without config files the output directory is gone all the same; the exception
    depends on whether a configuration for the reconstruction was given. *)
Theorem C168_no_files out reco d : Present d out -> Missing d out ->
  exists d', Without out d d' /\
  export true [] (Some out) reco d = (d', [Asked out; Deleted out],
    match reco with
    | None => Err IndexError
    | Some rf => bind (get_config [rf] d') (fun config => bind (make_loss config) (fun _ => Err UnboundLocalError))
    end).
Proof.
  intros P M. exists (remove out d). split; [apply without_remove|].
  destruct (export_cases true [] out reco d) as [(_ & A & E)|[(_ & _ & F & _)|[(_ & _ & F & E)|(N & _)]]]; [discriminate| | |contradiction].
  { exfalso. unfold is_file in F. apply file_missing in M. rewrite M in F. discriminate. }
  rewrite E. clear E. unfold export_rest. destruct reco as [rf|]; cbn [reco_file]; [|reflexivity].
  rewrite (andthen_lift _ _ _ rf) by reflexivity. destruct (get_config [rf] (remove out d)) as [config|e] eqn:E2.
  2: { unfold andthen at 1, look. rewrite E2. reflexivity. }
  rewrite (andthen_look _ _ _ _ E2). cbn [bind]. destruct (make_loss config) as [loss|e]; reflexivity.
Qed.

(** ** create_trafo_model *)

Variable make_trafo : value -> result (list written).
Notation create_trafo := (create_trafo_model parts parse make_trafo).

(** The configuration is readable and names this directory. *)
Definition Wanted (files : list path) (d : disk) (config : value) (dir : path) : Prop :=
  Configuration files d config /\ exists s, Setting config ["data_trafo_settings"; "model_dir"] (VStr s) /\ parts s = dir.

Lemma create_trafo_eq answer files d config dir : Wanted files d config dir ->
  create_trafo answer files d =
  ((if exists_at (splitext_path dir) d then confirm answer (splitext_path dir) else ret tt) ;;;
   (l <~ lift (make_trafo config) ;; (note Configured ;;; save_at true dir l))) d.
Proof.
  intros (H1 & s & H2 & <-). unfold create_trafo_model. apply configuration_iff in H1. rewrite (andthen_look _ _ _ _ H1).
  apply setting_cons in H2; [|discriminate]. destruct H2 as (t & H2 & H3). apply setting_vget in H3.
  rewrite (andthen_lift _ _ _ (parts s)) by (rewrite H2; cbn [bind]; rewrite H3; reflexivity).
  erewrite andthen_look by reflexivity. reflexivity.
Qed.

(** What exists at the place where the transformer will be written is not
    overwritten unless the user agrees. *)
Theorem C169_declined files d config dir p : Wanted files d config dir -> Stripped dir p -> Present d p ->
  create_trafo false files d = (d, [Asked p], Err ValueError).
Proof.
  intros HW HP HE. apply stripped_fun in HP. subst p. rewrite (create_trafo_eq _ _ _ _ _ HW).
  apply exists_present in HE. rewrite HE. reflexivity.
Qed.

(** Otherwise the transformer is configured first and then written to this place:
    if it cannot be configured, all files are as before. *)
Theorem C169_written answer files d config dir p : Wanted files d config dir -> Stripped dir p ->
  (Present d p -> answer = true) ->
  forall asked, (Present d p /\ asked = [Asked p]) \/ (~ Present d p /\ asked = []) ->
  match make_trafo config with
  | Err e => create_trafo answer files d = (d, asked, Err e)
  | Ok l => exists d', create_trafo answer files d = (d', asked ++ [Configured; Saved dir], Ok tt) /\
      (forall q, ~ Under p q -> Untouched d d' q) /\
      (Once l -> forall q c, Output l q c -> Content d' (p ++ q) c) /\
      (forall q, (forall n c, Output l n c -> q <> p ++ n) -> Untouched d d' q)
  end.
Proof.
  intros HW HP HA asked HQ. apply stripped_fun in HP. subst p. rewrite (create_trafo_eq _ _ _ _ _ HW).
  assert (E : (if exists_at (splitext_path dir) d then confirm answer (splitext_path dir) else ret tt) d = (d, asked, Ok tt)).
  { destruct HQ as [[P ->]|[P ->]].
    - rewrite (HA P). apply exists_present in P. rewrite P. reflexivity.
    - apply exists_false in P. rewrite P. reflexivity. }
  rewrite (andthen_ok _ _ _ _ _ _ E). destruct (make_trafo config) as [l|e].
  - destruct (save_all_overwrite (splitext_path dir) l d) as [d' HS]. exists d'. split; [|split; [|split]].
    + rewrite (andthen_lift _ _ _ l) by reflexivity. rewrite andthen_note. unfold save_at. rewrite andthen_note, HS. reflexivity.
    + intros q Hq. apply untouched_iff. eapply save_all_others; [exact HS|]. intros n c _ ->. apply Hq. apply under_app.
    + intros O q c Hq. apply file_content. eapply save_all_done; eassumption.
    + intros q Hq. apply untouched_iff. eapply save_all_others; [exact HS|exact Hq].
  - unfold andthen, lift. rewrite app_nil_r. reflexivity.
Qed.

(** ** reconstruct_test_data *)

Variable make_seed : list value -> value -> result Module.
Variables make_label make_data : value -> result Module.
Variable reconstruct : manager -> value -> Loss -> result unit.
Notation reconstruct_script := (reconstruct_test_data Model Handler Trafo Loss Module parts parse make_loss load_manager combine
  make_seed make_label make_data reconstruct).

(** The modules that the script replaces when it loads managers *)
Definition Replaced (reco : value) (names : list value) (mods : list (string * Module)) : Prop :=
  exists seed, Setting reco ["seed"] seed /\ SeedNames seed names /\
  exists misc labels datas, mods = misc ++ labels ++ datas /\
    (names = [] /\ misc = [] \/ names <> [] /\ exists m, make_seed names reco = Ok m /\ misc = [("misc_module"%string, m)]) /\
    ((forall s, ~ Setting reco ["modified_label_module"] s) /\ labels = [] \/
     exists s m, Setting reco ["modified_label_module"] s /\ make_label s = Ok m /\ labels = [("label_module"%string, m)]) /\
    ((forall s, ~ Setting reco ["modified_data_module"] s) /\ datas = [] \/
     exists s m, Setting reco ["modified_data_module"] s /\ make_data s = Ok m /\ datas = [("data_module"%string, m)]).

Lemma optional_spec key (make : value -> result Module) (name : string) reco l :
  bind (vmem reco key) (fun there => if there then bind (vget reco key) (fun s => bind (make s) (fun m => Ok [(name, m)])) else Ok []) = Ok l ->
  (forall s, ~ Setting reco [key] s) /\ l = [] \/ exists s m, Setting reco [key] s /\ make s = Ok m /\ l = [(name, m)].
Proof.
  unfold vmem, vget. destruct reco as [| | | | | |d]; cbn [bind]; try discriminate.
  destruct (dmem key d) eqn:E; cbn [bind].
  - destruct (dget key d) as [s|] eqn:E2; cbn [bind]; [|discriminate]. destruct (make s) as [m|e] eqn:E3; cbn [bind]; [|discriminate].
    intro H. inversion H; subst. right. exists s, m. split; [econstructor; [exact E2|constructor]|auto].
  - intro H. inversion H; subst. left. split; [|reflexivity]. intros s HS. inversion HS as [|? ? ? v ? H1 H2]; subst.
    unfold dmem in E. rewrite H1 in E. discriminate.
Qed.

Lemma replaced_spec reco names mods : replaced Module make_seed make_label make_data reco = Ok (names, mods) -> Replaced reco names mods.
Proof.
  unfold replaced. destruct (vget reco "seed") as [seed|e] eqn:E1; cbn [bind]; [|discriminate].
  destruct (seed_names seed) as [ns|e] eqn:E2; cbn [bind]; [|discriminate].
  set (M := match ns with [] => Ok [] | _ => bind (make_seed ns reco) (fun m => Ok [("misc_module"%string, m)]) end).
  destruct M as [misc|e] eqn:E3; cbn [bind]; [|discriminate].
  pose proof (optional_spec "modified_label_module" make_label "label_module" reco) as L.
  pose proof (optional_spec "modified_data_module" make_data "data_module" reco) as D.
  destruct (vmem reco "modified_label_module") as [bl|e]; cbn [bind] in *; [|discriminate].
  destruct (if bl then _ else Ok []) as [labels|e] eqn:E4; cbn [bind]; [|discriminate].
  destruct (vmem reco "modified_data_module") as [bd|e]; cbn [bind] in *; [|discriminate].
  destruct (if bd then bind (vget reco "modified_data_module") _ else Ok []) as [datas|e] eqn:E5; cbn [bind]; [|discriminate].
  intro H. inversion H; subst. exists seed. split; [apply setting_vget; exact E1|]. split; [apply seed_names_spec; exact E2|].
  exists misc, labels, datas. split; [reflexivity|]. split; [|split; [apply L; reflexivity|apply D; reflexivity]].
  subst M. destruct names as [|n names]; [inversion E3; left; split; reflexivity|right; split; [discriminate|]].
  destruct (make_seed (n :: names) reco) as [m|e]; cbn [bind] in E3; [|discriminate]. inversion E3. eauto.
Qed.

Lemma check_saved_pure config names : Pure (check_saved parts config names).
Proof.
  unfold check_saved. apply pure_andthen; [apply pure_lift|]. intros [[s dir] b]. destruct b.
  - apply pure_andthen; [apply pure_lift|]. intro p. apply pure_andthen; [apply pure_look|]. intros []; [apply pure_ret|apply pure_lift].
  - destruct names; [apply pure_ret|apply pure_lift].
Qed.

(** The script never writes or deletes a file by itself. *)
Theorem C170_reads_only files reco d d' tr r : reconstruct_script files reco d = (d', tr, r) -> d' = d.
Proof.
  revert d d' tr r. change (Pure (reconstruct_script files reco)). unfold reconstruct_test_data.
  apply pure_andthen; [apply pure_lift|]. intro rf. apply pure_andthen; [apply pure_look|]. intro c.
  apply pure_andthen; [apply pure_lift|]. intro loss. apply pure_andthen; [apply pure_lift|]. intro nm.
  apply pure_andthen; [apply check_saved_pure|]. intro c'. apply pure_andthen; [apply load_each_pure|]. intro ml.
  apply pure_andthen; [apply build_joint_pure|]. intro m. apply pure_andthen; [apply pure_note|]. intros _. apply pure_lift.
Qed.

Lemma check_saved_spec config names d d' tr config' : check_saved parts config names d = (d', tr, Ok config') ->
  (forall k v, k <> "data_handler_settings"%string -> (Setting config [k] v <-> Setting config' [k] v)) /\ tr = [] /\
  exists settings restore, Setting config ["model_manager_settings"] settings /\ Setting settings ["restore_model"] restore /\
    (True_value restore -> config' = config /\ exists s, Setting settings ["config"; "manager_dir"] (VStr s) /\ Present d (parts s ++ ["configuration.yaml"])).
Proof.
  unfold check_saved, manager_settings. intro H.
  destruct (vget config "model_manager_settings") as [s|e] eqn:E1; cbn [bind] in H; [|discriminate].
  destruct (vget s "config") as [c|e] eqn:E2; cbn [bind] in H; [|discriminate].
  destruct (vget c "manager_dir") as [dir|e] eqn:E3; cbn [bind] in H; [|discriminate].
  destruct (vget s "restore_model") as [restore|e] eqn:E4; cbn [bind] in H; [|discriminate].
  rewrite (andthen_lift _ _ _ (s, dir, truthy restore)) in H by reflexivity. cbv iota beta in H.
  destruct (truthy restore) eqn:ET.
  - destruct dir as [| | |x| | |]; try discriminate. rewrite (andthen_lift _ _ _ (parts x)) in H by reflexivity.
    erewrite andthen_look in H by reflexivity. destruct (exists_at (parts x ++ ["configuration.yaml"%string]) d) eqn:EE; [|discriminate].
    inversion H; subst. split; [reflexivity|]. split; [reflexivity|]. exists s, restore. split; [apply setting_vget; exact E1|].
    split; [apply setting_vget; exact E4|]. intros _. split; [reflexivity|]. exists x. split; [|apply exists_present; exact EE].
    apply setting_cons; [discriminate|]. exists c. split; [exact E2|apply setting_vget; exact E3].
  - assert (K : (forall k v, k <> "data_handler_settings"%string -> (Setting config [k] v <-> Setting config' [k] v)) /\ tr = []).
    { destruct names as [|n names]; [inversion H; subst; split; reflexivity|].
      unfold lift in H. destruct (vget config "data_handler_settings") as [h|e] eqn:F1; cbn [bind] in H; [|discriminate].
      destruct (vdict h) as [hd|e] eqn:F2; cbn [bind] in H; [|discriminate].
      destruct (vget config "reconstruction_settings") as [rc|e] eqn:F3; cbn [bind] in H; [|discriminate].
      destruct (vget rc "seed_parameter_names") as [a1|e]; cbn [bind] in H; [|discriminate].
      destruct (vget rc "seed_float_precision") as [a2|e]; cbn [bind] in H; [|discriminate].
      destruct (vget rc "seed_missing_value") as [a3|e]; cbn [bind] in H; [|discriminate].
      destruct config as [| | | | | |cd]; try discriminate. cbn [vdict bind] in H. inversion H; subst. split; [|reflexivity].
      intros k v Nk. rewrite <- !setting_vget. unfold vget. rewrite dget_dset_other by congruence. reflexivity. }
    destruct K as [K1 K2]. split; [exact K1|]. split; [exact K2|]. exists s, restore. split; [apply setting_vget; exact E1|].
    split; [apply setting_vget; exact E4|]. intro HT. apply truthy_true in HT. congruence.
Qed.

(** A reconstruction that is run used managers loaded from the directories named by
    the config files, each with the replaced modules, joined under the settings of
    the reconstruction's own configuration.  The managers are loaded whatever
    'restore_model' says. *)
Theorem C170_loaded files reco d d' tr r : reconstruct_script files reco d = (d', tr, r) -> In Reconstructed tr ->
  exists rf config loss rc names mods config' m, ConfigFile files reco rf /\ Configuration [rf] d config /\
    make_loss config = Ok loss /\ Setting config ["reconstruction_settings"] rc /\ Replaced rc names mods /\
    (forall k v, k <> "data_handler_settings"%string -> (Setting config [k] v <-> Setting config' [k] v)) /\
    Joint mods d files config m /\ r = reconstruct m config' loss.
Proof.
  intros H HI. unfold reconstruct_test_data in H.
  destruct (reco_file files reco) as [rf|e] eqn:E1; [|inversion H; subst; destruct HI].
  rewrite (andthen_lift _ _ _ rf) in H by reflexivity. destruct (get_config [rf] d) as [config|e] eqn:E2.
  2: { unfold andthen at 1, look in H. rewrite E2 in H. inversion H; subst. destruct HI. }
  rewrite (andthen_look _ _ _ _ E2) in H. destruct (make_loss config) as [loss|e] eqn:E3; [|inversion H; subst; destruct HI].
  rewrite (andthen_lift _ _ _ loss) in H by reflexivity.
  destruct (vget config "reconstruction_settings") as [rc|e] eqn:E4; cbn [bind] in H; [|inversion H; subst; destruct HI].
  destruct (replaced Module make_seed make_label make_data rc) as [[names mods]|e] eqn:E5; [|inversion H; subst; destruct HI].
  rewrite (andthen_lift _ _ _ (names, mods)) in H by reflexivity. cbn [fst snd] in H.
  apply andthen_inv in H. destruct H as [(e & H & _)|(config' & d1 & ev1 & ev2 & H1 & H2 & ->)].
  { exfalso. unfold check_saved, andthen, lift, look, ret in H. revert H. destruct (manager_settings config) as [[[s dir] b]|x]; [|intro H; inversion H; subst; destruct HI].
    destruct b.
    - destruct (as_path parts dir); [|intro H; inversion H; subst; destruct HI].
      match goal with |- context [exists_at ?x d] => destruct (exists_at x d) end; intro H; inversion H; subst; destruct HI.
    - destruct names; [discriminate|]. intro H. inversion H; subst. destruct HI. }
  pose proof (check_saved_pure _ _ _ _ _ _ H1) as ->. apply check_saved_spec in H1. destruct H1 as (K & -> & _). cbn [app] in HI.
  apply andthen_inv in H2. destruct H2 as [(e & H & _)|(ml & d2 & ev3 & ev4 & H3 & H4 & ->)].
  { exfalso. pose proof (load_each_events _ _ _ _ _ _ _ _ H) as F. rewrite Forall_forall in F. apply F in HI. destruct HI as [p HI]. discriminate. }
  pose proof (load_each_pure _ _ _ _ _ _ _ _ H3) as ->.
  apply in_app_or in HI. destruct HI as [HI|HI].
  { exfalso. pose proof (load_each_events _ _ _ _ _ _ _ _ H3) as F. rewrite Forall_forall in F. apply F in HI. destruct HI as [p HI]. discriminate. }
  apply andthen_inv in H4. destruct H4 as [(e & H & _)|(m & d3 & ev5 & ev6 & H5 & H6 & ->)].
  { exfalso. unfold M_Scripts.build_joint in H. destruct (snd ml) as [[h t]|]; [|inversion H; subst; destruct HI].
    unfold andthen, lift, note, ret in H. destruct (vget config' "model_manager_settings") as [ms|x]; [|inversion H; subst; destruct HI].
    destruct (combine ms (fst ml) h t); inversion H; subst; destruct HI. }
  destruct (joint_spec _ _ _ _ _ _ _ _ _ _ H3 H5) as (HJ & -> & _). rewrite andthen_note in H6. inversion H6; subst.
  exists rf, config, loss, rc, names, mods, config', m. split; [apply configfile_iff; exact E1|]. split; [apply configuration_iff; exact E2|]. split; [exact E3|].
  split; [apply setting_vget; exact E4|]. split; [apply replaced_spec; exact E5|]. split; [exact K|]. split; [|reflexivity].
  destruct HJ as (s & before & g & J1 & J2 & J3). exists s, before, g. split; [|auto]. apply K; [discriminate|exact J1].
Qed.

Lemma optional_complete key (make : value -> result Module) (name : string) (d : dict value) l :
  (forall s, ~ Setting (VDict d) [key] s) /\ l = [] \/ (exists s m, Setting (VDict d) [key] s /\ make s = Ok m /\ l = [(name, m)]) ->
  bind (vmem (VDict d) key) (fun there => if there then bind (vget (VDict d) key) (fun s => bind (make s) (fun m => Ok [(name, m)])) else Ok []) = Ok l.
Proof.
  cbn [vmem bind]. intros [[N ->]|(s & m & H1 & H2 & ->)].
  - unfold dmem. destruct (dget key d) as [v|] eqn:E; [|reflexivity]. exfalso. apply (N v). econstructor; [exact E|constructor].
  - apply setting_vget in H1. rewrite H1. unfold vget in H1. unfold dmem. destruct (dget key d); [|discriminate]. cbn [bind]. rewrite H2. reflexivity.
Qed.

Lemma replaced_complete reco names mods : Replaced reco names mods -> replaced Module make_seed make_label make_data reco = Ok (names, mods).
Proof.
  intros (seed & H1 & H2 & misc & labels & datas & -> & H3 & H4 & H5). unfold replaced.
  assert (D : exists d, reco = VDict d) by (inversion H1; eauto). destruct D as [d ->].
  apply optional_complete in H4. apply optional_complete in H5. cbn [vmem bind] in H4, H5.
  apply setting_vget in H1. rewrite H1. cbn [bind]. apply seed_names_spec in H2. rewrite H2. cbn [bind].
  assert (E : match names with [] => Ok [] | _ => bind (make_seed names (VDict d)) (fun m => Ok [("misc_module"%string, m)]) end = Ok misc).
  { destruct H3 as [[-> ->]|(N & m & H3 & ->)]; [reflexivity|]. destruct names; [congruence|]. rewrite H3. reflexivity. }
  rewrite E. cbn [vmem bind]. rewrite H4. cbn [vmem bind]. rewrite H5. reflexivity.
Qed.

(** With 'restore_model' the reconstruction's own 'manager_dir' must hold a saved
    model, although nothing is loaded from there; nothing is loaded before this
    check. *)
Theorem C170_checked files reco d rf config loss rc names mods settings s restore :
  ConfigFile files reco rf -> Configuration [rf] d config -> make_loss config = Ok loss ->
  Setting config ["reconstruction_settings"] rc -> Replaced rc names mods ->
  Setting config ["model_manager_settings"] settings -> Setting settings ["config"; "manager_dir"] (VStr s) ->
  Setting settings ["restore_model"] restore -> True_value restore ->
  ~ Present d (parts s ++ ["configuration.yaml"]) ->
  reconstruct_script files reco d = (d, [], Err ValueError).
Proof.
  intros H1 H2 H3 H4 H5 H6 H7 H8 H9 N. unfold reconstruct_test_data. apply configfile_iff in H1. apply configuration_iff in H2.
  rewrite (andthen_lift _ _ _ _ H1), (andthen_look _ _ _ _ H2), (andthen_lift _ _ _ _ H3).
  apply replaced_complete in H5. apply setting_vget in H4. rewrite (andthen_lift _ _ _ (names, mods)) by (rewrite H4; exact H5). cbn [fst snd].
  apply andthen_err. unfold check_saved, manager_settings. apply setting_vget in H6. rewrite H6. cbn [bind].
  apply setting_cons in H7; [|discriminate]. destruct H7 as (c & H7 & H7'). rewrite H7. cbn [bind]. apply setting_vget in H7'. rewrite H7'. cbn [bind].
  apply setting_vget in H8. rewrite H8. cbn [bind]. rewrite (andthen_lift _ _ _ _ eq_refl). cbv iota beta.
  apply truthy_true in H9. rewrite H9. rewrite (andthen_lift _ _ _ (parts s)) by reflexivity. erewrite andthen_look by reflexivity.
  apply exists_false in N. rewrite N. reflexivity.
Qed.
End Scripts.

(** ** A small instance *)

Definition ex_parts (s : string) : path := ["models"%string; s].
Definition ex_config (dir : string) (restore : bool) : value :=
  VDict [("model_manager_settings", VDict [("config", VDict [("manager_dir", VStr dir)]); ("restore_model", VBool restore)]);
         ("training_settings", VDict [("num_training_iterations", VInt 10)]);
         ("data_trafo_settings", VDict [("model_dir", VStr "trafo.pickle")]);
         ("data_handler_settings", VDict [("label_module", VStr "labels")]);
         ("reconstruction_settings", VDict [("seed", VList [VStr "x_parameters"; VStr "fit"]); ("seed_parameter_names", VNone);
           ("seed_float_precision", VNone); ("seed_missing_value", VNone); ("modified_label_module", VStr "other")])]%string.
(** The file ['configs'; name] configures the directory 'name'. *)
Definition ex_parse (l : list (path * string)) : result value :=
  match l with
  | [([_; name], c)] => Ok (ex_config name (String.eqb c "restore"))
  | _ => Err ValueError
  end.
Notation ex_manager := (manager nat nat nat).
Definition ex_new (n : nat) (dir : string) : ex_manager :=
  {| g_models := [n]; g_handler := n; g_trafo := n; g_dir := VStr dir |}.
(** The recorded directory is the content of the configuration file. *)
Definition ex_load (s : value) (mods : list (string * nat)) (d : disk) : result ex_manager :=
  match file_at ["configuration.yaml"%string] d with Some c => Ok (ex_new (length mods) c) | None => Err IOError end.
Definition ex_build (config : value) (d : disk) : result ex_manager :=
  bind (vget config "model_manager_settings") (fun s => bind (vget s "config") (fun c => bind (vget c "manager_dir") (fun v =>
  match v with VStr dir => Ok (ex_new 7 dir) | _ => Err TypeError end))).
Definition ex_fail (config : value) (d : disk) : result ex_manager := Err IOError.
Definition ex_files (m : ex_manager) : list written :=
  [Part [] (match g_dir _ _ _ m with VStr s => s | _ => "" end) "data";
   Part ["models_0000"] "model" "data"; More ["models_0000"; "model_checkpoint.yaml"] "1"]%string.
Definition ex_training (m : ex_manager) (c : value) (l : unit) (e : option nat) : list written :=
  [More ["models_0000"; "training"; "training_steps.yaml"] "0"]%string.
Definition ex_combine (s : value) (ms : list nat) (h t : nat) : result ex_manager :=
  Ok {| g_models := ms; g_handler := h; g_trafo := t; g_dir := VStr "joint" |}.
Definition ex_train build := train_model nat nat nat unit nat ex_parts ex_parse (fun _ => Ok tt) (fun _ => Ok 0)
  ex_load build ex_files (fun _ => [["models_0000"%string]]) ex_training (fun _ _ _ _ => (2, None)) "10" "weights" "log".
Definition ex_export := export_manager nat nat nat unit nat ex_parts ex_parse (fun _ => Ok tt) ex_load ex_combine ex_files.
Definition ex_saved (dir recorded : string) : disk :=
  [(["models"; dir; "configuration.yaml"], recorded); (["models"; dir; "data.pickle"], "old"); (["models"; dir; "weights"], "trained")]%string.

(** A model that is there is lost if the building of the new one fails. *)
Theorem C166_kept_refuted : exists d files d' tr q c,
  ex_train ex_fail true files d = (d', tr, Err IOError) /\ ~ In Configured tr /\ Content d q c /\ Missing d' q.
Proof.
  exists ((["configs"; "v1"], "new") :: ex_saved "v1" "v1")%string, [["configs"; "v1"]]%string.
  eexists. eexists. exists ["models"; "v1"; "weights"]%string, "trained"%string. split; [vm_compute; reflexivity|].
  split; [intros [H|[H|[]]]; discriminate|]. split; [apply file_content; reflexivity|apply file_missing; reflexivity].
Qed.

(** A copy of a saved model, restored from its new place, is trained at the place of
    the original: the copy stays as it is, the original is changed. *)
Theorem C167_moved_refuted : exists d files p d' tr,
  ex_train ex_build true files d = (d', tr, Ok tt) /\ In (Loaded p) tr /\
  (forall q, Under p q -> Untouched d d' q) /\
  exists q c c', ~ Under p q /\ Content d q c /\ Content d' q c' /\ c <> c'.
Proof.
  set (d := ((["configs"; "copy"], "restore") :: ex_saved "copy" "v1" ++ ex_saved "v1" "v1")%string).
  set (x := ex_train ex_build true [["configs"%string; "copy"%string]] d). vm_compute in x.
  exists d, [["configs"%string; "copy"%string]], ["models"; "copy"]%string, (fst (fst x)), (snd (fst x)).
  split; [vm_compute; reflexivity|]. split; [left; reflexivity|]. split.
  - intros q [r ->]. apply untouched_iff. subst x. destruct r as [|a [|b r]]; reflexivity.
  - exists ["models"; "v1"; "data.pickle"]%string, "old"%string, "data"%string. split; [intros [r H]; discriminate|].
    split; [apply file_content; reflexivity|]. split; [apply file_content; reflexivity|discriminate].
Qed.

(** A manager directory with an extension: the first training ends with an
    exception at its first saving of weights, and a later run with 'restore_model'
    does not find the model that was saved but starts from scratch. *)
Theorem C167_found_refuted : exists files d d1 tr1 d2 tr2,
  ex_train ex_build true files d = (d1, tr1, Err IOError) /\
  Content d1 ["models"; "v1"; "configuration.yaml"]%string "v1.2" /\
  ex_train ex_build true files d1 = (d2, tr2, Err IOError) /\
  In Configured tr2 /\ (forall p, ~ In (Loaded p) tr2).
Proof.
  set (x := ex_train ex_build true [["configs"%string; "v1.2"%string]] [(["configs"%string; "v1.2"%string], "restore"%string)]).
  set (y := ex_train ex_build true [["configs"%string; "v1.2"%string]] (fst (fst x))).
  vm_compute in x. vm_compute in y.
  exists [["configs"%string; "v1.2"%string]], [(["configs"%string; "v1.2"%string], "restore"%string)], (fst (fst x)), (snd (fst x)), (fst (fst y)), (snd (fst y)).
  split; [vm_compute; reflexivity|]. split; [apply file_content; reflexivity|]. split; [vm_compute; reflexivity|].
  split; [left; reflexivity|]. intros p H. subst y. cbn in H. repeat (destruct H as [H|H]; [discriminate|]). exact H.
Qed.

(** 'restore_model: False' does not make the reconstruction build a new model. *)
Theorem C170_scratch_refuted : exists files d tr p,
  reconstruct_test_data nat nat nat unit nat ex_parts ex_parse (fun _ => Ok tt) ex_load ex_combine
    (fun _ _ => Ok 1) (fun _ => Ok 2) (fun _ => Ok 3) (fun _ _ _ => Ok tt) files None d = (d, tr, Ok tt) /\
  Content d ["configs"; "v1"]%string "new" /\ Setting (ex_config "v1" false) ["model_manager_settings"; "restore_model"] (VBool false) /\
  In (Loaded p) tr.
Proof.
  exists [["configs"%string; "v1"%string]], ((["configs"; "v1"], "new") :: ex_saved "v1" "v1")%string. eexists. eexists.
  split; [vm_compute; reflexivity|]. split; [constructor|]. split; [repeat econstructor|]. left. reflexivity.
Qed.

(** Cases that meet the hypotheses of the theorems above *)
Example scripts_ex_prepared (restore : bool) : Prepared unit nat ex_parts ex_parse (fun _ => Ok tt) (fun _ => Ok 0)
  [["configs"; "v1"]]%string ((["configs"; "v1"], if restore then "restore" else "new") :: ex_saved "v1" "v1")%string
  (ex_config "v1" restore) tt None
  (VDict [("config", VDict [("manager_dir", VStr "v1")]); ("restore_model", VBool restore)])%string ["models"; "v1"]%string (VBool restore).
Proof.
  constructor; try (destruct restore; reflexivity).
  - apply configuration_iff. destruct restore; reflexivity.
  - apply Evaluation_absent. reflexivity.
  - repeat econstructor.
  - exists "v1"%string. split; [repeat econstructor|reflexivity].
  - repeat econstructor.
  - eexists. repeat econstructor.
Qed.

Example scripts_ex_present (x : string) : Present ((["configs"; "v1"], x) :: ex_saved "v1" "v1")%string ["models"; "v1"; "configuration.yaml"]%string.
Proof. apply exists_present. reflexivity. Qed.

Example scripts_ex_truth : True_value (VBool true) /\ ~ True_value (VBool false) /\ ~ True_value VNone.
Proof. rewrite <- !truthy_true. split; [reflexivity|]. split; discriminate. Qed.

(** restored, refused, and confirmed *)
Example scripts_ex_restored : exists d' , ex_train ex_build false [["configs"; "v1"]]%string ((["configs"; "v1"], "restore") :: ex_saved "v1" "v1")%string
  = (d', [Loaded ["models"; "v1"]; Saved ["models"; "v1"]; Weights ["models"; "v1"]; Weights ["models"; "v1"]]%string, Ok tt).
Proof. eexists. vm_compute. reflexivity. Qed.

Example scripts_ex_confirmed : exists d' , ex_train ex_build true [["configs"; "v1"]]%string ((["configs"; "v1"], "new") :: ex_saved "v1" "v1")%string
  = (d', [Asked ["models"; "v1"]; Deleted ["models"; "v1"]; Configured; Saved ["models"; "v1"]; Weights ["models"; "v1"]; Weights ["models"; "v1"]]%string, Ok tt)
  /\ Missing d' ["models"; "v1"; "weights"]%string.
Proof. eexists. split; [vm_compute; reflexivity|apply file_missing; reflexivity]. Qed.

Example scripts_ex_extension : HasExtension (ex_parts "v1.2") /\ ~ HasExtension (ex_parts "v1") /\ Stripped (ex_parts "v1.2") (ex_parts "v1").
Proof.
  split; [exists ["models"%string], "v1"%string, "2"%string; auto|]. split.
  - intros H. apply extension_apart in H. apply H. reflexivity.
  - apply (Stripped_ext ["models"%string] "v1" "2"); reflexivity.
Qed.

Example scripts_ex_once m c l e : Once (ex_files m ++ ex_training m c l e).
Proof.
  apply once_nodup. cbn. repeat constructor; cbn; intuition discriminate.
Qed.

(** Two managers exported together; the second one gives the data handler *)
Definition ex_two : disk := ((["configs"; "a"], "restore") :: (["configs"; "b"], "restore") :: ex_saved "a" "a" ++ ex_saved "b" "b")%string.

Example scripts_ex_exported : exists d', ex_export false [["configs"; "a"]; ["configs"; "b"]]%string (Some ["out"]%string) None ex_two
  = (d', [Loaded ["models"; "a"]; Loaded ["models"; "b"]; Configured; Saved ["out"]]%string, Ok tt)
  /\ Content d' ["out"; "configuration.yaml"]%string "joint" /\ Content d' ["out"; "reco_config.yaml"]%string "restore".
Proof. eexists. split; [vm_compute; reflexivity|]. split; apply file_content; reflexivity. Qed.

(** Exporting into the directory of the models deletes them. *)
Example scripts_ex_export_models : exists d', ex_export true [["configs"; "a"]]%string (Some ["models"]%string) None ex_two
  = (d', [Asked ["models"]; Deleted ["models"]; Loaded ["models"; "a"]]%string, Err IOError) /\ Missing d' ["models"; "b"; "weights"]%string.
Proof. eexists. split; [vm_compute; reflexivity|apply file_missing; reflexivity]. Qed.

Example scripts_ex_export_extension : exists d', ex_export true [["configs"; "a"]]%string (Some ["out"; "v1.2"]%string) None ex_two
  = (d', [Loaded ["models"; "a"]; Configured; Saved ["out"; "v1.2"]]%string, Err IOError) /\ Content d' ["out"; "v1"; "configuration.yaml"]%string "joint".
Proof. eexists. split; [vm_compute; reflexivity|apply file_content; reflexivity]. Qed.

Example scripts_ex_trafo : let make := fun _ => Ok [Part [] "conf" "data"]%string in
  Wanted ex_parts ex_parse [["configs"; "a"]]%string ex_two (ex_config "a" true) ["models"; "trafo.pickle"]%string /\
  exists d', create_trafo_model ex_parts ex_parse make false [["configs"; "a"]]%string ex_two = (d', [Configured; Saved ["models"; "trafo.pickle"]]%string, Ok tt) /\
    Content d' ["models"; "trafo"; "configuration.yaml"]%string "conf" /\
    create_trafo_model ex_parts ex_parse make false [["configs"; "a"]]%string d' = (d', [Asked ["models"; "trafo"]]%string, Err ValueError).
Proof.
  split; [split; [apply configuration_iff; reflexivity|exists "trafo.pickle"%string; split; [repeat econstructor|reflexivity]]|].
  eexists. split; [vm_compute; reflexivity|]. split; [apply file_content; reflexivity|vm_compute; reflexivity].
Qed.

Example scripts_ex_replaced : Replaced nat (fun _ _ => Ok 1) (fun _ => Ok 2) (fun _ => Ok 3)
  (VDict [("seed", VList [VStr "x_parameters"; VStr "fit"]); ("modified_label_module", VStr "other")])%string
  [VStr "fit"] [("misc_module", 1); ("label_module", 2)]%string.
Proof.
  exists (VList [VStr "x_parameters"; VStr "fit"]). split; [repeat econstructor|]. split.
  - constructor. constructor. constructor; [discriminate|]. constructor.
  - exists [("misc_module", 1)]%string, [("label_module", 2)]%string, []. split; [reflexivity|]. split; [|split].
    + right. split; [discriminate|]. exists 1. split; reflexivity.
    + right. exists (VStr "other"), 2. split; [repeat econstructor|]. split; reflexivity.
    + left. split; [|reflexivity]. intros s H. apply setting_vget in H. discriminate.
Qed.
Print Assumptions C165_restored.
Print Assumptions C165_scratch.
Print Assumptions C165_declined.
Print Assumptions C165_confirmed.
Print Assumptions C165_unprepared.
Print Assumptions C165_no_files.
Print Assumptions C166_confined.
Print Assumptions C166_recorded.
Print Assumptions C167_saved.
Print Assumptions C167_continues.
Print Assumptions C167_extension.
Print Assumptions C168_declined.
Print Assumptions C168_asks.
Print Assumptions C168_exported.
Print Assumptions C168_extension.
Print Assumptions C168_lost.
Print Assumptions C168_inputs.
Print Assumptions C168_models.
Print Assumptions C168_no_files.
Print Assumptions C169_declined.
Print Assumptions C169_written.
Print Assumptions C170_reads_only.
Print Assumptions C170_loaded.
Print Assumptions C170_checked.
Print Assumptions C166_kept_refuted.
Print Assumptions C167_moved_refuted.
Print Assumptions C167_found_refuted.
Print Assumptions C170_scratch_refuted.
