(** Lemmas for the building of components. *)
From Verif Require Import Py PyFacts PyStr M_Config M_Component S_Component L_Component L_Load L_Replace L_Update
  L_Config M_Train L_Train T_Train M_Build S_Build.

Lemma bind_ok {A B} (r : result A) (f : A -> result B) b : bind r f = Ok b -> exists a, r = Ok a /\ f a = Ok b.
Proof. destruct r as [a |]; cbn; [intros H; exists a; auto | discriminate]. Qed.
Tactic Notation "obind" hyp(H) ident(x) ident(E) := apply bind_ok in H as (x & E & H).

Lemma vget_found v k x : vget v k = Ok x <-> found v [k] = Some x.
Proof. destruct v; cbn; try (split; discriminate). destruct (dget k d); split; intros [= <-] || discriminate; reflexivity. Qed.

Lemma found_cons v k ks x : vget v k = Ok x -> found v (k :: ks) = found x ks.
Proof. intros H. destruct v; cbn in H |- *; try discriminate. destruct (dget k d); [injection H as <-; reflexivity | discriminate]. Qed.

Lemma vmem_found v k b : vmem v k = Ok b -> b = match found v [k] with Some _ => true | None => false end.
Proof. destruct v; cbn; try discriminate. intros [= <-]. unfold dmem. destruct (dget k d); reflexivity. Qed.

Lemma arg_of_value v : HasValue (arg_of v) v.
Proof. destruct v; constructor. Qed.

Lemma arg_value_of v : arg_value (arg_of v) = Some v.
Proof.
  assert (V : forall l, item_values (map IVal l) = Some l) by (induction l as [| v0 l IH]; cbn; [| rewrite IH]; reflexivity).
  destruct v; cbn; try reflexivity; rewrite ?V; try reflexivity.
  assert (E : map snd (map (fun kv : string * value => (fst kv, IVal (snd kv))) d) = map IVal (map snd d)) by (rewrite !map_map; reflexivity).
  rewrite E, V. cbn. f_equal. f_equal. rewrite map_map. cbn [fst]. clear. induction d as [| (k, v) d IH]; cbn; [| rewrite IH]; reflexivity.
Qed.

Lemma keywords_get d k : dget k (keywords d) = option_map arg_of (dget k d).
Proof. induction d as [| (k', v) d IH]; cbn; [reflexivity |]. destruct (String.eqb k k'); [reflexivity | exact IH]. Qed.

Lemma item_components_all cs : item_components (map IComp cs) = Ok cs.
Proof. unfold item_components. induction cs as [| c cs IH]; cbn [map fold_right]; [reflexivity |]. rewrite IH. reflexivity. Qed.

Section Build.
  Variable rv : string.
  Variable known_class : string -> bool.
  Variable kind_of : string -> kind.
  Variable rebuild_tensors : dict value -> result value.
  Variable fuel : nat.
  Variable fs : fsys.
  Variable parts : string -> path.
  Variable git : value.
  Variable hook_of : string -> hook.
  Variable names_of : component -> list string.
  Variable read : string -> result (dict value).

  Notation make := (M_Build.make rv kind_of git hook_of names_of).
  Notation hooks := (class_hook rv kind_of git hook_of names_of).
  Notation load_with := (M_Build.load_with rv known_class kind_of rebuild_tensors fuel fs parts).
  Notation loading := (load rv known_class kind_of rebuild_tensors fuel fs).

  Lemma make_ok cls kw c : make cls kw = Ok c <-> configure (hooks cls) kw (new_component cls) = (c, None).
  Proof.
    unfold M_Build.make. destruct (configure _ _ _) as (c', [e |]); split; intros H; try discriminate.
    - injection H as <-. reflexivity.
    - injection H as <-. reflexivity.
  Qed.

  Lemma make_class cls kw c : make cls kw = Ok c -> k_class c = cls /\ k_configured c = true.
  Proof.
    intros H. apply make_ok in H. apply configure_ok in H as (_ & _ & ms & ps & out & cf & subs & _ & _ & _ & _ & _ & _ & _ & ->).
    split; reflexivity.
  Qed.

  Lemma load_with_ok cls d m c m' : load_with cls d m = Ok (c, m') ->
    loading (new_component cls) (parts d) m = (c, None, []) /\ m' = [].
  Proof.
    unfold M_Build.load_with. destruct (load _ _ _ _ _ _ _ _ _) as ((c0, [e |]), m0) eqn:E; [discriminate |]. intros [= <- <-].
    assert (m0 = []) as ->.
    { apply load_ok in E. destruct E as (? & ? & ? & ? & ? & ? & ? & _ & _ & _ & _ & _ & _ & _ & _ & _ & _ & _ & _ & H). exact H. }
    split; reflexivity.
  Qed.

  Lemma load_class_ok v cls : load_class known_class v = Ok cls -> v = VStr cls /\ known_class cls = true.
  Proof. destruct v; cbn; try discriminate. destruct (known_class s) eqn:K; [| discriminate]. intros [= <-]. auto. Qed.

  Lemma load_class_in_ok p v cls : load_class_in known_class p v = Ok cls ->
    exists s, v = VStr s /\ cls = (p ++ s)%string /\ known_class cls = true.
  Proof. destruct v; cbn; try discriminate. destruct (known_class _) eqn:K; [| discriminate]. intros [= <-]. eauto. Qed.

  Lemma make_module_made cls settings c : make_module rv kind_of git hook_of names_of cls settings = Ok c ->
    Made (hooks cls) cls (override (only "config_data" VNone) (fun k => dget k settings)) c.
  Proof.
    unfold make_module. destruct (dmem "config_data" settings) eqn:D; [discriminate |]. intros H. apply make_ok in H.
    exists (("config_data", AScalar VNone) :: keywords settings). split; [exact H |]. intros k. cbn [dget]. unfold override, only.
    destruct (String.eqb k "config_data"); [exists VNone; split; [constructor | reflexivity] |].
    rewrite keywords_get. destruct (dget k settings) as [v |]; cbn; [| reflexivity]. exists v. split; [apply arg_of_value | reflexivity].
  Qed.

  Lemma made_ext h cls s s' c : (forall k, s k = s' k) -> Made h cls s c -> Made h cls s' c.
  Proof. intros E (kw & H & G). exists kw. split; [exact H |]. intros k. rewrite <- E. exact (G k). Qed.

  Lemma override_ext o a b k : (forall k, a k = b k) -> override o a k = override o b k.
  Proof. intros E. unfold override. rewrite E. reflexivity. Qed.

  Lemma misc_module config updates x : dwf updates ->
    misc_replacement rv kind_of git hook_of names_of config updates = Ok x -> MiscModule hooks config updates x.
  Proof.
    intros W H. unfold misc_replacement in H. obind H r ER. unfold MiscModule. destruct (dget "seed_names" updates) as [names |] eqn:S; [| injection H as <-; reflexivity].
    destruct (veqb _ _); [injection H as <-; reflexivity |].
    obind H seed E1. obind H pars E2. obind H prec E3. obind H miss E4. obind H missd E5. obind H c EC. injection H as <-.
    exists c. split; [reflexivity |]. apply make_module_made in EC. eapply made_ext; [| exact EC]. intros k. apply override_ext. clear k. intros k.
    rewrite dget_dupdate by exact W. unfold override.
    destruct (dget k updates); [reflexivity |]. unfold seed_defaults.
    assert (F : forall x v, vget r x = Ok v -> found (VDict config) ["reconstruction_settings"; x] = Some v).
    { intros y v E. rewrite (found_cons _ _ _ _ ER). apply vget_found, E. }
    rewrite (F _ _ E1), (F _ _ E2), (F _ _ E3), (F _ _ E4), (F _ _ E5). cbn [dget option_map].
    repeat match goal with |- (if ?b then _ else _) = _ => destruct b; [reflexivity |] end. reflexivity.
  Qed.

  Lemma update_settings_ok config key updates new config' : dwf updates -> update_settings config key updates = Ok (new, config') ->
    exists h s, dget "data_handler_settings" config = Some (VDict h) /\ dget key h = Some (VDict s) /\
      new = dupdate s updates /\ config' = dset "data_handler_settings" (VDict (dset key (VDict new) h)) config /\
      forall k, dget k new = override (fun k => dget k updates) (settings_at config ["data_handler_settings"; key]) k.
  Proof.
    intros W H. unfold update_settings in H. obind H h EH. obind H hd EHD. obind H s ES. destruct s as [| | | | | | sd]; try discriminate.
    injection H as <- <-. destruct h as [| | | | | | h]; try discriminate EHD. injection EHD as <-.
    exists h, sd. cbn in EH. destruct (dget "data_handler_settings" config) eqn:E; [injection EH as -> | discriminate].
    cbn in ES. destruct (dget key h) eqn:E'; [injection ES as -> | discriminate]. repeat split.
    intros k. rewrite dget_dupdate by exact W. unfold override, settings_at. destruct (dget k updates); [reflexivity |].
    cbn [app found]. rewrite E, E'. cbn [found]. destruct (dget k sd); reflexivity.
  Qed.

  Lemma label_module config ll updates x config' : dwf updates ->
    label_replacement rv known_class kind_of git hook_of names_of config ll updates = Ok (x, config') ->
    LabelModule hooks config ll updates x /\ (config' = config \/ ll = true /\ exists new, update_settings config "label_settings" updates = Ok (new, config')).
  Proof.
    intros W H. unfold label_replacement in H. destruct ll; cbn [negb] in H.
    - destruct updates as [| u us] eqn:U; [injection H as <- <-; split; [reflexivity | left; reflexivity] |]. rewrite <- U in *.
      obind H nc EN. obind H h EH. obind H name EL. obind H cls EC. obind H c EM. injection H as <- <-. destruct nc as (new, config').
      split; [| right; split; [reflexivity | exists new; exact EN]].
      unfold LabelModule. rewrite U. rewrite <- U. apply load_class_in_ok in EC as (s & -> & -> & _). exists c, s. split; [reflexivity |].
      split; [rewrite (found_cons _ _ _ _ EH); apply vget_found; exact EL |].
      apply make_module_made in EM. eapply made_ext; [| exact EM]. intros k. apply override_ext. clear k. intros k.
      cbn [fst]. destruct (update_settings_ok _ _ _ _ _ W EN) as (h' & s' & _ & _ & _ & _ & G). exact (G k).
    - obind H cls EC. obind H c EM. injection H as <- <-. split; [| left; reflexivity]. cbn [LabelModule]. exists c. split; [reflexivity |].
      apply load_class_in_ok in EC as (s & [= <-] & -> & _). apply make_module_made in EM. eapply made_ext; [| exact EM].
      intros k. unfold override. destruct (only _ _ k); reflexivity.
  Qed.

  Lemma data_module config updates x config' : dwf updates ->
    data_replacement rv known_class kind_of git hook_of names_of config updates = Ok (x, config') ->
    DataModule hooks config updates x /\ (config' = config /\ updates = [] \/ exists new, update_settings config "data_settings" updates = Ok (new, config')).
  Proof.
    intros W H. unfold data_replacement in H. destruct updates as [| u us] eqn:U; [injection H as <- <-; split; [reflexivity | left; split; reflexivity] |].
    rewrite <- U in *. obind H h EH. obind H hd EHD. obind H name EL. obind H cls EC. obind H nc EN. obind H c EM. injection H as <- <-.
    destruct nc as (new, config'). split; [| right; exists new; exact EN]. unfold DataModule. rewrite U. rewrite <- U.
    apply load_class_in_ok in EC as (s & -> & -> & _). exists c, s. split; [reflexivity |].
    split; [rewrite (found_cons _ _ _ _ EH); apply vget_found; exact EL |].
    apply make_module_made in EM. eapply made_ext; [| exact EM]. intros k. apply override_ext. clear k. intros k.
    cbn [fst]. destruct (update_settings_ok _ _ _ _ _ W EN) as (h' & s' & _ & _ & _ & _ & G). exact (G k).
  Qed.

  Lemma data_module_config config config1 ll lu du new x : update_settings config "label_settings" lu = Ok (new, config1) -> dwf lu ->
    DataModule hooks config1 du x -> ll = true -> DataModule hooks config du x.
  Proof.
    intros EN W D _. destruct (update_settings_ok _ _ _ _ _ W EN) as (h & s & E & E' & -> & -> & _). unfold DataModule in *.
    destruct du as [| u us] eqn:U; [exact D |]. rewrite <- U in *. destruct D as (c & name & -> & F & M). exists c, name. split; [reflexivity |].
    assert (G : forall k ks, k <> "label_settings" -> found (VDict (dset "data_handler_settings" (VDict (dset "label_settings" (VDict (dupdate s lu)) h)) config)) ("data_handler_settings" :: k :: ks)
      = found (VDict config) ("data_handler_settings" :: k :: ks)).
    { intros k ks N. cbn [found]. rewrite dget_dset_same, E. rewrite dget_dset_other by exact N. reflexivity. }
    split; [rewrite G in F by discriminate; exact F |]. eapply made_ext; [| exact M]. intros k. unfold override, settings_at. cbn [app].
    rewrite G by discriminate. reflexivity.
  Qed.

  (** ** Loading the managers *)

  Notation StoredIn := (S_Build.StoredIn known_class loading parts read).

  Notation load_dirs := (M_Build.load_dirs rv known_class kind_of rebuild_tensors fuel fs parts git hook_of names_of read).
  Notation build_manager := (M_Build.build_manager rv known_class kind_of rebuild_tensors fuel fs parts git hook_of names_of).

  Lemma restored dir config config_i m c m' : with_manager_dir config dir = Ok config_i ->
    build_manager config_i true None None None m false = Ok (c, m') ->
    exists cls, found (VDict config) ["model_manager_settings"; "model_manager_class"] = Some (VStr cls) /\ known_class cls = true /\
      loading (new_component cls) (parts dir) m = (c, None, []) /\ m' = [].
  Proof.
    intros W H. unfold with_manager_dir in W. obind W s ES. obind W sd ESD. obind W c0 EC. obind W cd ECD. injection W as <-.
    unfold M_Build.build_manager in H. obind H s1 E1. obind H c1 E2. obind H d E3. obind H name E4. obind H cls E5.
    cbn in E1. rewrite dget_dset_same in E1. injection E1 as <-. cbn in E2. rewrite dget_dset_same in E2. injection E2 as <-.
    cbn in E3. rewrite dget_dset_same in E3. injection E3 as <-. cbn in E4. rewrite dget_dset_other in E4 by discriminate.
    apply load_class_ok in E5 as (-> & K). exists cls. split; [| split; [exact K |]].
    - rewrite (found_cons _ _ _ _ ES). destruct s; cbn in ESD; try discriminate. injection ESD as ->. cbn. destruct (dget "model_manager_class" sd); [injection E4 as ->; reflexivity | discriminate].
    - exact (load_with_ok _ _ _ _ _ H).
  Qed.

  Lemma load_dirs_plain l : forall models last ms lst, load_dirs l [] models last = Ok (ms, lst) ->
    exists cs lists, Forall2 (fun d c => StoredIn d [] c) l cs /\ Forall2 (fun c x => models_held c = Some x) cs lists /\
      ms = models ++ concat lists /\ lst = List.last (map Some cs) last.
  Proof.
    induction l as [| d l IH]; intros models last ms lst H; cbn [M_Build.load_dirs] in H.
    - injection H as <- <-. exists [], []. repeat split; try constructor. cbn. rewrite app_nil_r. reflexivity.
    - obind H config ER. obind H ci EW. obind H mm EB. destruct mm as (c, m'). cbn [fst snd] in H.
      destruct (models_held c) as [x |] eqn:EM; [| discriminate]. destruct (restored _ _ _ _ _ _ EW EB) as (cls & F & K & L & ->).
      destruct (IH _ _ _ _ H) as (cs & lists & A & B & -> & ->). exists (c :: cs), (x :: lists). split; [| split; [| split]].
      + constructor; [exists config, cls; repeat (split; [assumption |]); exists d; auto | exact A].
      + constructor; assumption.
      + cbn [concat]. rewrite app_assoc. reflexivity.
      + cbn [map]. destruct cs as [| c' cs]; [reflexivity |]. cbn [map]. change (List.last (Some c :: Some c' :: map Some cs) last) with (List.last (Some c' :: map Some cs) last).
        clear. revert c'. induction cs as [| c'' cs IH]; intros c'; [reflexivity |]. cbn [map]. exact (IH c'').
  Qed.

  Lemma load_dirs_ok d l m ms lst : load_dirs (d :: l) m [] None = Ok (ms, lst) ->
    exists c cs lists, StoredIn d m c /\ Forall2 (fun d c => StoredIn d [] c) l cs /\
      Forall2 (fun c x => models_held c = Some x) (c :: cs) lists /\ ms = concat lists /\ lst = Some (List.last cs c).
  Proof.
    intros H. cbn [M_Build.load_dirs] in H. obind H config ER. obind H ci EW. obind H mm EB. destruct mm as (c, m'). cbn [fst snd] in H.
    destruct (models_held c) as [x |] eqn:EM; [| discriminate]. destruct (restored _ _ _ _ _ _ EW EB) as (cls & F & K & L & ->).
    destruct (load_dirs_plain _ _ _ _ _ H) as (cs & lists & A & B & -> & ->). exists c, cs, (x :: lists). repeat split.
    - exists config, cls. repeat (split; [assumption |]). exists d. auto.
    - exact A.
    - constructor; assumption.
    - clear. induction cs as [| c' [| c'' cs] IH]; [reflexivity | reflexivity | exact IH].
  Qed.

  (** ** The manager *)

  Lemma manager_made cls config h models mg : kind_of cls = KManager ->
    make cls [("config", arg_of config); ("data_handler", AComp h); ("models", ASeq false (map IComp models))] = Ok mg ->
    k_class mg = cls /\ k_configured mg = true /\ k_subs mg = sub_components h models /\ models <> [] /\
    check_models rv names_of models = None /\ manager_check rv (sub_components h models) (sub_components h models) = None /\
    (exists cf, k_conf mg = Some cf /\ dget "config" (co_config cf) = Some config).
  Proof.
    intros K H. destruct (make_class _ _ _ H) as (HC & HF). split; [exact HC |]. split; [exact HF |].
    apply make_ok in H. apply configure_ok in H as (_ & _ & ms & ps & out & cf & subs & Ecol & Eh & ES & EA & _ & _ & _ & ->).
    unfold class_hook in Eh. rewrite K in Eh. unfold manager_hook in Eh. cbn [dget String.eqb Ascii.eqb Bool.eqb] in Eh.
    rewrite item_components_all in Eh. cbn [bind] in Eh. destruct (manager_check rv _ _) eqn:EM; [discriminate |].
    destruct (check_models _ _ _) eqn:EK; [discriminate |]. rewrite arg_value_of in Eh. obind Eh cf0 EN. injection Eh as <-. cbn [h_subs h_conf] in *.
    cbn [k_subs k_conf]. destruct ES as [(X & _) | X]; [discriminate |]. injection X as <-. split; [reflexivity |].
    split; [intros ->; discriminate EK |]. split; [reflexivity |]. split; [reflexivity |]. eexists. split; [reflexivity |]. cbn [co_config].
    assert (NC : co_config cf = co_config cf0).
    { clear - EA. revert cf0 EA. induction ps as [| (n, c) ps IH]; intros cf0 H; cbn [add_sub_components] in H; [injection H as ->; reflexivity |].
      destruct (dmem _ _); [discriminate |]. destruct (negb _); [discriminate |]. destruct (conf_dict c); [| discriminate]. apply IH in H. exact H. }
    rewrite NC. unfold new_configuration, configuration_init in EN. cbn in EN. injection EN as <-. reflexivity.
  Qed.

  (** ** Modules of the data handler of a loaded manager *)

  Lemma replacements_eq misc label data : replacements misc label data = request misc label data.
  Proof. destruct misc, label, data; reflexivity. Qed.

  Lemma subs_wf misc label data : dwf (requested misc label data).
  Proof.
    unfold dwf. destruct misc, label, data; cbn; repeat constructor; cbn; intuition discriminate.
  Qed.

  Lemma handler_modules cls p misc label data c :
    (forall q cfg, fs q FConf = Some (CConf cfg) -> NoDup (c_dep cfg)) ->
    loading (new_component cls) p (request misc label data) = (c, None, []) ->
    match requested misc label data with
    | [] => True
    | d => exists h, handler_held c = Some h /\
        (forall n r, dget n d = Some (MComp r) -> dget n (k_subs h) = Some r) /\
        (forall n s, dget n (k_subs h) = Some s -> dget n d = None ->
           exists cls' f m', load rv known_class kind_of rebuild_tensors f fs (new_component cls')
             ((splitext_path (splitext_path p ++ ["data_handler"])) ++ [n]) [] = (s, None, m'))
    end.
  Proof.
    intros ND L. unfold request in L. pose proof (subs_wf misc label data) as WF.
    destruct (requested misc label data) as [| x d] eqn:SD; [exact I |]. rewrite <- SD in *. clear SD x d. set (d := requested misc label data) in *.
    pose proof L as L0. apply load_ok in L0 as (fuel' & cfg & cf0 & v & self3 & upd & self4 & -> & _ & _ & F1 & _).
    assert (W1 : dwf [("data_handler", MDict d)]) by (repeat constructor; intros []).
    destruct (load_replace _ _ _ _ _ _ _ _ _ _ _ _ W1 F1 (ND _ _ F1) L) as (cf & _ & _ & HK & HI & HO & _).
    destruct (HO "data_handler"%string) as (rec & h & rec' & _ & HG & _ & OUT); [apply HI; left; reflexivity |].
    exists h. split; [exact HG |]. cbn in OUT. inversion OUT as [| nd r0 s m' rec'' L1 CD |]; subst.
    pose proof L1 as L2. apply load_ok in L2 as (fuel2 & cfg2 & cf2 & v2 & self32 & upd2 & self42 & -> & _ & _ & F2 & _).
    destruct (load_replace _ _ _ _ _ _ _ _ _ _ _ _ WF F2 (ND _ _ F2) L1) as (cf3 & _ & _ & HK2 & HI2 & HO2 & _).
    split.
    - intros n r D. destruct (HO2 n) as (rec2 & fin & rec2' & _ & G & _ & O2); [apply HI2; eapply dget_Some_In_keys; exact D |].
      rewrite D in O2. inversion O2; subst. exact G.
    - intros n s G D. destruct (HO2 n) as (rec2 & fin & rec2' & _ & G2 & _ & O2); [rewrite <- HK2; eapply dget_Some_In_keys; exact G |].
      rewrite D in O2. inversion O2; subst. rewrite G in G2. injection G2 as <-. do 3 eexists. eassumption.
  Qed.

  (** ** What the functions build *)

  Notation LoadedFrom := (S_Build.LoadedFrom loading parts).

  Lemma arg_of_passed v : arg_of v = passed v.
  Proof. destruct v; reflexivity. Qed.

  Lemma made_of cls config parts' c : make cls (("config", arg_of config) :: parts') = Ok c <-> MadeOf (hooks cls) cls config parts' c.
  Proof. rewrite make_ok, arg_of_passed. reflexivity. Qed.

  Lemma load_class_iff v cls : load_class known_class v = Ok cls <-> v = VStr cls /\ known_class cls = true.
  Proof. split; [apply load_class_ok |]. intros (-> & K). cbn. rewrite K. reflexivity. Qed.

  Lemma bind_iff {A B} (r : result A) (f : A -> result B) b : bind r f = Ok b <-> exists a, r = Ok a /\ f a = Ok b.
  Proof. split; [apply bind_ok |]. intros (a & -> & E). exact E. Qed.

  Lemma found_two v k1 k2 x : found v [k1; k2] = Some x <-> exists y, found v [k1] = Some y /\ found y [k2] = Some x.
  Proof.
    destruct v; cbn; try (split; [discriminate | intros (y & E & _); discriminate]). destruct (dget k1 d) as [y |].
    - split; [intros H; exists y; split; [reflexivity | exact H] | intros (y' & [= <-] & H); exact H].
    - split; [discriminate | intros (y & E & _); discriminate].
  Qed.

  Lemma load_at_iff cls dir c : load_at rv known_class kind_of rebuild_tensors fuel fs parts cls dir = Ok c <-> LoadedFrom cls dir [] c.
  Proof.
    unfold load_at, S_Build.LoadedFrom. destruct dir; try (split; [discriminate | intros (d' & E & _); discriminate E]).
    rewrite bind_iff. split.
    - intros ((c0, m) & L & [= <-]). apply load_with_ok in L as (L & ->). exists s. auto.
    - intros (d & [= <-] & L). exists (c, []). split; [| reflexivity]. unfold M_Build.load_with. rewrite L. reflexivity.
  Qed.

  Lemma loss_iff s c : build_loss rv known_class kind_of git hook_of names_of s = Ok c <-> LossFrom hooks known_class s c.
  Proof.
    unfold build_loss, LossFrom. rewrite bind_iff. split.
    - intros (name & E1 & H). obind H cls E2. obind H config E3. apply load_class_ok in E2 as (-> & K). exists cls, config.
      apply vget_found in E1, E3. apply made_of in H. auto.
    - intros (cls & config & E1 & K & E3 & H). exists (VStr cls). apply vget_found in E1, E3. split; [exact E1 |].
      cbn. rewrite K. cbn [bind]. rewrite E3. cbn [bind]. apply made_of. exact H.
  Qed.

  Lemma losses_iff l cs : build_losses rv known_class kind_of git hook_of names_of l = Ok cs <-> Forall2 (LossFrom hooks known_class) l cs.
  Proof.
    revert cs. induction l as [| s l IH]; intros cs; cbn [build_losses].
    - split; [intros [= <-]; constructor | inversion 1; reflexivity].
    - rewrite bind_iff. split.
      + intros (c & E & H). obind H cs' E2. injection H as <-. constructor; [apply loss_iff; exact E | apply IH; exact E2].
      + inversion 1; subst. eexists. split; [apply loss_iff; eassumption |]. apply bind_iff. eexists. split; [apply IH; eassumption | reflexivity].
  Qed.

  Lemma loss_module_iff config c : build_loss_module rv known_class kind_of git hook_of names_of config = Ok c <-> LossOf hooks known_class config c.
  Proof.
    unfold build_loss_module, LossOf. rewrite bind_iff.
    assert (L : forall l, bind (build_losses rv known_class kind_of git hook_of names_of l) (fun cs => make multi_class [("loss_modules", ASeq false (map IComp cs))]) = Ok c
      <-> exists cs, Forall2 (LossFrom hooks known_class) l cs /\ SumOf hooks cs c).
    { intros l. rewrite bind_iff. split; intros (cs & E & H); exists cs; (split; [apply losses_iff; exact E | apply make_ok; exact H]). }
    split; intros (s & E & H); exists s; (split; [apply vget_found; exact E |]); destruct s as [| | | [| a s] | | |]; try discriminate; try contradiction.
    - apply make_ok. exact H.
    - apply L. exact H.
    - apply L. exact H.
    - apply loss_iff. exact H.
    - apply make_ok. exact H.
    - apply L. exact H.
    - apply L. exact H.
    - apply loss_iff. exact H.
  Qed.

  Lemma handler_iff config c : build_data_handler rv known_class kind_of git hook_of names_of config = Ok c <-> HandlerOf hooks known_class config c.
  Proof.
    unfold build_data_handler, HandlerOf. rewrite bind_iff. split.
    - intros (s & E1 & H). obind H name E2. obind H cls E3. apply load_class_in_ok in E3 as (x & -> & -> & K). exists s, x.
      apply vget_found in E1, E2. apply made_of in H. auto.
    - intros (s & name & E1 & E2 & K & H). exists s. apply vget_found in E1, E2. split; [exact E1 |]. rewrite E2. cbn [bind load_class_in load_class].
      rewrite K. cbn [bind]. apply made_of. exact H.
  Qed.

  Lemma trafo_iff config t :
    bind (vget config "data_trafo_settings") (fun x => bind (vget x "model_dir") (load_at rv known_class kind_of rebuild_tensors fuel fs parts trafo_class)) = Ok t
    <-> TrafoFrom loading parts config t.
  Proof.
    unfold TrafoFrom. rewrite bind_iff. split.
    - intros (x & E & H). obind H dir E2. exists dir. split; [apply found_two; exists x; split; apply vget_found; assumption | apply load_at_iff; exact H].
    - intros (dir & F & L). apply found_two in F as (x & F1 & F2). exists x. apply vget_found in F1, F2. split; [exact F1 |]. rewrite F2. cbn [bind].
      apply load_at_iff. exact L.
  Qed.

  Lemma base_iff trafo allow s c : build_base rv known_class kind_of rebuild_tensors fuel fs parts git hook_of names_of trafo allow s = Ok c
    <-> BaseFrom hooks known_class loading parts trafo allow s c.
  Proof.
    unfold build_base, BaseFrom. rewrite bind_iff.
    assert (D : forall v cls, found v ["model_class"] = Some (VStr cls) -> exists d, v = VDict d) by (intros [] cls; cbn; try discriminate; eauto).
    assert (R : forall cls, known_class cls = true -> found s ["model_class"] = Some (VStr cls) ->
      (bind (vmem s "load_dir") (fun given => bind (if given : bool then vget s "load_dir" else Ok VNone) (fun dir =>
         match dir with
         | VNone => if negb allow then Err ValueError else
             bind (vmem s "data_trafo_settings") (fun own =>
             bind (if own : bool then bind (vget s "data_trafo_settings") (fun t => bind (vget t "model_dir") (load_at rv known_class kind_of rebuild_tensors fuel fs parts trafo_class))
                   else Ok trafo) (fun data_trafo =>
             bind (vget s "config") (fun config => make cls [("config", arg_of config); ("data_trafo", AComp data_trafo)])))
         | _ => load_at rv known_class kind_of rebuild_tensors fuel fs parts cls dir
         end)) = Ok c <->
       match found s ["load_dir"] with
       | Some VNone | None => allow = true /\ exists config t, found s ["config"] = Some config /\
           match found s ["data_trafo_settings"] with Some _ => TrafoFrom loading parts s t | None => t = trafo end /\
           MadeOf (hooks cls) cls config [("data_trafo", AComp t)] c
       | Some dir => LoadedFrom cls dir [] c
       end)).
    { intros cls K F. destruct (D _ _ F) as (d & ->).
      assert (NONE : (if negb allow then Err ValueError else
             bind (vmem (VDict d) "data_trafo_settings") (fun own =>
             bind (if own : bool then bind (vget (VDict d) "data_trafo_settings") (fun t => bind (vget t "model_dir") (load_at rv known_class kind_of rebuild_tensors fuel fs parts trafo_class))
                   else Ok trafo) (fun data_trafo =>
             bind (vget (VDict d) "config") (fun config => make cls [("config", arg_of config); ("data_trafo", AComp data_trafo)])))) = Ok c <->
        (allow = true /\ exists config t, found (VDict d) ["config"] = Some config /\
           match found (VDict d) ["data_trafo_settings"] with Some _ => TrafoFrom loading parts (VDict d) t | None => t = trafo end /\
           MadeOf (hooks cls) cls config [("data_trafo", AComp t)] c)).
      { destruct allow; cbn [negb]; [| split; [discriminate | intros (E & _); discriminate]].
        assert (T : forall t, (if dmem "data_trafo_settings" d then bind (vget (VDict d) "data_trafo_settings") (fun t => bind (vget t "model_dir") (load_at rv known_class kind_of rebuild_tensors fuel fs parts trafo_class))
                   else Ok trafo) = Ok t <-> match found (VDict d) ["data_trafo_settings"] with Some _ => TrafoFrom loading parts (VDict d) t | None => t = trafo end).
        { intros t. unfold dmem. cbn [found]. destruct (dget "data_trafo_settings" d) eqn:E; [apply trafo_iff |]. split; [intros [= <-] | intros ->]; reflexivity. }
        cbn [vmem bind]. rewrite bind_iff. split.
        - intros (t & E & H). obind H config E2. split; [reflexivity |]. exists config, t. split; [apply vget_found; exact E2 |]. split; [apply T; exact E | apply made_of; exact H].
        - intros (_ & config & t & E & M & H). exists t. split; [apply T; exact M |]. apply bind_iff. exists config. split; [apply vget_found; exact E | apply made_of; exact H]. }
      cbn [vmem bind]. unfold dmem at 1. cbn [found vget]. destruct (dget "load_dir" d) as [dir |]; cbn [bind].
      - destruct dir; try apply load_at_iff. exact NONE.
      - exact NONE. }
    split.
    - intros (name & E1 & H). obind H cls E2. apply load_class_ok in E2 as (-> & K). exists cls. apply vget_found in E1. split; [exact E1 |]. split; [exact K |].
      apply (R cls K E1). exact H.
    - intros (cls & E1 & K & H). exists (VStr cls). split; [apply vget_found; exact E1 |]. cbn [load_class]. rewrite K. cbn [bind]. apply (R cls K E1). exact H.
  Qed.

  Lemma bases_iff trafo allow l cs : build_bases rv known_class kind_of rebuild_tensors fuel fs parts git hook_of names_of trafo allow l = Ok cs
    <-> Forall2 (fun described held : string * _ => fst held = fst described /\ BaseFrom hooks known_class loading parts trafo allow (snd described) (snd held)) l cs.
  Proof.
    revert cs. induction l as [| (n, s) l IH]; intros cs; cbn [build_bases].
    - split; [intros [= <-]; constructor | inversion 1; reflexivity].
    - rewrite bind_iff. split.
      + intros (c & E & H). obind H cs' E2. injection H as <-. constructor; [split; [reflexivity | apply base_iff; exact E] | apply IH; exact E2].
      + inversion 1 as [| ? (n', c) ? cs' (EN & B) F]; subst. cbn in EN, B. subst n'. eexists. split; [apply base_iff; eassumption |].
        apply bind_iff. exists cs'. split; [apply IH; exact F | reflexivity].
  Qed.

  Lemma model_iff config trafo allow c : build_model rv known_class kind_of rebuild_tensors fuel fs parts git hook_of names_of config trafo allow = Ok c
    <-> ModelOf hooks known_class loading parts config trafo allow c.
  Proof.
    unfold build_model, ModelOf. rewrite bind_iff.
    assert (B : forall d bases,
      (if dmem "multi_source_bases" d
       then bind (vget (VDict d) "multi_source_bases") (fun b => match b with VDict l => build_bases rv known_class kind_of rebuild_tensors fuel fs parts git hook_of names_of trafo allow l | _ => Err AttributeError end)
       else Ok []) = Ok bases <->
      match found (VDict d) ["multi_source_bases"] with
      | None => bases = []
      | Some (VDict l) => Forall2 (fun described held : string * _ => fst held = fst described /\ BaseFrom hooks known_class loading parts trafo allow (snd described) (snd held)) l bases
      | Some _ => False
      end).
    { intros d bases. unfold dmem. cbn [found vget]. destruct (dget "multi_source_bases" d) as [b |]; cbn [bind].
      - destruct b; try (split; [discriminate | contradiction]). apply bases_iff.
      - split; [intros [= <-] | intros ->]; reflexivity. }
    split.
    - intros (s & E & H). obind H several E2. obind H bases E3. obind H name E4. obind H cls E5. obind H cf E6.
      apply load_class_ok in E5 as (-> & K). destruct s as [| | | | | | d]; try discriminate E2. cbn in E2. injection E2 as <-. apply vget_found in E.
      exists cls, cf, bases. split; [apply found_two; exists (VDict d); split; [exact E | apply vget_found; exact E4] |]. split; [exact K |].
      split; [apply found_two; exists (VDict d); split; [exact E | apply vget_found; exact E6] |].
      split; [| apply made_of; exact H]. apply B in E3. destruct config; try discriminate E. cbn [found] in E |- *. destruct (dget "model_settings" d0); [| discriminate].
      injection E as ->. exact E3.
    - intros (cls & cf & bases & F1 & K & F2 & MB & H). apply found_two in F1 as (s & E & F1). apply found_two in F2 as (s' & E' & F2). rewrite E in E'. injection E' as <-.
      destruct s as [| | | | | | d]; try discriminate F1. exists (VDict d). split; [apply vget_found; exact E |]. cbn [vmem bind]. apply bind_iff. exists bases. split.
      + apply B. destruct config; try discriminate E. cbn [found] in E, MB |- *. destruct (dget "model_settings" d0); [| discriminate]. injection E as ->. exact MB.
      + apply vget_found in F1, F2. rewrite F1. cbn [bind load_class]. rewrite K. cbn [bind]. rewrite F2. cbn [bind]. apply made_of. exact H.
  Qed.

  Lemma manager_iff config dh dt models m allow c m' :
    build_manager config false dh dt models m allow = Ok (c, m') <-> m' = m /\ ManagerOf hooks known_class loading parts config dh dt models allow c.
  Proof.
    unfold M_Build.build_manager, ManagerOf. rewrite bind_iff. split.
    - intros (s & E1 & H). obind H cf E2. obind H dir E3. obind H name E4. obind H cls E5. obind H h E6. obind H t E7. obind H l E8. obind H mg E9.
      injection H as <- <-. split; [reflexivity |]. apply load_class_ok in E5 as (-> & K). apply vget_found in E1, E2, E3, E4.
      exists cls, cf, dir, h, t, l. split; [apply found_two; exists s; auto |]. split; [exact K |]. split; [apply found_two; exists s; auto |]. split; [exact E3 |].
      split; [destruct dh; [injection E6 as <-; reflexivity | apply handler_iff; exact E6] |].
      split; [destruct dt; [injection E7 as <-; reflexivity | apply trafo_iff; exact E7] |].
      split; [| apply made_of; exact E9].
      destruct models as [l0 |]; [injection E8 as <-; reflexivity |]. obind E8 x EX. injection E8 as <-. exists x. split; [apply model_iff; exact EX | reflexivity].
    - intros (-> & cls & cf & dir & h & t & l & F1 & K & F2 & F3 & H1 & H2 & H3 & H4).
      apply found_two in F1 as (s & E & F1). apply found_two in F2 as (s' & E' & F2). rewrite E in E'. injection E' as <-. exists s. apply vget_found in E, F1, F2, F3.
      split; [exact E |]. rewrite F2. cbn [bind]. rewrite F3. cbn [bind]. rewrite F1. cbn [bind load_class]. rewrite K. cbn [bind].
      apply bind_iff. exists h. split; [destruct dh; [subst; reflexivity | apply handler_iff; exact H1] |].
      apply bind_iff. exists t. split; [destruct dt; [subst; reflexivity | apply trafo_iff; exact H2] |].
      apply bind_iff. exists l. split; [destruct models; [subst; reflexivity |]; destruct H3 as (x & MO & ->); apply bind_iff; exists x; split; [apply model_iff; exact MO | reflexivity] |].
      apply bind_iff. exists c. split; [apply made_of; exact H4 | reflexivity].
  Qed.

  Lemma restore_iff config dh dt models m allow c m' :
    build_manager config true dh dt models m allow = Ok (c, m') <->
    m' = [] /\ exists cls dir, found config ["model_manager_settings"; "model_manager_class"] = Some (VStr cls) /\ known_class cls = true /\
      found config ["model_manager_settings"; "config"; "manager_dir"] = Some dir /\ LoadedFrom cls dir m c.
  Proof.
    unfold M_Build.build_manager. rewrite bind_iff.
    assert (F3 : forall a b k1 k2 k3 x, found config [k1] = Some a -> found a [k2] = Some b -> found b [k3] = Some x -> found config [k1; k2; k3] = Some x).
    { intros a b k1 k2 k3 x A B C. rewrite (found_cons config k1 _ a) by (apply vget_found; exact A). rewrite (found_cons a k2 _ b) by (apply vget_found; exact B). exact C. }
    split.
    - intros (s & E1 & H). obind H cf E2. obind H dir E3. obind H name E4. obind H cls E5. apply load_class_ok in E5 as (-> & K). apply vget_found in E1, E2, E3, E4.
      destruct dir as [| | | d | | |]; try discriminate H. apply load_with_ok in H as (L & ->). split; [reflexivity |]. exists cls, (VStr d).
      split; [apply found_two; exists s; auto |]. split; [exact K |]. split; [eapply F3; eassumption | exists d; auto].
    - intros (-> & cls & dir & F1 & K & F2 & d & -> & L). apply found_two in F1 as (s & E & F1). exists s. split; [apply vget_found; exact E |].
      rewrite (found_cons config _ _ s) in F2 by (apply vget_found; exact E). apply found_two in F2 as (cf & E2 & F2). apply vget_found in E2, F2, F1.
      rewrite E2. cbn [bind]. rewrite F2. cbn [bind]. rewrite F1. cbn [bind load_class]. rewrite K. cbn [bind]. unfold M_Build.load_with. rewrite L. reflexivity.
  Qed.

  (** ** Models that are used together *)

  Lemma str_list_eqb a b : list_eqb String.eqb a b = true <-> a = b.
  Proof.
    revert b. induction a as [| x a IH]; intros [| y b]; cbn; try (split; [discriminate | discriminate]); [split; reflexivity |].
    rewrite andb_true_iff, String.eqb_eq, IH. split; [intros (-> & ->); reflexivity | intros [= -> ->]; auto].
  Qed.

  Lemma ensemble_iff names t0 models : ensemble_check rv names_of names t0 models = None <->
    forall m, In m models -> names_of m = names /\ exists t, dget "data_trafo" (k_subs m) = Some t /\ SameTrafo rv t0 t.
  Proof.
    induction models as [| m models IH]; cbn [ensemble_check]; [split; [intros _ m [] | reflexivity] |].
    assert (S : (forall m', In m' (m :: models) -> names_of m' = names /\ exists t, dget "data_trafo" (k_subs m') = Some t /\ SameTrafo rv t0 t) <->
      (names_of m = names /\ exists t, dget "data_trafo" (k_subs m) = Some t /\ SameTrafo rv t0 t) /\
      (forall m', In m' models -> names_of m' = names /\ exists t, dget "data_trafo" (k_subs m') = Some t /\ SameTrafo rv t0 t)).
    { split; [intros H; split; [apply H; left; reflexivity | intros m' I; apply H; right; exact I] | intros (H1 & H2) m' [<- | I]; auto]. }
    rewrite S, <- IH. clear S IH.
    destruct (list_eqb String.eqb names (names_of m)) eqn:EN; cbn [negb].
    2:{ split; [discriminate |]. intros ((E & _) & _). symmetry in E. apply str_list_eqb in E. congruence. }
    apply str_list_eqb in EN. destruct (dget "data_trafo" (k_subs m)) as [t |] eqn:ET; [| split; [discriminate | intros ((_ & t & E & _) & _); discriminate]].
    destruct (conf_dict t0) as [c0 |] eqn:E0.
    2:{ split; [discriminate |]. intros ((_ & t' & _ & c0 & ? & ? & ? & X & _) & _). congruence. }
    destruct (conf_dict t) as [c1 |] eqn:E1.
    2:{ split; [discriminate |]. intros ((_ & t' & E & ? & c1 & ? & ? & _ & X & _) & _). injection E as <-. congruence. }
    destruct (is_compatible rv c0 c1) as [[|] |] eqn:EC.
    2,3: split; [discriminate |]; intros ((_ & t' & E & c0' & c1' & ? & ? & X & Y & Z & _) & _); injection E as <-; rewrite E0 in X; injection X as <-; rewrite E1 in Y; injection Y as <-; congruence.
    destruct (k_data t0) as [| | | | | | d0] eqn:K0;
      try (split; [destruct (k_data t); discriminate |]; intros ((_ & t' & E & ? & ? & ? & ? & _ & _ & _ & X & _) & _); congruence).
    destruct (k_data t) as [| | | | | | d1] eqn:K1;
      try (split; [discriminate |]; intros ((_ & t' & E & ? & ? & ? & ? & _ & _ & _ & _ & X & _) & _); injection E as <-; congruence).
    assert (N : same_names (dkeys d0) (dkeys d1) = true <-> forall k, In k (dkeys d0) <-> In k (dkeys d1)) by apply same_names_spec.
    assert (F : forallb (fun k => match dget k d0, dget k d1 with Some a, Some b => veqb a b | _, _ => false end) (dkeys d0) = true <->
      forall k, In k (dkeys d0) -> exists a b, dget k d0 = Some a /\ dget k d1 = Some b /\ veqb a b = true).
    { rewrite forallb_forall. split; intros H k I; specialize (H k I).
      - destruct (dget k d0) as [a |], (dget k d1) as [b |]; try discriminate. exists a, b. auto.
      - destruct H as (a & b & -> & -> & H). exact H. }
    assert (G : (exists t', Some t = Some t' /\ SameTrafo rv t0 t') <->
      (forall k, In k (dkeys d0) <-> In k (dkeys d1)) /\ forall k, In k (dkeys d0) -> exists a b, dget k d0 = Some a /\ dget k d1 = Some b /\ veqb a b = true).
    { split.
      - intros (t' & [= <-] & c0' & c1' & d0' & d1' & _ & _ & _ & X & Y & P & Q). rewrite K0 in X. injection X as <-. rewrite K1 in Y. injection Y as <-. auto.
      - intros (P & Q). exists t. split; [reflexivity |]. exists c0, c1, d0, d1. auto 8. }
    rewrite G. destruct (same_names _ _); cbn [negb].
    2:{ split; [discriminate |]. intros ((_ & P & _) & _). apply N in P. discriminate. }
    destruct (forallb _ _).
    - split; [intros H; split; [| exact H]; split; [auto |]; split; [apply N | apply F]; reflexivity | intros (_ & H); exact H].
    - split; [discriminate |]. intros ((_ & _ & Q) & _). apply F in Q. discriminate.
  Qed.

  Lemma together_iff models : check_models rv names_of models = None <-> Together rv names_of models.
  Proof.
    unfold check_models, Together. destruct models as [| m0 models]; [split; [discriminate | contradiction] |].
    destruct (dget "data_trafo" (k_subs m0)) as [t0 |].
    - rewrite ensemble_iff. split; [intros H; exists t0; split; [reflexivity | exact H] | intros (t & [= <-] & H); exact H].
    - split; [discriminate | intros (t & E & _); discriminate].
  Qed.
End Build.
