(** Property theorems on the building of components (C134-C138). *)
From Coq Require Import Decimal.
From Verif Require Import Py PyFacts PyStr PyStrFacts M_Config M_Component S_Component L_Component L_Load L_Replace L_Update T_Component
  M_Train L_Train T_Train M_Build S_Build L_Build.

Section Build.
Variable rv : string.
Variable known_class : string -> bool.
Variable kind_of : string -> kind.
Variable rebuild_tensors : dict value -> result value.
Variable fuel : nat.
Variable fs : fsys.
Variable parts : string -> path.
Variable git : value.
Variable hook_of : string -> hook.
Variable names_of : component -> list string.
Variable read : string -> result (dict value).

Notation hooks := (class_hook rv kind_of git hook_of names_of).
Notation loading := (load rv known_class kind_of rebuild_tensors fuel fs).
Notation configurator := (manager_configurator rv known_class kind_of rebuild_tensors fuel fs parts git hook_of names_of read).
Notation build_manager := (M_Build.build_manager rv known_class kind_of rebuild_tensors fuel fs parts git hook_of names_of).
Notation StoredIn := (S_Build.StoredIn known_class loading parts read).
Notation LoadedFrom := (S_Build.LoadedFrom loading parts).
Notation ManagerOf := (S_Build.ManagerOf hooks known_class loading parts).

Definition listed (d : dirs) : list string := match d with OneDir d => [d] | DirList l => l end.

(** ** C138: what a configuration builds *)

Theorem C138_handler config c :
  build_data_handler rv known_class kind_of git hook_of names_of config = Ok c <-> HandlerOf hooks known_class config c.
Proof. apply handler_iff. Qed.

Theorem C138_loss config c :
  build_loss_module rv known_class kind_of git hook_of names_of config = Ok c <-> LossOf hooks known_class config c.
Proof. apply loss_module_iff. Qed.

(** A sum of losses holds exactly its terms, in order. *)
Theorem C138_sum cs c : kind_of sum_class <> KManager -> SumOf hooks cs c ->
  dkeys (k_subs c) = map (fun i => ("loss_modules_" ++ fmt04 i)%string) (seq 0 (length cs)) /\
  forall i, dget ("loss_modules_" ++ fmt04 i) (k_subs c) = nth_error cs i.
Proof.
  intros K H. unfold SumOf in H. apply configure_ok in H as (_ & _ & ms & ps & out & cf & subs & _ & Eh & ES & _ & _ & _ & _ & ->).
  cbn [k_subs]. unfold class_hook in Eh.
  assert (Eh' : multi_hook rv git [("loss_modules", ASeq false (map IComp cs))] = Ok out).
  { destruct (kind_of sum_class); try exact Eh. congruence. }
  clear Eh. unfold multi_hook in Eh'. cbn [dget String.eqb Ascii.eqb Bool.eqb] in Eh'. rewrite item_components_all in Eh'. cbn [bind] in Eh'.
  apply bind_ok in Eh' as (cf0 & _ & Eh'). injection Eh' as <-. cbn [h_subs] in ES. destruct ES as [(X & _) | X]; [discriminate |]. injection X as <-.
  set (name := fun i : nat => ("loss_modules_" ++ fmt04 i)%string).
  assert (INJ : forall i j, name i = name j -> i = j) by (intros i j E; unfold name in E; cbn in E; injection E as E; apply fmt04_inj; exact E).
  assert (G : forall (cs : list component) n0 d, (forall i, n0 <= i -> ~ In (name i) (dkeys d)) ->
    dupdate d (combine (map name (seq n0 (length cs))) cs) = d ++ combine (map name (seq n0 (length cs))) cs).
  { clear cs. induction cs as [| x cs IH]; intros n0 d ND; cbn [length seq map combine]; [rewrite app_nil_r; reflexivity |].
    change (dupdate d ((name n0, x) :: combine (map name (seq (S n0) (length cs))) cs)) with (dupdate (dset (name n0) x d) (combine (map name (seq (S n0) (length cs))) cs)).
    assert (E : dset (name n0) x d = d ++ [(name n0, x)]).
    { specialize (ND n0 (le_n _)). clear - ND. induction d as [| (k, v) d IH]; [reflexivity |]. cbn [dset]. destruct (String.eqb_spec (name n0) k) as [EQ | NE].
      - exfalso. apply ND. left. symmetry. exact EQ.
      - cbn [app]. f_equal. apply IH. intros I. apply ND. right. exact I. }
    rewrite IH, E.
    - rewrite <- app_assoc. reflexivity.
    - intros i I. rewrite E. unfold dkeys. rewrite map_app, in_app_iff. intros [IN | [EQ | []]].
      + apply (ND i); [lia | exact IN].
      + cbn in EQ. apply INJ in EQ. lia. }
  rewrite G by (intros i _ []). cbn [app]. split.
  - clear. generalize 0. induction cs as [| x cs IH]; intros n0; cbn; [reflexivity |]. f_equal. apply IH.
  - intros i. fold (name i). replace i with (i - 0) at 2 by lia. generalize (Nat.le_0_l i). generalize 0. clear - INJ. induction cs as [| x cs IH]; intros n0 I; cbn [length seq map combine dget].
    + destruct (i - n0); reflexivity.
    + destruct (String.eqb_spec (name i) (name n0)) as [E | NE].
      * apply INJ in E. subst. rewrite Nat.sub_diag. reflexivity.
      * assert (n0 <> i) by (intros ->; apply NE; reflexivity). rewrite IH by lia. replace (i - n0) with (S (i - S n0)) by lia. reflexivity.
Qed.

(** A new manager is made of the parts given and of what the configuration
    describes for the others. *)
Theorem C138_manager config handler trafo models m allow c m' :
  build_manager config false handler trafo models m allow = Ok (c, m') <->
  m' = m /\ ManagerOf config handler trafo models allow c.
Proof. apply manager_iff. Qed.

(** A restored manager is the one stored, whatever parts are given. *)
Theorem C138_restore config handler trafo models m allow c m' :
  build_manager config true handler trafo models m allow = Ok (c, m') <->
  m' = [] /\ exists cls dir,
    found config ["model_manager_settings"; "model_manager_class"] = Some (VStr cls) /\ known_class cls = true /\
    found config ["model_manager_settings"; "config"; "manager_dir"] = Some dir /\ LoadedFrom cls dir m c.
Proof. apply restore_iff. Qed.

(** The parts that a manager holds fit together. *)
Theorem C138_held config handler trafo models m allow c m' cls :
  found config ["model_manager_settings"; "model_manager_class"] = Some (VStr cls) -> kind_of cls = KManager ->
  build_manager config false handler trafo models m allow = Ok (c, m') ->
  exists h l s cf, handler_held c = Some h /\
    match handler with Some h0 => h = h0 | None => HandlerOf hooks known_class config h end /\
    match models with
    | Some l0 => l = l0
    | None => exists x t, match trafo with Some t0 => t = t0 | None => TrafoFrom loading parts config t end /\
                          ModelOf hooks known_class loading parts config t allow x /\ l = [x]
    end /\
    Together rv names_of l /\ Forall (TrainedWith rv h) l /\
    (length l <= Nat.of_num_uint 10000%uint -> models_held c = Some l) /\
    k_class c = cls /\ k_configured c = true /\
    found config ["model_manager_settings"; "config"] = Some s /\ k_conf c = Some cf /\ dget "config" (co_config cf) = Some s.
Proof.
  intros FC K H. apply manager_iff in H as (-> & cls' & s & dir & h & t & l & F1 & KC & F2 & F3 & H1 & H2 & H3 & H4).
  rewrite FC in F1. injection F1 as <-.
  unfold MadeOf in H4. rewrite <- arg_of_passed in H4. apply make_ok in H4.
  destruct (manager_made _ _ _ _ _ _ _ _ _ _ K H4) as (A1 & A2 & A3 & A4 & A5 & A6 & cf & A7 & A8).
  exists h, l, s, cf. unfold handler_held, models_held. rewrite A3.
  assert (HH : dget "data_handler" (sub_components h l) = Some h) by (rewrite subs_eq; reflexivity).
  split; [exact HH |]. split; [exact H1 |]. split.
  { destruct models; [exact H3 |]. destruct H3 as (x & M & ->). exists x, t. auto. }
  split; [apply together_iff; exact A5 |]. split.
  { apply Forall_forall. intros model I. apply In_nth_error in I as (i & I). rewrite <- (name_get _ h l i) in I.
    assert (IN : In (model_name i, model) (sub_components h l)).
    { apply dget_In. exact I. }
    destruct (manager_check_ok _ _ _ A6 _ _ IN) as (h' & E & T); [unfold model_name; cbn; discriminate |]. rewrite HH in E. injection E as <-. exact T. }
  split; [apply C57_order; exact A4 |]. auto 10.
Qed.

(** ** C137: models made of sources *)

Theorem C137_model config trafo allow c :
  build_model rv known_class kind_of rebuild_tensors fuel fs parts git hook_of names_of config trafo allow = Ok c
  <-> ModelOf hooks known_class loading parts config trafo allow c.
Proof. apply model_iff. Qed.

(** Without permission to rebuild, every source must name a directory. *)
Theorem C137_not_rebuilt config trafo l name s :
  found config ["model_settings"; "multi_source_bases"] = Some (VDict l) -> In (name, s) l ->
  found s ["load_dir"] = None \/ found s ["load_dir"] = Some VNone ->
  exists e, build_model rv known_class kind_of rebuild_tensors fuel fs parts git hook_of names_of config trafo false = Err e.
Proof.
  intros F I N. destruct (build_model _ _ _ _ _ _ _ _ _ _ _ _ _) as [c | e] eqn:E; [| exists e; reflexivity]. exfalso.
  apply model_iff in E as (cls & cf & bases & _ & _ & _ & MB & _). rewrite F in MB. clear F. induction MB as [| x y l' bs (EN & B) MB IH]; [destruct I |].
  destruct I as [-> | I]; [| exact (IH I)]. destruct B as (cls' & _ & _ & B). cbn [snd] in B. destruct N as [N | N]; rewrite N in B; destruct B as (A & _); discriminate.
Qed.

(** ** C134: the manager for a reconstruction *)

Theorem C134_together models : check_models rv names_of models = None <-> Together rv names_of models.
Proof. apply together_iff. Qed.

(** Everything that a successful configurator has done *)
Lemma configurator_ok dirs reco ll mu lu du r : dwf mu -> dwf lu -> dwf du ->
  configurator dirs reco ll mu lu du = Ok r ->
  exists d1 rest config0 config1 misc label data c cs lists,
    listed dirs = d1 :: rest /\
    read (match reco with Some d => d | None => d1 end) = Ok config0 /\
    LossOf hooks known_class (VDict config0) (b_loss r) /\
    MiscModule hooks config0 mu misc /\ LabelModule hooks config0 ll lu label /\ DataModule hooks config0 du data /\
    StoredIn d1 (request misc label data) c /\ Forall2 (fun d c => StoredIn d [] c) rest cs /\
    Forall2 (fun c x => models_held c = Some x) (c :: cs) lists /\
    build_manager (VDict (b_config r)) false (handler_held (List.last cs c)) (trafo_held (List.last cs c)) (Some (concat lists)) [] false
      = Ok (b_manager r, []) /\
    (config1 = config0 /\ (ll = false \/ lu = []) \/ ll = true /\ exists new, update_settings config0 "label_settings" lu = Ok (new, config1)) /\
    (b_config r = config1 /\ du = [] \/ exists new, update_settings config1 "data_settings" du = Ok (new, b_config r)).
Proof.
  intros W1 W2 W3 H. unfold manager_configurator in H. fold (listed dirs) in H. obind H rc ERC. obind H config0 ER. obind H dhs ED. obind H loss EL.
  obind H misc EM. obind H lc ELC. destruct lc as (label, config1). cbn [fst snd] in H. obind H dc EDC. destruct dc as (data, config2). cbn [fst snd] in H.
  obind H ml EML. destruct ml as (models, last). cbn [fst snd] in H. destruct last as [last |]; [| discriminate]. obind H mg EMG. injection H as <-. cbn [b_manager b_loss b_config].
  destruct (listed dirs) as [| d1 rest] eqn:EDIR.
  { cbn in EML. discriminate. }
  rewrite replacements_eq in EML. apply load_dirs_ok in EML as (c & cs & lists & A & B & C & -> & E). injection E as ->.
  destruct mg as (mg, m'). pose proof EMG as EMG'. apply manager_iff in EMG' as (-> & _).
  pose proof (label_module _ _ _ _ _ _ _ _ _ _ _ W2 ELC) as (LM & LC).
  pose proof (data_module _ _ _ _ _ _ _ _ _ _ W3 EDC) as (DM & DC).
  assert (LC' : config1 = config0 /\ (ll = false \/ lu = []) \/ ll = true /\ exists new, update_settings config0 "label_settings" lu = Ok (new, config1)).
  { destruct LC as [-> | X]; [| right; exact X]. destruct ll; [| left; auto]. destruct lu as [| u us] eqn:U; [left; auto |]. right. split; [reflexivity |].
    rewrite <- U in *. unfold label_replacement in ELC. cbn [negb] in ELC. rewrite U in ELC. rewrite <- U in ELC. obind ELC nc E1. obind ELC h E2. obind ELC nm E3. obind ELC k E4. obind ELC x E5. injection ELC as <- X. destruct nc as (new, y). cbn in X. subst y. exists new. exact E1. }
  exists d1, rest, config0, config1, misc, label, data, c, cs, lists. split; [reflexivity |].
  split. { destruct reco; [injection ERC as <-; exact ER | injection ERC as <-; exact ER]. }
  split; [apply loss_module_iff; exact EL |]. split; [apply (misc_module _ _ _ _ _ _ _ _ W1 EM) |]. split; [exact LM |].
  split. { destruct LC' as [(-> & _) | (HL & new & EU)]; [exact DM |]. eapply data_module_config; [exact EU | exact W2 | exact DM | exact HL]. }
  split; [exact A |]. split; [exact B |]. split; [exact C |]. split; [exact EMG |]. split; [exact LC' |]. exact DC.
Qed.

(** ** C136: the configuration shown *)

Lemma update_found config key updates new config' : dwf updates -> update_settings config key updates = Ok (new, config') ->
  (forall k, k <> "data_handler_settings" -> dget k config' = dget k config) /\
  (forall k ks, k <> key -> found (VDict config') ("data_handler_settings" :: k :: ks) = found (VDict config) ("data_handler_settings" :: k :: ks)) /\
  (forall k, settings_at config' ["data_handler_settings"; key] k
             = override (fun k => dget k updates) (settings_at config ["data_handler_settings"; key]) k).
Proof.
  intros W H. destruct (update_settings_ok _ _ _ _ _ W H) as (h & s & E & E' & -> & -> & G). split; [| split].
  - intros k N. apply dget_dset_other. exact N.
  - intros k ks N. cbn [found]. rewrite dget_dset_same, E. rewrite dget_dset_other by exact N. reflexivity.
  - intros k. rewrite <- G. unfold settings_at. cbn [app found]. rewrite !dget_dset_same. cbn [found]. destruct (dget k (dupdate s updates)); reflexivity.
Qed.

Theorem C136_config dirs reco ll mu lu du r : dwf mu -> dwf lu -> dwf du ->
  configurator dirs reco ll mu lu du = Ok r ->
  exists d config, match reco with Some d0 => d = d0 | None => exists rest, listed dirs = d :: rest end /\ read d = Ok config /\
    (forall k, k <> "data_handler_settings" -> dget k (b_config r) = dget k config) /\
    (forall k ks, k <> "label_settings" -> k <> "data_settings" ->
       found (VDict (b_config r)) ("data_handler_settings" :: k :: ks) = found (VDict config) ("data_handler_settings" :: k :: ks)) /\
    (forall k, settings_at (b_config r) ["data_handler_settings"; "label_settings"] k =
       if ll then override (fun k => dget k lu) (settings_at config ["data_handler_settings"; "label_settings"]) k
       else settings_at config ["data_handler_settings"; "label_settings"] k) /\
    (forall k, settings_at (b_config r) ["data_handler_settings"; "data_settings"] k =
       override (fun k => dget k du) (settings_at config ["data_handler_settings"; "data_settings"]) k).
Proof.
  intros W1 W2 W3 H. apply configurator_ok in H; try assumption.
  destruct H as (d1 & rest & config0 & config1 & misc & label & data & c & cs & lists & EDIR & ER & _ & _ & _ & _ & _ & _ & _ & _ & LC & DC).
  eexists. exists config0. split; [| split; [exact ER |]]. { destruct reco; [reflexivity | exists rest; exact EDIR]. }
  assert (L : (forall k, k <> "data_handler_settings" -> dget k config1 = dget k config0) /\
    (forall k ks, k <> "label_settings" -> found (VDict config1) ("data_handler_settings" :: k :: ks) = found (VDict config0) ("data_handler_settings" :: k :: ks)) /\
    (forall k, settings_at config1 ["data_handler_settings"; "label_settings"] k =
       if ll then override (fun k => dget k lu) (settings_at config0 ["data_handler_settings"; "label_settings"]) k
       else settings_at config0 ["data_handler_settings"; "label_settings"] k)).
  { destruct LC as [(-> & X) | (-> & new & U)]; [| exact (update_found _ _ _ _ _ W2 U)]. split; [reflexivity |]. split; [reflexivity |]. intros k.
    destruct ll; [| reflexivity]. destruct X as [X | ->]; [discriminate | reflexivity]. }
  assert (D : (forall k, k <> "data_handler_settings" -> dget k (b_config r) = dget k config1) /\
    (forall k ks, k <> "data_settings" -> found (VDict (b_config r)) ("data_handler_settings" :: k :: ks) = found (VDict config1) ("data_handler_settings" :: k :: ks)) /\
    (forall k, settings_at (b_config r) ["data_handler_settings"; "data_settings"] k =
       override (fun k => dget k du) (settings_at config1 ["data_handler_settings"; "data_settings"]) k)).
  { destruct DC as [(-> & ->) | (new & U)]; [repeat split; reflexivity | exact (update_found _ _ _ _ _ W3 U)]. }
  destruct L as (L1 & L2 & L3), D as (D1 & D2 & D3). split; [| split; [| split]].
  - intros k N. rewrite D1, L1 by exact N. reflexivity.
  - intros k ks N1 N2. rewrite D2, L2 by assumption. reflexivity.
  - intros k. rewrite <- L3. unfold settings_at. cbn [app]. apply D2. discriminate.
  - intros k. rewrite D3. unfold override. destruct (dget k du); [reflexivity |]. unfold settings_at. cbn [app]. apply L2. discriminate.
Qed.

(** ** C134 *)

(** The manager of the configurator holds the models of all directories, in order,
    and the data handler of the last directory.  Only the first directory is read
    with the requested modules.  Its class and settings are those of the
    configuration. *)
Theorem C134_result dirs reco ll mu lu du r : dwf mu -> dwf lu -> dwf du ->
  (forall d config cls, read d = Ok config ->
     found (VDict config) ["model_manager_settings"; "model_manager_class"] = Some (VStr cls) -> kind_of cls = KManager) ->
  configurator dirs reco ll mu lu du = Ok r ->
  exists d1 rest config cls s misc label data c cs lists h cf,
    listed dirs = d1 :: rest /\
    read (match reco with Some d => d | None => d1 end) = Ok config /\
    LossOf hooks known_class (VDict config) (b_loss r) /\
    MiscModule hooks config mu misc /\ LabelModule hooks config ll lu label /\ DataModule hooks config du data /\
    StoredIn d1 (request misc label data) c /\ Forall2 (fun d c => StoredIn d [] c) rest cs /\
    Forall2 (fun c x => models_held c = Some x) (c :: cs) lists /\
    (handler_held (List.last cs c) = Some h \/
     handler_held (List.last cs c) = None /\ HandlerOf hooks known_class (VDict (b_config r)) h) /\
    handler_held (b_manager r) = Some h /\
    (length (concat lists) <= Nat.of_num_uint 10000%uint -> models_held (b_manager r) = Some (concat lists)) /\
    Together rv names_of (concat lists) /\ Forall (TrainedWith rv h) (concat lists) /\
    found (VDict config) ["model_manager_settings"; "model_manager_class"] = Some (VStr cls) /\ k_class (b_manager r) = cls /\
    k_configured (b_manager r) = true /\
    found (VDict config) ["model_manager_settings"; "config"] = Some s /\
    k_conf (b_manager r) = Some cf /\ dget "config" (co_config cf) = Some s.
Proof.
  intros W1 W2 W3 K H. destruct (C136_config _ _ _ _ _ _ _ W1 W2 W3 H) as (dd & config' & ED & ER' & SAME & _).
  apply configurator_ok in H; try assumption.
  destruct H as (d1 & rest & config & config1 & misc & label & data & c & cs & lists & EDIR & ER & LO & MM & LM & DM & S1 & S2 & ML & BM & _).
  assert (config' = config) as ->.
  { destruct reco; [subst dd; congruence |]. destruct ED as (rest' & ED). rewrite EDIR in ED. injection ED as <- _. congruence. }
  assert (SF : forall ks, found (VDict (b_config r)) ("model_manager_settings" :: ks) = found (VDict config) ("model_manager_settings" :: ks)).
  { intros ks. cbn [found]. rewrite SAME by discriminate. reflexivity. }
  pose proof BM as BM'. apply manager_iff in BM' as (_ & cls & s0 & _ & _ & _ & _ & FC & _).
  assert (KC : kind_of cls = KManager) by (eapply K; [exact ER | rewrite <- SF; exact FC]).
  destruct (C138_held _ _ _ _ _ _ _ _ _ FC KC BM) as (h & l & s & cf & HH & HM & -> & TG & TW & LEN & CL & CF & FS & KF & DG).
  exists d1, rest, config, cls, s, misc, label, data, c, cs, lists, h, cf. rewrite SF in FC, FS. repeat (split; [assumption |]).
  split. { destruct (handler_held (List.last cs c)) as [h0 |]; [left; subst; reflexivity | right; auto]. }
  auto 10.
Qed.

(** Without a directory there is no manager. *)
Theorem C134_no_directory ll mu lu du :
  configurator (DirList []) None ll mu lu du = Err IndexError /\
  (forall d, exists e, configurator (DirList []) (Some d) ll mu lu du = Err e) /\
  forall dirs d r, configurator dirs (Some d) ll mu lu du = Ok r -> configurator (DirList []) (Some d) ll mu lu du = Err UnboundLocalError.
Proof.
  split; [reflexivity |]. split.
  - intros d. destruct (configurator _ _ _ _ _ _) as [r | e] eqn:E; [| exists e; reflexivity]. exfalso.
    unfold manager_configurator in E. cbn [bind] in E. obind E config0 ER. obind E dhs ED. obind E loss EL. obind E misc EM. obind E lc ELC. obind E dc EDC. discriminate.
  - intros dirs d r E. unfold manager_configurator in E |- *. cbn [bind] in E |- *.
    obind E config0 ER. obind E dhs ED. obind E loss EL. obind E misc EM. obind E lc ELC. obind E dc EDC.
    rewrite ER. cbn [bind]. rewrite ED. cbn [bind]. rewrite EL. cbn [bind]. rewrite EM. cbn [bind]. rewrite ELC. cbn [bind]. rewrite EDC. reflexivity.
Qed.

(** ** C135: which of the requested modules are used *)

(** With one directory, all of them. *)
Theorem C135_single dirs d reco ll mu lu du r : dwf mu -> dwf lu -> dwf du -> listed dirs = [d] ->
  (forall q cfg, fs q FConf = Some (CConf cfg) -> NoDup (c_dep cfg)) ->
  (forall d config cls, read d = Ok config ->
     found (VDict config) ["model_manager_settings"; "model_manager_class"] = Some (VStr cls) -> kind_of cls = KManager) ->
  configurator dirs reco ll mu lu du = Ok r ->
  exists config misc label data, read (match reco with Some d0 => d0 | None => d end) = Ok config /\
    MiscModule hooks config mu misc /\ LabelModule hooks config ll lu label /\ DataModule hooks config du data /\
    (requested misc label data <> [] ->
     exists h, handler_held (b_manager r) = Some h /\
     (forall n x, dget n (requested misc label data) = Some (MComp x) -> dget n (k_subs h) = Some x) /\
     (forall n x, dget n (k_subs h) = Some x -> dget n (requested misc label data) = None ->
        exists cls f m', load rv known_class kind_of rebuild_tensors f fs (new_component cls)
          (splitext_path (splitext_path (parts d) ++ ["data_handler"]) ++ [n]) [] = (x, None, m'))).
Proof.
  intros W1 W2 W3 ED ND K H. apply C134_result in H; try assumption.
  destruct H as (d1 & rest & config & cls & s & misc & label & data & c & cs & lists & h & cf & EDIR & ER & _ & MM & LM & DM & S1 & S2 & _ & HL & HB & _).
  rewrite ED in EDIR. injection EDIR as <- <-. inversion S2; subst. cbn [List.last] in HL.
  exists config, misc, label, data. repeat (split; [assumption |]). intros NE.
  destruct S1 as (config' & cls' & _ & _ & _ & d' & [= <-] & L). pose proof L as HMOD. apply (handler_modules rv known_class kind_of rebuild_tensors fuel fs parts hook_of names_of read) in HMOD; [| exact ND].
  destruct (requested misc label data) as [| x y] eqn:RQ; [congruence |]. rewrite <- RQ in *. rewrite RQ in HMOD. rewrite <- RQ in HMOD.
  destruct HMOD as (h' & HH & HM). destruct HL as [HL | (HL & _)]; [| congruence].
  rewrite HL in HH. injection HH as <-. exists h. auto.
Qed.

Lemma last_cons {A} (l : list A) x d : List.last (x :: l) d = List.last l x.
Proof. revert x d. induction l as [| y l IH]; intros x d; [reflexivity |]. change (List.last (x :: y :: l) d) with (List.last (y :: l) d). rewrite !IH. reflexivity. Qed.

(** With several, none: the data handler is the one of the last directory as
    stored. *)
Theorem C135_several dirs d1 d2 rest reco ll mu lu du r c h : dwf mu -> dwf lu -> dwf du -> listed dirs = d1 :: d2 :: rest ->
  (forall d config cls, read d = Ok config ->
     found (VDict config) ["model_manager_settings"; "model_manager_class"] = Some (VStr cls) -> kind_of cls = KManager) ->
  StoredIn (List.last rest d2) [] c -> handler_held c = Some h ->
  configurator dirs reco ll mu lu du = Ok r ->
  handler_held (b_manager r) = Some h.
Proof.
  intros W1 W2 W3 ED K SI HC H. apply C134_result in H; try assumption.
  destruct H as (d1' & rest' & config & cls & s & misc & label & data & c' & cs & lists & h' & cf & EDIR & ER & _ & MM & LM & DM & S1 & S2 & _ & HL & HB & _).
  rewrite ED in EDIR. injection EDIR as <- <-.
  assert (X : StoredIn (List.last rest d2) [] (List.last cs c')).
  { clear - S2. remember (d2 :: rest) as l eqn:E. revert d2 rest E. revert c'. induction S2 as [| d c l cs S SS IH]; intros c' d2 rest E; [discriminate |].
    injection E as -> ->. destruct SS as [| d' c0 l' cs' S' SS']; [exact S |].
    pose proof (last_cons l' d' d2) as E1.
    assert (E2 : List.last (c :: c0 :: cs') c' = List.last (c0 :: cs') c') by reflexivity. rewrite E1, E2. apply (IH c' d' l' eq_refl). }
  destruct SI as (k1 & cl1 & R1 & F1 & _ & p1 & [= <-] & L1). destruct X as (k2 & cl2 & R2 & F2 & _ & p2 & [= <-] & L2).
  rewrite R1 in R2. injection R2 as <-. rewrite F1 in F2. injection F2 as <-. rewrite L1 in L2. injection L2 as L2.
  destruct HL as [HL | (HL & _)]; congruence.
Qed.
End Build.

(** ** A concrete case: two stored managers *)

Definition plain_settings (kw : dict arg) : dict value :=
  flat_map (fun ka => match arg_value (snd ka) with Some v => [(fst ka, v)] | None => [] end) kw.

Definition bx_hook (cls : string) (kw : dict arg) : result hook_out :=
  Ok (mkHook (ex_conf cls (plain_settings kw) [] [] [] []) VNone HNone []).

Definition bx_kind (cls : string) : kind :=
  if String.eqb cls "m.Manager" then KManager else if String.eqb cls "m.Handler" then KHandler else KBase.

Definition bx_trafo : component :=
  mkComp "m.Trafo" [] true
    (Some (ex_conf "m.Trafo" [] [] [("data_handler", dict_of_comp (ex_tree "data_module" 1 2))] [] []))
    (VDict [("mean", VInt 3)]) [].

Definition bx_model (x : Z) : component :=
  mkComp "m.Model" [] true
    (Some (ex_conf "m.Model" [("x", VInt x)] [] [("data_trafo", dict_of_comp bx_trafo)] ["data_trafo"] []))
    (VDict []) [("data_trafo", bx_trafo)].

Definition bx_manager (x y : Z) : component :=
  let h := ex_tree "data_module" 1 y in
  mkComp "m.Manager" [] true
    (Some (ex_conf "m.Manager" [("config", VDict [])] []
       [("data_handler", dict_of_comp h); ("models_0000", dict_of_comp (bx_model x))]
       ["data_handler"; "models_0000"] ["data_handler"]))
    (VDict []) [("data_handler", h); ("models_0000", bx_model x)].

Definition bx_files : fsys :=
  snd (fst (save false false (bx_manager 7 5) ["e"] (saved (bx_manager 6 2) ["d"]))).

Definition bx_config : dict value :=
  [("model_manager_settings", VDict [("model_manager_class", VStr "m.Manager");
                                     ("config", VDict [("manager_dir", VStr "elsewhere"); ("a", VInt 1)])]);
   ("loss_module_settings", VList [VDict [("loss_module", VStr "m.Loss"); ("config", VDict [("b", VInt 2)])];
                                   VDict [("loss_module", VStr "m.Loss"); ("config", VDict [("b", VInt 3)])]]);
   ("reconstruction_settings", VDict []);
   ("data_handler_settings", VDict [("data_module", VStr "d.Data"); ("data_settings", VDict [("x", VInt 2); ("pulse_key", VStr "Clean")]);
                                    ("label_module", VStr "l.Labels"); ("label_settings", VDict [])])].

Definition bx_run (l : list string) (updates : dict value) : result configured :=
  manager_configurator "1" all_known bx_kind ex_rebuild 4 bx_files (fun d => [d]) VNone bx_hook (fun _ => ["x"]) (fun _ => Ok bx_config)
    (DirList l) None true [] [] updates.

Definition bx_module (r : configured) : option component :=
  match handler_held (b_manager r) with Some h => dget "data_module" (k_subs h) | None => None end.

Definition bx_pulse_key (r : configured) : option value :=
  match bx_module r with
  | Some c => match k_conf c with Some cf => dget "pulse_key" (co_config cf) | None => None end
  | None => None
  end.

(** Two models are used together: the pulses asked for appear in the configuration,
    but the data handler keeps the module it was stored with. *)
Theorem C135_refuted : exists r,
  bx_run ["d"; "e"] [("pulse_key", VStr "Masked")] = Ok r /\
  settings_at (b_config r) ["data_handler_settings"; "data_settings"] "pulse_key" = Some (VStr "Masked") /\
  bx_module r = Some (ex_leaf_c 5) /\
  forall config c, DataModule (class_hook "1" bx_kind VNone bx_hook (fun _ => ["x"])) config [("pulse_key", VStr "Masked")] (Some c) ->
    bx_module r <> Some c.
Proof.
  destruct (bx_run ["d"; "e"] [("pulse_key", VStr "Masked")]) as [r | e] eqn:E; [| vm_compute in E; discriminate].
  exists r. split; [reflexivity |]. assert (M : bx_module r = Some (ex_leaf_c 5)) by (vm_compute in E; injection E as <-; reflexivity).
  split; [vm_compute in E; injection E as <-; reflexivity |]. split; [exact M |].
  intros config c (c' & name & [= <-] & _ & kw & C & _) X. rewrite M in X. injection X as <-.
  apply configure_ok in C as (_ & _ & ? & ? & ? & ? & ? & _ & _ & _ & _ & _ & _ & _ & C). apply (f_equal k_class) in C. discriminate.
Qed.

(** The hypotheses of the theorems hold in this case, and one directory does what
    is asked. *)
Example C134_example : exists r, bx_run ["d"; "e"] [] = Ok r /\
  models_held (b_manager r) = Some [bx_model 6; bx_model 7] /\
  handler_held (b_manager r) = Some (ex_tree "data_module" 1 5) /\
  dkeys (k_subs (b_loss r)) = ["loss_modules_0000"; "loss_modules_0001"].
Proof. eexists. vm_compute. repeat split. Qed.

Example C134_example_refused : exists e,
  manager_configurator "1" all_known bx_kind ex_rebuild 4 bx_files (fun d => [d]) VNone bx_hook
    (fun m => match k_conf m with Some cf => if veqb (VInt 6) (match dget "x" (co_config cf) with Some v => v | None => VNone end) then ["x"] else ["y"] | None => [] end)
    (fun _ => Ok bx_config) (DirList ["d"; "e"]) None true [] [] [] = Err e.
Proof. eexists. vm_compute. reflexivity. Qed.

Example C135_example_single : exists r, bx_run ["d"] [("pulse_key", VStr "Masked")] = Ok r /\
  bx_pulse_key r = Some (VStr "Masked").
Proof. eexists. vm_compute. repeat split. Qed.

Example C135_example_hypotheses :
  (forall d config cls, (fun _ : string => Ok bx_config) d = Ok config ->
     found (VDict config) ["model_manager_settings"; "model_manager_class"] = Some (VStr cls) -> bx_kind cls = KManager) /\
  (forall q cfg, bx_files q FConf = Some (CConf cfg) -> NoDup (c_dep cfg)) /\
  dwf [("pulse_key", VStr "Masked")].
Proof.
  split; [intros d config cls [= <-] [= <-]; reflexivity |]. split; [| repeat constructor; intros []].
  set (fine := fun f : fsys => forall q cfg, f q FConf = Some (CConf cfg) -> NoDup (c_dep cfg)).
  assert (W : forall ops f, fine f -> Forall (fun o => match o_content o with CConf cfg => NoDup (c_dep cfg) | _ => True end) ops -> fine (run_ops ops f)).
  { induction ops as [| o ops IH]; intros f F A; [exact F |]. inversion A as [| ? ? A1 A2]; subst. cbn [run_ops fold_left]. apply IH; [| exact A2].
    intros q cfg. unfold apply_op, fs_write. destruct (_ && _); [| apply F]. intros [= E]. rewrite E in A1. exact A1. }
  assert (S : forall c p f, fine f ->
    Forall (fun o => match o_content o with CConf cfg => NoDup (c_dep cfg) | _ => True end) (fst (fst (save false false c p f))) ->
    fine (snd (fst (save false false c p f)))).
  { intros c p f F A. destruct (save false false c p f) as ((ops, f'), e) eqn:E. cbn [fst snd] in A |- *. apply save_run in E as ->. apply W; assumption. }
  apply S; [apply S; [intros q cfg E; discriminate |] |]; vm_compute; repeat (apply Forall_cons; [try exact I; repeat constructor; cbn; intuition discriminate |]); apply Forall_nil.
Qed.

Example C136_example : exists r, bx_run ["d"] [("pulse_key", VStr "Masked"); ("new", VInt 1)] = Ok r /\
  found (VDict (b_config r)) ["data_handler_settings"; "data_settings"]
    = Some (VDict [("x", VInt 2); ("pulse_key", VStr "Masked"); ("new", VInt 1)]).
Proof. eexists. vm_compute. repeat split. Qed.

Definition bx_model_config (load_dir : value) : value :=
  VDict [("model_settings", VDict [("model_class", VStr "m.Multi"); ("config", VDict [("a", VInt 1)]);
    ("multi_source_bases", VDict [("muon", VDict [("model_class", VStr "m.Model"); ("load_dir", load_dir); ("config", VDict [])])])])].
Definition bx_build (load_dir : value) (allow : bool) : result component :=
  build_model "1" all_known bx_kind ex_rebuild 4 (saved (bx_model 3) ["muon"]) (fun d => [d]) VNone bx_hook (fun _ => ["x"])
    (bx_model_config load_dir) bx_trafo allow.

Example C137_example :
  (exists c, bx_build (VStr "muon") false = Ok c) /\ (exists c, bx_build VNone true = Ok c) /\
  bx_build VNone false = Err ValueError.
Proof. repeat split; try eexists; vm_compute; reflexivity. Qed.

Example C138_example : exists c,
  M_Build.build_manager "1" all_known bx_kind ex_rebuild 4 bx_files (fun d => [d]) VNone bx_hook (fun _ => ["x"])
    (VDict bx_config) false (Some (ex_tree "data_module" 1 2)) (Some bx_trafo) (Some [bx_model 1]) [] true = Ok (c, []) /\
  bx_kind sum_class <> KManager.
Proof. eexists. split; [vm_compute; reflexivity | discriminate]. Qed.
Print Assumptions C138_handler.
Print Assumptions C138_loss.
Print Assumptions C138_sum.
Print Assumptions C138_manager.
Print Assumptions C138_restore.
Print Assumptions C138_held.
Print Assumptions C137_model.
Print Assumptions C137_not_rebuilt.
Print Assumptions C134_together.
Print Assumptions C136_config.
Print Assumptions C134_result.
Print Assumptions C134_no_directory.
Print Assumptions C135_single.
Print Assumptions C135_several.
Print Assumptions C135_refuted.
