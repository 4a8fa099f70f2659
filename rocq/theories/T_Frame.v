(** Properties C119-C121: the IceTray module that reconstructs events
    (egenerator/ic3/reconstruction.py l.152-492). *)
From Coq Require Import Reals Lra Lia.
From Verif Require Import Py PyFacts PyStr RList M_Source M_Tray M_Frame S_Frame L_Tray L_TestReco L_Frame.
From Verif Require M_TestReco S_TestReco M_Cascade L_Cascade L_Tensor.
Open Scope R_scope.

Notation strip := (filter (fun n => negb (String.eqb n "runtime"))).

Section Frame.
  Variable load : list string -> result fmanager.
  Variable make : list bool -> option string -> M_TestReco.spec -> result (module fval nat).
  Variable clock : nat -> R.
  Variable get_data : frame -> result (nat * nat).
  Notation configure := (frame_configure load make).
  Notation physics := (physics clock get_data).
  Notation execute := (execute fval nat Datatypes.unit Datatypes.unit (fun k => VNum (clock k))).
  Notation names o := (n_names (k_manager o)).
  Notation modules o := (t_names _ _ _ _ (k_tray o)).

  (** ** C119: configuration and results *)

  (** The module is configured from the directories, settings and seeds: a fit
      from every seed, the selection and what is switched on, all made for the
      fitted parameters and the covariance if there is one. *)
  Definition module_names (c : frame_settings) : list string :=
    map (fun s => ("reco_" ++ s)%string) (string_list (w_seeds c)) ++ ["reco"%string]
    ++ (if w_cov c then ["covariance"%string] else []) ++ (if w_gof c then ["GoodnessOfFit"%string] else [])
    ++ (if w_circ c then ["CircularizedAngularUncertainty"%string] else []).
  Definition module_specs (c : frame_settings) : list M_TestReco.spec :=
    map (fun s => M_TestReco.SReco s false false) (string_list (w_seeds c))
    ++ [M_TestReco.SSelect (map (fun s => ("reco_" ++ s)%string) (string_list (w_seeds c)))]
    ++ (if w_cov c then [M_TestReco.SCov] else []) ++ (if w_gof c then [M_TestReco.SGof] else [])
    ++ (if w_circ c then [M_TestReco.SCirc] else []).

  Lemma plan_fst c : map fst (frame_plan c) = module_names c.
  Proof.
    unfold frame_plan, module_names. rewrite !map_app, map_map. cbn [fst].
    destruct (w_cov c), (w_gof c), (w_circ c); reflexivity.
  Qed.
  Lemma plan_snd c : map snd (frame_plan c) = module_specs c.
  Proof.
    unfold frame_plan, module_specs. rewrite !map_app, map_map. cbn [snd].
    destruct (w_cov c), (w_gof c), (w_circ c); reflexivity.
  Qed.
  Lemma nodup_app_l {A} (l l' : list A) : NoDup (l ++ l') -> NoDup l.
  Proof.
    induction l as [| x l IH]; intros N; [constructor |]. cbn in N. inversion N; subst.
    constructor; [intros I; apply H1, in_or_app; left; exact I | exact (IH H2)].
  Qed.
  Lemma module_names_nodup c : NoDup (module_names c) <-> NoDup (string_list (w_seeds c)).
  Proof.
    unfold module_names. split; intros N.
    - apply nodup_app_l, NoDup_map_inv in N. exact N.
    - apply nodup_app_intro.
      + apply FinFun.Injective_map_NoDup; [| exact N]. intros x y [= E]. exact E.
      + destruct (w_cov c), (w_gof c), (w_circ c); cbn; repeat (constructor; [cbn; intuition discriminate |]); constructor.
      + intros x I. apply in_map_iff in I as (s & <- & _). destruct (w_cov c), (w_gof c), (w_circ c); cbn; intuition discriminate.
  Qed.

  Lemma gof_defaults_get k d : dget k (gof_defaults d) =
    match dget k d with
    | Some v => Some v
    | None => if String.eqb k "reconstruct_samples" || String.eqb k "add_per_dom_calculation" then Some (Some true) else None
    end.
  Proof.
    unfold gof_defaults. set (d1 := if dmem "reconstruct_samples" d then d else _).
    assert (H1 : dget k d1 = match dget k d with Some v => Some v | None =>
        if String.eqb k "reconstruct_samples" then Some (Some true) else None end).
    { unfold d1, dmem. destruct (dget "reconstruct_samples" d) as [v0 |] eqn:E0.
      - destruct (dget k d) eqn:EK; [reflexivity |]. destruct (String.eqb_spec k "reconstruct_samples"); [congruence | reflexivity].
      - destruct (String.eqb_spec k "reconstruct_samples") as [-> | N]; [rewrite dget_dset_same, E0; reflexivity |].
        rewrite dget_dset_other by exact N. destruct (dget k d); reflexivity. }
    unfold dmem. destruct (dget "add_per_dom_calculation" d1) as [v1 |] eqn:E1.
    - rewrite H1. destruct (dget k d) eqn:EK; [reflexivity |]. destruct (String.eqb_spec k "reconstruct_samples"); [reflexivity |].
      cbn [orb]. destruct (String.eqb_spec k "add_per_dom_calculation"); [| reflexivity]. congruence.
    - destruct (String.eqb_spec k "add_per_dom_calculation") as [-> | N].
      + rewrite dget_dset_same. cbn in H1. rewrite H1 in E1. destruct (dget "add_per_dom_calculation" d); [discriminate | reflexivity].
      + rewrite dget_dset_other by exact N. rewrite H1, Bool.orb_false_r. reflexivity.
  Qed.

  Lemma slashed_get b : slashed b = match String.get (String.length b - 1) b with Some "/"%char => true | _ => false end.
  Proof.
    induction b as [| a b IH]; [reflexivity |]. cbn [String.length]. rewrite Nat.sub_succ, Nat.sub_0_r. destruct b as [| a' b].
    - cbn. destruct a as [[] [] [] [] [] [] [] []]; reflexivity.
    - cbn [String.length] in IH |- *. rewrite Nat.sub_succ, Nat.sub_0_r in IH. change (slashed (String a (String a' b))) with (slashed (String a' b)).
      rewrite IH. reflexivity.
  Qed.

  Lemma path_join_located b n : path_join b n = located b n.
  Proof.
    unfold located. destruct n as [| a n].
    - cbn [String.prefix]. unfold path_join. destruct b as [| a b]; [reflexivity |]. rewrite slashed_get. cbn [String.eqb orb].
      destruct (String.get _ _) as [[[] [] [] [] [] [] [] []] |]; reflexivity.
    - destruct (Ascii.ascii_dec "/" a) as [<- | N].
      + cbn. destruct n; reflexivity.
      + cbn [String.prefix]. destruct (Ascii.ascii_dec "/" a); [contradiction |]. unfold path_join.
        replace (match a with "/"%char => String a n | _ => _ end) with
          (match b with EmptyString => String a n | _ => match String.get (String.length b - 1) b with
             | Some "/"%char => (b ++ String a n)%string | _ => (b ++ "/" ++ String a n)%string end end).
        2:{ destruct a as [[] [] [] [] [] [] [] []]; try reflexivity; contradiction. }
        destruct b as [| a' b]; [reflexivity |]. rewrite slashed_get. cbn [String.eqb orb].
        destruct (String.get _ _) as [[[] [] [] [] [] [] [] []] |]; reflexivity.
  Qed.

  Lemma located_map c : map (fun n => match w_base c with Some b => path_join b n | None => n end) (string_list (w_models c))
    = map (fun n => match w_base c with Some b => located b n | None => n end) (string_list (w_models c)).
  Proof. apply map_ext. intros n. destruct (w_base c); [apply path_join_located | reflexivity]. Qed.

  Lemma keywords_accepted k : In k gof_keywords <-> In k accepted_settings.
  Proof. unfold gof_keywords, accepted_settings. cbn [In]. tauto. Qed.

  Theorem C119_configured c o : configure c = Ok o ->
    exists flags,
      load (map (fun n => match w_base c with Some b => located b n | None => n end) (string_list (w_models c))) = Ok (k_manager o) /\
      modules o = module_names c /\ NoDup (string_list (w_seeds c)) /\
      Forall2 (fun sp m => make flags (if w_cov c then Some "covariance"%string else None) sp = Ok m)
        (module_specs c) (t_modules _ _ _ _ (k_tray o)) /\
      (NoDup (names o) -> NoDup (map fst (w_fit c)) -> S_TestReco.FlagsOf (names o) (w_default c) (w_fit c) flags) /\
      (forall n, In n (map fst (w_fit c)) -> In n (names o)) /\
      (w_gof c = true -> forall k, In k (map fst (w_gof_settings c)) -> In k accepted_settings) /\
      (length (names o) <= length (n_log (k_manager o)))%nat.
  Proof.
    unfold frame_configure. intros E. obind E m EM. obind E logs EL. obind E flags EF. obind E t ET. injection E as <-.
    cbn [k_manager k_tray]. apply add_modules_ok in ET as (LL & ND & EN & (ms & EMS & FM) & G); [| reflexivity | constructor].
    cbn [w_gof_settings w_cov] in *. cbn in EN, EMS. exists flags. split; [rewrite <- located_map; exact EM |].
    match type of EN with _ = map fst (frame_plan ?c') => assert (EP : frame_plan c' = frame_plan c) by reflexivity; rewrite EP in * end.
    split; [rewrite EN; apply plan_fst |]. split; [apply module_names_nodup; rewrite <- plan_fst, <- EN; exact ND |].
    split; [rewrite EMS, <- plan_snd; clear - FM; induction FM; constructor; assumption |]. split; [| split; [| split]].
    - intros N W. destruct (fit_flags_spec (n_names m) (w_fit c) _ flags N W (map_length _ _) EF) as (L & H).
      split; [exact L |]. intros j name E. rewrite (H j name E), nth_error_map, E. destruct (dget name (w_fit c)); reflexivity.
    - cbn [w_fit w_default] in EF. revert EF. generalize (map (fun _ : string => w_default c) (n_names m)). clear.
      induction (w_fit c) as [| (k, v) d IH]; [intros l _ n [] |]. intros l F n [<- | I]; cbn [M_TestReco.fit_flags fst] in *.
      + obind F i NX. apply L_Cascade.name_index_nth, nth_error_In in NX. exact NX.
      + obind F i NX. exact (IH _ F n I).
    - intros GO k IK. apply keywords_accepted. apply G.
      + rewrite plan_snd. unfold module_specs. rewrite GO. do 3 (apply in_or_app; right). apply in_or_app. left. left. reflexivity.
      + assert (X : exists v, dget k (w_gof_settings c) = Some v).
        { destruct (dget k (w_gof_settings c)) eqn:EK; [eauto |]. apply dget_None_iff in EK. contradiction. }
        destruct X as (v & X). eapply dget_Some_In_keys. rewrite gof_defaults_get, X. reflexivity.
    - exact (proj1 (log_names_ok _ _ _ EL)).
  Qed.

  (** Conversely, these conditions are enough. *)
  Theorem C119_configurable c m : 
    load (map (fun n => match w_base c with Some b => located b n | None => n end) (string_list (w_models c))) = Ok m ->
    (length (n_names m) <= length (n_log m))%nat -> (forall n, In n (map fst (w_fit c)) -> In n (n_names m)) ->
    NoDup (string_list (w_seeds c)) -> (w_gof c = true -> forall k, In k (map fst (w_gof_settings c)) -> In k accepted_settings) ->
    (forall flags key sp, In sp (module_specs c) -> exists md, make flags key sp = Ok md) ->
    exists o, configure c = Ok o.
  Proof.
    intros EM LL FI NS GK MK. unfold frame_configure. unfold manager_dirs. cbn [w_base w_models].
    rewrite located_map, EM. cbn [bind].
    assert (HL : exists logs, log_names (n_names m) (n_log m) = Ok logs).
    { clear - LL. revert LL. generalize (n_log m). induction (n_names m) as [| n l IH]; intros [| b log] LL; cbn in *; try lia; eauto.
      destruct (IH log ltac:(lia)) as (logs & ->). cbn. destruct b; eauto. }
    destruct HL as (logs & ->). cbn [bind w_fit w_default].
    assert (HF : exists flags, M_TestReco.fit_flags (n_names m) (w_fit c) (map (fun _ => w_default c) (n_names m)) = Ok flags).
    { clear - FI. generalize (map (fun _ : string => w_default c) (n_names m)). revert FI.
      induction (w_fit c) as [| (k, v) d IH]; intros FI l; cbn [M_TestReco.fit_flags]; [eauto |].
      assert (X : exists i, M_Cascade.name_index (n_names m) k = Ok i).
      { destruct (M_Cascade.name_index (n_names m) k) as [i | e] eqn:X; [eauto |]. exfalso.
        destruct (In_nth_error _ _ (FI k (or_introl eq_refl))) as (j & EJ). revert X. clear - EJ.
        unfold M_Cascade.name_index. intros X. destruct (dget k (writes (combine (n_names m) (seq 0 (length (n_names m)))) [])) as [i |] eqn:D.
        - rewrite (lookup_some _ _ _ D) in X. discriminate.
        - apply dget_None_iff in D. apply D. apply writes_keys. right.
          apply in_map_iff. exists (k, j). split; [reflexivity |]. apply (nth_error_In _ j). apply nth_error_combine.
          assert (L : (j < length (n_names m))%nat) by (apply nth_error_Some; congruence).
          split; [exact EJ |]. rewrite (nth_error_nth' _ 0%nat) by (rewrite seq_length; exact L). rewrite seq_nth by exact L. reflexivity. }
      destruct X as (i & ->). cbn [bind]. apply IH. intros n I. apply FI. right. exact I. }
    destruct HF as (flags & ->). cbn [bind].
    match goal with |- context [add_modules make ?c' flags] => set (c1 := c') end.
    assert (KEYS : w_gof c = true -> forallb (fun k => existsb (String.eqb k) gof_keywords) (map fst (w_gof_settings c1)) = true).
    { intros GO. apply forallb_forall. intros k IK. cbn in IK.
      assert (K : In k gof_keywords).
      { assert (S1 : forall k, In k (map fst (if dmem "reconstruct_samples" (w_gof_settings c) then w_gof_settings c else
            dset "reconstruct_samples" (Some true) (w_gof_settings c))) -> In k gof_keywords).
        { clear - GK GO. intros k0 I0. destruct (dmem "reconstruct_samples" _); [exact (proj2 (keywords_accepted k0) (GK GO k0 I0)) |]. apply dset_keys in I0 as [-> | I0]; [cbn; auto | exact (proj2 (keywords_accepted k0) (GK GO k0 I0))]. }
        unfold gof_defaults in IK. destruct (dmem "add_per_dom_calculation" _); [exact (S1 k IK) |]. apply dset_keys in IK as [-> | IK]; [cbn; auto | exact (S1 k IK)]. }
      apply existsb_exists. exists k. split; [exact K | apply String.eqb_refl]. }
    assert (GEN : forall l t, (forall n sp, In (n, sp) l -> In sp (module_specs c)) -> NoDup (t_names _ _ _ _ t ++ map fst l) ->
      exists t', add_modules make c1 flags l t = Ok t').
    { induction l as [| (n, sp) l IH]; intros t SUB ND; cbn [add_modules]; [eauto |].
      assert (X : (match sp with
              | M_TestReco.SGof =>
                  if forallb (fun k => existsb (String.eqb k) gof_keywords) (map fst (w_gof_settings c1)) then Ok tt
                  else Err TypeError
              | _ => Ok tt
              end) = Ok tt).
      { destruct sp; try reflexivity. rewrite KEYS; [reflexivity |].
        specialize (SUB n _ (or_introl eq_refl)). unfold module_specs in SUB. destruct (w_gof c); [reflexivity | exfalso].
        apply in_app_or in SUB as [SUB | SUB]; [apply in_map_iff in SUB as (? & ? & _); discriminate |].
        destruct (w_cov c), (w_circ c); cbn in SUB; intuition discriminate. }
      rewrite X. cbn [bind]. unfold add_module.
      assert (NI : existsb (String.eqb n) (t_names _ _ _ _ t) = false).
      { destruct (existsb _ _) eqn:Y; [| reflexivity]. exfalso. apply existsb_exists in Y as (n' & I & E). apply String.eqb_eq in E as <-.
        cbn in ND. apply NoDup_remove_2 in ND. apply ND, in_or_app. left. exact I. }
      rewrite NI. destruct (MK flags (if w_cov c1 then Some "covariance"%string else None) sp (SUB n sp (or_introl eq_refl))) as (md & ->).
      apply IH; [intros n' sp' I; exact (SUB n' sp' (or_intror I)) |]. cbn [t_names]. rewrite <- app_assoc. exact ND. }
    destruct (GEN (frame_plan c) (new_tray fval nat Datatypes.unit Datatypes.unit)) as (t & ET).
    - intros n sp I. rewrite <- plan_snd. apply in_map_iff. exists (n, sp). auto.
    - cbn. rewrite plan_fst. apply module_names_nodup. exact NS.
    - change (frame_plan c1) with (frame_plan c). rewrite ET. cbn. eauto.
  Qed.

  (** *** Facts about configured modules *)
  Lemma configured_settings c o : configure c = Ok o ->
    k_settings o = mk_frame_settings (w_seeds c) (w_models c) (w_base c) (w_output c) (w_circ c) (w_cov c) (w_gof c)
               (w_default c) (w_fit c) (gof_defaults (w_gof_settings c)) /\
    log_names (names o) (n_log (k_manager o)) = Ok (k_log o) /\
    length (modules o) = length (t_modules _ _ _ _ (k_tray o)) /\ NoDup (modules o).
  Proof.
    unfold frame_configure. intros E. obind E m EM. obind E logs EL. obind E flags EF. obind E t ET. injection E as <-.
    apply add_modules_ok in ET as (LL & ND & _); [| reflexivity | constructor]. auto.
  Qed.
  Lemma configured_flag c o k b : configure c = Ok o -> k = "reconstruct_samples"%string \/ k = "add_per_dom_calculation"%string ->
    gof_flag o k = Ok b -> b = enabled k (w_gof_settings c).
  Proof.
    intros C K G. destruct (configured_settings _ _ C) as (S & _). unfold gof_flag in G. rewrite S in G. cbn [w_gof_settings] in G.
    unfold enabled. obind G v EV. apply lookup_ok in EV. rewrite gof_defaults_get in EV.
    destruct (dget k (w_gof_settings c)) as [v' |].
    - injection EV as ->. destruct v as [[|] |]; congruence.
    - destruct (_ || _); [injection EV as <-; congruence | discriminate].
  Qed.

  (** Results of the covariance: the running time is the only entry of that name. *)
  Lemma runtime_unique o data results : length (modules o) = length (t_modules _ _ _ _ (k_tray o)) -> NoDup (modules o) ->
    execute (k_tray o) data = Ok results -> forall k n items, nth_error (modules o) k = Some n -> dget n results = Some items ->
    forall v, In ("runtime"%string, v) items -> v = VNum (clock k).
  Proof.
    intros L ND E k n items EN EI v I. unfold M_Tray.execute in E.
    assert (LK : (k < length (combine (modules o) (t_modules _ _ _ _ (k_tray o))))%nat).
    { rewrite combine_length, <- L, Nat.min_id. apply nth_error_Some. congruence. }
    destruct (nth_error (combine (modules o) (t_modules _ _ _ _ (k_tray o))) k) as [(n', m) |] eqn:EC; [| apply nth_error_None in EC; lia].
    assert (n' = n) as -> by (apply nth_error_combine in EC as (EC & _); congruence).
    apply nth_error_split in EC as (l1 & l2 & EQ & LL). rewrite EQ in E. rewrite run_app in E. obind E res1 E1. cbn [M_Tray.run] in E.
    obind E r EM. destruct (dmem "runtime" r) eqn:DR; [discriminate |].
    assert (NDC : NoDup (map fst (l1 ++ (n, m) :: l2))) by (rewrite <- EQ, combine_keys by congruence; exact ND).
    rewrite map_app in NDC. cbn [map fst] in NDC. apply NoDup_remove_2 in NDC.
    rewrite (run_other _ _ _ _ _ _ _ _ n E) in EI by (intros J; apply NDC, in_or_app; right; exact J).
    rewrite dget_dset_same in EI. injection EI as <-.
    assert (NR : ~ In "runtime"%string (map fst r)) by (intros J; apply (dmem_In "runtime" r) in J; congruence).
    rewrite dset_fresh in I by exact NR. apply in_app_or in I as [I | [[= <-] | []]].
    - exfalso. apply NR, in_map_iff. exists ("runtime"%string, v). auto.
    - cbn. rewrite LL. reflexivity.
  Qed.

  (** Everything that is written *)
  Lemma frame_ok c o f f' : configure c = Ok o -> physics o f = Ok f' ->
    exists data results r best rest v ts b lr ls xs gw w3 cobj gobj pobj,
      get_data f = Ok (1%nat, data) /\ execute (k_tray o) data = Ok results /\
      dget "reco" results = Some r /\ dget "result" r = Some (VRows (best :: rest)) /\
      dget "result_object" r = Some (VObj (Some b)) /\
      dget "loss_reco" r = Some (VNum lr) /\ dget "loss_seed" r = Some (VNum ls) /\
      length v = length (names o) /\ (forall i, (i < length (names o))%nat -> nth_error v i = nth_error best i) /\
      length ts = length (modules o) /\ (forall k n, nth_error (modules o) k = Some n -> nth_error ts k = Some (clock k)) /\
      extends f (cobj ++ gobj ++ (w_output c, OMap (writes
          (fit_writes o v ts b lr ls ++ map (fun x => ("runtime_covariance"%string, x)) xs ++ gw ++ w3) [])) :: pobj) f' /\
      (forall x, In x xs -> In ("runtime_covariance"%string, x) (fit_writes o v ts b lr ls)) /\
      (if w_cov c then exists items, dget "covariance" results = Some items /\
         Forall2 (fun nv ko => exists size m, snd nv = VMat size m /\ (length (names o) <= size)%nat /\
                 ko = ((w_output c ++ "_cov_matrix_" ++ fst nv)%string, OMap (cov_map o m)))
        (filter not_runtime items) cobj
       else cobj = []) /\
      (if w_gof c then exists gr gxs bs, dget "GoodnessOfFit" results = Some gr /\ length gxs = length gof_numbers /\
         (forall i k k' x, nth_error gof_numbers i = Some (k, k') -> nth_error gxs i = Some x -> dget k' gr = Some (VNum x)) /\
         gw = combine (map fst gof_numbers) gxs ++
             (if enabled "reconstruct_samples" (w_gof_settings c) then combine (map (fun n => (n ++ "_sample_reco_bias")%string) (names o)) bs else []) /\
         (if enabled "reconstruct_samples" (w_gof_settings c) then length bs = length (names o) /\
            exists bias, dget "sample_reco_bias" gr = Some (VVec bias) /\
            forall i, (i < length (names o))%nat -> nth_error bs i = nth_error bias i
          else True) /\
         exists sobj dobj, gobj = sobj ++ dobj /\
           (if enabled "reconstruct_samples" (w_gof_settings c) then exists size m, dget "sample_reco_cov" gr = Some (VMat size m) /\
             (length (names o) <= size)%nat /\ sobj = [((w_output c ++ "_cov_matrix_goodness_of_fit")%string, OMap (cov_map o m))]
            else sobj = []) /\
           (if enabled "add_per_dom_calculation" (w_gof_settings c) then exists p1 p2, dget "dom_p_value1" gr = Some (VDoms p1) /\
              dget "dom_p_value2" gr = Some (VDoms p2) /\
              dobj = [((w_output c ++ "_GoodnessOfFit_1sided")%string, ODoms (dom_map p1));
                      ((w_output c ++ "_GoodnessOfFit_2sided")%string, ODoms (dom_map p2))]
            else dobj = [])
       else gw = [] /\ gobj = []) /\
      (if w_circ c then exists cr x t, dget "CircularizedAngularUncertainty" results = Some cr /\
           dget "circular_unc" cr = Some (VNum x) /\ dget "runtime" cr = Some (VNum t) /\
           w3 = [("circular_unc", x); ("runtime_circular_err", t)]%string
       else w3 = []) /\
      match n_mapping (k_manager o) with
      | Some ((_ :: _) as m) => exists p, pobj = [((w_output c ++ "_I3Particle")%string, OParticle p)] /\
          fill_particle m m (writes (fit_writes o v ts b lr ls) []) (mk_i3particle None None None None []) = Ok p
      | _ => pobj = []
      end.
  Proof.
    intros C P. destruct (configured_settings _ _ C) as (S & EL & LM & NM).
    destruct (C119_configured _ _ C) as (_ & _ & EMN & _).
    apply physics_ok in P as (data & results & r & best & rest & v & ts & b & lr & ls & GD & EX & ER & EB & EO & ELR & ELS & LV & HV & LT & HT & particle & f1 & d1 & f2 & d2 & w3 & HP & HC & HG & HW & X).
    rewrite S in HC, HG, HW, X. cbn [w_cov w_gof w_circ w_output] in HC, HG, HW, X.
    set (d0 := writes (fit_writes o v ts b lr ls) []) in *.
    assert (TS : forall k n, nth_error (modules o) k = Some n -> nth_error ts k = Some (clock k)).
    { intros k n EN. destruct (nth_error ts k) as [t |] eqn:ET.
      - destruct (HT k n t EN ET) as (rr & E1 & E2). destruct (execute_runtime clock _ _ _ LM NM EX k n EN) as (rr' & E3 & E4). congruence.
      - exfalso. apply nth_error_None in ET. assert (k < length (modules o))%nat by (apply nth_error_Some; congruence). lia. }
    assert (CC : exists xs cobj, d1 = writes (map (fun x => ("runtime_covariance"%string, x)) xs) d0 /\ extends f cobj f1 /\
      (forall x, In x xs -> In ("runtime_covariance"%string, x) (fit_writes o v ts b lr ls)) /\
      (if w_cov c then exists items, dget "covariance" results = Some items /\
         Forall2 (fun nv ko => exists size m, snd nv = VMat size m /\ (length (names o) <= size)%nat /\
                 ko = ((w_output c ++ "_cov_matrix_" ++ fst nv)%string, OMap (cov_map o m)))
        (filter not_runtime items) cobj
       else cobj = [])).
    { destruct (w_cov c) eqn:WC; [| destruct HC as (-> & ->); exists [], []; split; [reflexivity |]; split; [apply extends_nil |]; split; [intros x [] | reflexivity]].
      destruct HC as (items & EI & HC). apply write_covariances_ok in HC as (xs & cobj & -> & HX & XC & FC).
      rewrite S in FC. exists xs, cobj. split; [reflexivity |]. split; [exact XC |]. split; [| exists items; auto].
      intros x I. apply HX in I. assert (IN : In "covariance"%string (modules o)).
      { rewrite EMN. unfold module_names. rewrite WC. apply in_or_app. right. right. left. reflexivity. }
      apply In_nth_error in IN as (k & EK). pose proof (runtime_unique o data results LM NM EX k _ items EK EI _ I) as [= ->].
      unfold fit_writes. apply in_or_app. right. apply in_or_app. left. apply (nth_error_In _ k). apply nth_error_combine.
      rewrite nth_error_map, EK. split; [reflexivity | exact (TS _ _ EK)]. }
    destruct CC as (xs & cobj & -> & XC & HXS & FC).
    assert (GG : exists gw gobj, d2 = writes gw (writes (map (fun x => ("runtime_covariance"%string, x)) xs) d0) /\ extends f1 gobj f2 /\
      (if w_gof c then exists gr gxs bs, dget "GoodnessOfFit" results = Some gr /\ length gxs = length gof_numbers /\
         (forall i k k' x, nth_error gof_numbers i = Some (k, k') -> nth_error gxs i = Some x -> dget k' gr = Some (VNum x)) /\
         gw = combine (map fst gof_numbers) gxs ++
             (if enabled "reconstruct_samples" (w_gof_settings c) then combine (map (fun n => (n ++ "_sample_reco_bias")%string) (names o)) bs else []) /\
         (if enabled "reconstruct_samples" (w_gof_settings c) then length bs = length (names o) /\
            exists bias, dget "sample_reco_bias" gr = Some (VVec bias) /\
            forall i, (i < length (names o))%nat -> nth_error bs i = nth_error bias i
          else True) /\
         exists sobj dobj, gobj = sobj ++ dobj /\
           (if enabled "reconstruct_samples" (w_gof_settings c) then exists size m, dget "sample_reco_cov" gr = Some (VMat size m) /\
             (length (names o) <= size)%nat /\ sobj = [((w_output c ++ "_cov_matrix_goodness_of_fit")%string, OMap (cov_map o m))]
            else sobj = []) /\
           (if enabled "add_per_dom_calculation" (w_gof_settings c) then exists p1 p2, dget "dom_p_value1" gr = Some (VDoms p1) /\
              dget "dom_p_value2" gr = Some (VDoms p2) /\
              dobj = [((w_output c ++ "_GoodnessOfFit_1sided")%string, ODoms (dom_map p1));
                      ((w_output c ++ "_GoodnessOfFit_2sided")%string, ODoms (dom_map p2))]
            else dobj = [])
       else gw = [] /\ gobj = [])).
    { destruct (w_gof c) eqn:WG; [| destruct HG as (-> & ->); exists [], []; split; [reflexivity |]; split; [apply extends_nil | split; reflexivity]].
      apply write_goodness_ok in HG as (samples & doms & gxs & bs & gobj & FS & FD & LX & HX & -> & XG & EG & HS & HD).
      apply (configured_flag _ _ _ _ C (or_introl eq_refl)) in FS. apply (configured_flag _ _ _ _ C (or_intror eq_refl)) in FD.
      rewrite <- FS, <- FD. eexists. exists gobj. split; [reflexivity |]. split; [exact XG |].
      assert (GR : exists gr, dget "GoodnessOfFit" results = Some gr).
      { destruct gxs as [| x gxs]; [discriminate |]. destruct (HX 0%nat _ _ x eq_refl eq_refl) as (gr & E & _). eauto. }
      destruct GR as (gr & EGR). exists gr, gxs, bs. split; [exact EGR |]. split; [exact LX |].
      split; [intros i k k' x E1 E2; destruct (HX i k k' x E1 E2) as (gr' & E3 & E4); congruence |].
      split; [reflexivity |]. rewrite S in EG. cbn [w_output] in EG. rewrite EGR in EG. split.
      - destruct samples; [| exact I]. destruct (HS eq_refl) as (LB & gr' & size & m & bias & E1 & E2 & LE & E3 & E4). split; [exact LB |].
        exists bias. split; [congruence | exact E4].
      - eexists. eexists. split; [exact EG |]. split.
        + destruct samples; [| reflexivity]. destruct (HS eq_refl) as (LB & gr' & size & m & bias & E1 & E2 & LE & E3 & E4).
          rewrite EGR in E1. injection E1 as <-. exists size, m. rewrite E2. auto.
        + destruct doms; [| reflexivity]. destruct (HD eq_refl) as (gr' & p1 & p2 & E1 & E2 & E3).
          rewrite EGR in E1. injection E1 as <-. exists p1, p2. rewrite E2, E3. auto. }
    destruct GG as (gw & gobj & -> & XG & HGG).
    exists data, results, r, best, rest, v, ts, b, lr, ls, xs, gw, w3, cobj, gobj.
    exists (match particle with Some p => [((w_output c ++ "_I3Particle")%string, OParticle p)] | None => [] end).
    do 11 (split; [first [eassumption | exact TS] |]).
    split; [rewrite !fold_left_app; exact (extends_trans _ _ _ _ _ XC (extends_trans _ _ _ _ _ XG X)) |].
    split; [exact HXS |]. split; [exact FC |]. split; [exact HGG |]. split; [exact HW |].
    destruct (n_mapping (k_manager o)) as [[| it m] |]; [rewrite HP; reflexivity | | rewrite HP; reflexivity].
    destruct HP as (p & -> & HP). exists p. auto.
  Qed.

  Lemma strip_keys (items : dict fval) : strip (map fst items) = map fst (filter not_runtime items).
  Proof.
    unfold not_runtime. induction items as [| (n, x) items IH]; [reflexivity |]. cbn [map fst filter].
    destruct (negb (n =? "runtime")%string); cbn [map fst]; rewrite IH; reflexivity.
  Qed.

  (** The objects of the frame stay and are followed by new ones with the keys
      listed in the specification; none of them was in the frame before. *)
  Theorem C119_objects c o f f' : configure c = Ok o -> physics o f = Ok f' ->
    exists data results added covs,
      get_data f = Ok (1%nat, data) /\ execute (k_tray o) data = Ok results /\ f' = f ++ added /\
      (if w_cov c then exists items, dget "covariance" results = Some items /\ covs = strip (map fst items) else covs = []) /\
      map fst added = object_keys (w_output c) covs (w_gof c && enabled "reconstruct_samples" (w_gof_settings c))
        (w_gof c && enabled "add_per_dom_calculation" (w_gof_settings c))
        (match n_mapping (k_manager o) with Some (_ :: _) => true | _ => false end) /\
      NoDup (map fst added) /\ forall k, In k (map fst added) -> ~ In k (map fst f).
  Proof.
    intros C P. apply (frame_ok c) in P as (data & results & r & best & rest & v & ts & b & lr & ls & xs & gw & w3 & cobj & gobj & pobj & GD & EX & _ & _ & _ & _ & _ & _ & _ & _ & _ & (EF & ND & DJ) & _ & HC & HG & HW & HP); [| exact C].
    exists data, results. eexists. exists (if w_cov c then match dget "covariance" results with Some items => strip (map fst items) | None => [] end else []).
    split; [exact GD |]. split; [exact EX |]. split; [exact EF |]. split.
    { destruct (w_cov c); [| reflexivity]. destruct HC as (items & EI & _). rewrite EI. eauto. }
    split; [| split; [exact ND | exact DJ]].
    rewrite !map_app. cbn [map fst]. unfold object_keys. f_equal; [| rewrite app_assoc; f_equal].
    - destruct (w_cov c); [| rewrite HC; reflexivity]. destruct HC as (items & EI & FC). rewrite EI. clear - FC.
      rewrite strip_keys. revert cobj FC.
      generalize (filter not_runtime items). intros l cobj FC. clear - FC.
      induction FC as [| (n, x) ko l cobj H F IH]; [reflexivity |]. destruct H as (size & m & _ & _ & ->). cbn. f_equal. exact IH.
    - destruct (w_gof c); cbn [andb]; [| destruct HG as (_ & ->); reflexivity].
      destruct HG as (gr & gxs & bs & _ & _ & _ & _ & _ & sobj & dobj & -> & HS & HD). rewrite map_app. f_equal.
      + destruct (enabled "reconstruct_samples" _); [destruct HS as (size & m & _ & _ & ->) | rewrite HS]; reflexivity.
      + destruct (enabled "add_per_dom_calculation" _); [destruct HD as (p1 & p2 & _ & _ & ->) | rewrite HD]; reflexivity.
    - destruct (n_mapping (k_manager o)) as [[| it m] |]; [rewrite HP; reflexivity | destruct HP as (p & -> & _); reflexivity | rewrite HP; reflexivity].
  Qed.

  (** A frame that has the output already is an error. *)
  Theorem C119_no_overwriting c o f : configure c = Ok o -> In (w_output c) (map fst f) -> exists e, physics o f = Err e.
  Proof.
    intros C I. destruct (physics o f) as [f' | e] eqn:P; [| eauto]. exfalso.
    destruct (C119_objects c o f f' C P) as (data & results & added & covs & _ & _ & _ & _ & EK & _ & DJ).
    apply (DJ (w_output c)); [| exact I]. rewrite EK. unfold object_keys. do 3 (apply in_or_app; right). left. reflexivity.
  Qed.

  Lemma extends_get f added f' k x : extends f added f' -> In (k, x) added -> dget k f' = Some x.
  Proof.
    intros (-> & ND & DJ) I. rewrite L_Tensor.dget_app.
    assert (IK : In k (map fst added)) by (apply in_map_iff; exists (k, x); auto).
    assert (N : dget k f = None) by (apply dget_None_iff; exact (DJ k IK)). rewrite N.
    destruct (dget k added) as [y |] eqn:E; [| apply dget_None_iff in E; contradiction].
    apply dget_In in E. rewrite (nodup_in_eq _ _ _ _ ND I E). reflexivity.
  Qed.

  Lemma all_writes_keys o v ts b lr ls gw w3 c gxs bs :
    length v = length (names o) -> length ts = length (modules o) ->
    (if w_gof c then length gxs = length gof_numbers /\ gw = combine (map fst gof_numbers) gxs ++
             (if enabled "reconstruct_samples" (w_gof_settings c) then combine (map (fun n => (n ++ "_sample_reco_bias")%string) (names o)) bs else []) /\
         (if enabled "reconstruct_samples" (w_gof_settings c) then length bs = length (names o) else True)
     else gw = []) ->
    (if w_circ c then exists x t, w3 = [("circular_unc", x); ("runtime_circular_err", t)]%string else w3 = []) ->
    map fst (fit_writes o v ts b lr ls ++ gw ++ w3) =
    result_keys (names o) (modules o) (w_gof c) (enabled "reconstruct_samples" (w_gof_settings c)) (w_circ c).
  Proof.
    intros LV LT HG HW. unfold fit_writes, result_keys. rewrite !map_app, !combine_keys by (rewrite ?map_length; assumption).
    rewrite <- !app_assoc. do 3 f_equal. f_equal.
    - destruct (w_gof c); [| rewrite HG; reflexivity]. destruct HG as (LX & -> & HB). rewrite map_app, combine_keys by (rewrite map_length; exact LX).
      destruct (enabled _ _); [rewrite combine_keys by (rewrite map_length; exact HB) |]; reflexivity.
    - destruct (w_circ c); [destruct HW as (x & t & ->) | rewrite HW]; reflexivity.
  Qed.

  (** The map of the result, when its keys are different *)
  Theorem C119_result c o f f' : configure c = Ok o -> physics o f = Ok f' ->
    NoDup (result_keys (names o) (modules o) (w_gof c) (enabled "reconstruct_samples" (w_gof_settings c)) (w_circ c)) ->
    exists data results best rest d b bias,
      get_data f = Ok (1%nat, data) /\ execute (k_tray o) data = Ok results /\
      dget (w_output c) f' = Some (OMap d) /\
      (exists r, dget "reco" results = Some r /\ dget "result" r = Some (VRows (best :: rest)) /\ dget "result_object" r = Some (VObj (Some b))) /\
      (forall i name, nth_error (names o) i = Some name -> exists x, nth_error best i = Some x /\ dget name d = Some x) /\
      (forall k n, nth_error (modules o) k = Some n -> dget ("runtime_" ++ n)%string d = Some (clock k)) /\
      dget "minimization_success" d = Some (if b then 1 else 0) /\
      Reports d "loss_reco" results "reco" "loss_reco" /\ Reports d "loss_seed" results "reco" "loss_seed" /\
      (w_gof c = true -> forall k k', In (k, k') goodness_numbers -> Reports d k results "GoodnessOfFit" k') /\
      (w_gof c = true -> enabled "reconstruct_samples" (w_gof_settings c) = true ->
         (exists r, dget "GoodnessOfFit" results = Some r /\ dget "sample_reco_bias" r = Some (VVec bias)) /\
         forall i name, nth_error (names o) i = Some name ->
           exists x, nth_error bias i = Some x /\ dget (name ++ "_sample_reco_bias")%string d = Some x) /\
      (w_circ c = true -> Reports d "circular_unc" results "CircularizedAngularUncertainty" "circular_unc" /\
         Reports d "runtime_circular_err" results "CircularizedAngularUncertainty" "runtime") /\
      forall k, In k (map fst d) <->
        In k (result_keys (names o) (modules o) (w_gof c) (enabled "reconstruct_samples" (w_gof_settings c)) (w_circ c)).
  Proof.
    intros C P ND. apply (frame_ok c) in P as (data & results & r & best & rest & v & ts & b & lr & ls & xs & gw & w3 & cobj & gobj & pobj & GD & EX & ER & EB & EO & ELR & ELS & LV & HV & LT & HT & XF & HXS & HC & HG & HW & HP); [| exact C].
    set (W := fit_writes o v ts b lr ls ++ map (fun x => ("runtime_covariance"%string, x)) xs ++ gw ++ w3) in *.
    assert (KEYS : map fst (fit_writes o v ts b lr ls ++ gw ++ w3) =
      result_keys (names o) (modules o) (w_gof c) (enabled "reconstruct_samples" (w_gof_settings c)) (w_circ c)).
    { destruct (w_gof c) eqn:WG.
      - destruct HG as (gr & gxs & bs & EGR & LX & HX & EGW & HB & _). pose proof (all_writes_keys o v ts b lr ls gw w3 c gxs bs LV LT) as AK.
        rewrite WG in AK. apply AK.
        + split; [exact LX |]. split; [exact EGW |]. destruct (enabled _ _); [exact (proj1 HB) | exact I].
        + destruct (w_circ c); [destruct HW as (cr & x & t & _ & _ & _ & ->); eauto | exact HW].
      - pose proof (all_writes_keys o v ts b lr ls gw w3 c [] [] LV LT) as AK. rewrite WG in AK. apply AK; [exact (proj1 HG) |].
        destruct (w_circ c); [destruct HW as (cr & x & t & _ & _ & _ & ->); eauto | exact HW]. }
    assert (SUB : forall k x, In (k, x) W -> In (k, x) (fit_writes o v ts b lr ls ++ gw ++ w3)).
    { intros k x I. unfold W in I. apply in_app_or in I as [I | I]; [apply in_or_app; left; exact I |].
      apply in_app_or in I as [I | I]; [| apply in_or_app; right; exact I].
      apply in_map_iff in I as (y & [= <- <-] & I). apply in_or_app. left. exact (HXS y I). }
    assert (SUP : forall k x, In (k, x) (fit_writes o v ts b lr ls ++ gw ++ w3) -> In (k, x) W).
    { intros k x I. unfold W. apply in_app_or in I as [I | I]; apply in_or_app; [left; exact I | right; apply in_or_app; right; exact I]. }
    assert (GET : forall k x, In (k, x) (fit_writes o v ts b lr ls ++ gw ++ w3) -> dget k (writes W []) = Some x).
    { intros k x I. apply writes_get; [exact (SUP _ _ I) |]. intros y J. apply SUB in J.
      refine (nodup_in_eq _ _ _ _ _ I J). rewrite KEYS. exact ND. }
    assert (FIT : forall k x, In (k, x) (fit_writes o v ts b lr ls) -> dget k (writes W []) = Some x).
    { intros k x I. apply GET. apply in_or_app. left. exact I. }
    exists data, results, best, rest, (writes W []), b.
    exists (if w_gof c then match dget "GoodnessOfFit" results with
       Some gr => match dget "sample_reco_bias" gr with Some (VVec bias) => bias | _ => [] end | None => [] end else []).
    split; [exact GD |]. split; [exact EX |]. split.
    { apply (extends_get _ _ _ _ _ XF). do 2 (apply in_or_app; right). left. reflexivity. }
    split; [exists r; auto |]. split.
    { intros i name EN. assert (LI : (i < length (names o))%nat) by (apply nth_error_Some; congruence).
      destruct (nth_error v i) as [x |] eqn:EV; [| apply nth_error_None in EV; lia]. exists x. split; [rewrite <- (HV i LI); exact EV |].
      apply FIT. unfold fit_writes. apply in_or_app. left. apply (nth_error_In _ i), nth_error_combine. auto. }
    split.
    { intros k n EN. apply FIT. unfold fit_writes. apply in_or_app. right. apply in_or_app. left.
      apply (nth_error_In _ k), nth_error_combine. rewrite nth_error_map, EN. split; [reflexivity | exact (HT _ _ EN)]. }
    split; [apply FIT; unfold fit_writes; do 2 (apply in_or_app; right); left; reflexivity |].
    split; [exists lr; split; [unfold number; rewrite ER, ELR; reflexivity | apply FIT; unfold fit_writes; do 2 (apply in_or_app; right); right; left; reflexivity] |].
    split; [exists ls; split; [unfold number; rewrite ER, ELS; reflexivity | apply FIT; unfold fit_writes; do 2 (apply in_or_app; right); right; right; left; reflexivity] |].
    split.
    { intros WG k k' I. rewrite WG in HG. destruct HG as (gr & gxs & bs & EGR & LX & HX & EGW & _).
      change goodness_numbers with gof_numbers in I. apply In_nth_error in I as (i & EI).
      destruct (nth_error gxs i) as [x |] eqn:EV; [| apply nth_error_None in EV; assert (i < length gof_numbers)%nat by (apply nth_error_Some; congruence); lia].
      exists x. split; [unfold number; rewrite EGR, (HX i k k' x EI EV); reflexivity |].
      apply GET. apply in_or_app. right. apply in_or_app. left. rewrite EGW. apply in_or_app. left.
      apply (nth_error_In _ i), nth_error_combine. rewrite nth_error_map, EI. auto. }
    split.
    { intros WG WS. rewrite WG in HG |- *. rewrite WS in HG. destruct HG as (gr & gxs & bs & EGR & LX & HX & EGW & (LB & bias & EBI & HB) & _).
      rewrite EGR, EBI. split; [exists gr; auto |]. intros i name EN. assert (LI : (i < length (names o))%nat) by (apply nth_error_Some; congruence).
      destruct (nth_error bs i) as [x |] eqn:EV; [| apply nth_error_None in EV; lia]. exists x. split; [rewrite <- (HB i LI); exact EV |].
      apply GET. apply in_or_app. right. apply in_or_app. left. rewrite EGW. apply in_or_app. right.
      apply (nth_error_In _ i), nth_error_combine. rewrite nth_error_map, EN. auto. }
    split.
    { intros WC. rewrite WC in HW. destruct HW as (cr & x & t & ECR & EXX & ETT & EW3). split; [exists x | exists t]; (split; [unfold number; rewrite ECR, ?EXX, ?ETT; reflexivity |]);
        apply GET; do 2 (apply in_or_app; right); rewrite EW3; [left | right; left]; reflexivity. }
    intros k. rewrite writes_keys, <- KEYS. cbn [map In]. split.
    - intros [[] | I]. apply in_map_iff in I as ((k0, x) & <- & I). apply in_map_iff. exists (k0, x). split; [reflexivity | exact (SUB _ _ I)].
    - intros I. right. apply in_map_iff in I as ((k0, x) & <- & I). apply in_map_iff. exists (k0, x). split; [reflexivity | exact (SUP _ _ I)].
  Qed.

  (** ** C120: covariances *)

  (** Every matrix of the covariance is written as a map with its upper triangle,
      the axes named after the parameters, with "log_" for those in the logarithm. *)
  Theorem C120_matrices c o f f' data results items : configure c = Ok o -> physics o f = Ok f' ->
    get_data f = Ok (1%nat, data) -> execute (k_tray o) data = Ok results -> w_cov c = true -> dget "covariance" results = Some items ->
    NoDup (names o) -> NoDup (triangle (axes (names o) (n_log (k_manager o)))) ->
    forall name v, In (name, v) items -> name <> "runtime"%string ->
      exists size m d, v = VMat size m /\ (length (names o) <= size)%nat /\
        dget (w_output c ++ "_cov_matrix_" ++ name)%string f' = Some (OMap d) /\
        Triangle (axes (names o) (n_log (k_manager o))) m d.
  Proof.
    intros C P GD EX WC EI NN NT name v I NE. destruct (configured_settings _ _ C) as (_ & EL & _).
    apply (frame_ok c) in P as (data' & results' & r & best & rest & v' & ts & b & lr & ls & xs & gw & w3 & cobj & gobj & pobj & GD' & EX' & _ & _ & _ & _ & _ & _ & _ & _ & _ & XF & _ & HC & _); [| exact C].
    rewrite GD in GD'. injection GD' as <-. rewrite EX in EX'. injection EX' as <-. rewrite WC in HC. destruct HC as (items' & EI' & FC).
    rewrite EI in EI'. injection EI' as <-.
    assert (IF : In (name, v) (filter not_runtime items)).
    { apply filter_In. split; [exact I |]. unfold not_runtime. cbn [fst]. rewrite (proj2 (String.eqb_neq _ _) NE). reflexivity. }
    assert (X : exists ko, In ko cobj /\ exists size m, v = VMat size m /\ (length (names o) <= size)%nat /\
                 ko = ((w_output c ++ "_cov_matrix_" ++ name)%string, OMap (cov_map o m))).
    { clear - FC IF. induction FC as [| nv ko l cobj H F IH]; [destruct IF |]. destruct IF as [-> | IF].
      - exists ko. split; [left; reflexivity | exact H].
      - destruct (IH IF) as (ko' & I' & H'). exists ko'. split; [right; exact I' | exact H']. }
    destruct X as (ko & IK & size & m & -> & LE & ->). exists size, m, (cov_map o m). split; [reflexivity |]. split; [exact LE |]. split.
    - apply (extends_get _ _ _ _ _ XF). apply in_or_app. left. exact IK.
    - unfold cov_map. rewrite (axes_cov _ _ _ NN EL). apply triangle_ok. exact NT.
  Qed.
  (** So is that of the sampled reconstructions. *)
  Theorem C120_samples c o f f' data results : configure c = Ok o -> physics o f = Ok f' ->
    get_data f = Ok (1%nat, data) -> execute (k_tray o) data = Ok results -> w_gof c = true ->
    enabled "reconstruct_samples" (w_gof_settings c) = true ->
    NoDup (names o) -> NoDup (triangle (axes (names o) (n_log (k_manager o)))) ->
    exists r size m d, dget "GoodnessOfFit" results = Some r /\ dget "sample_reco_cov" r = Some (VMat size m) /\
      (length (names o) <= size)%nat /\
      dget (w_output c ++ "_cov_matrix_goodness_of_fit")%string f' = Some (OMap d) /\
      Triangle (axes (names o) (n_log (k_manager o))) m d.
  Proof.
    intros C P GD EX WG WS NN NT. destruct (configured_settings _ _ C) as (_ & EL & _).
    apply (frame_ok c) in P as (data' & results' & r & best & rest & v' & ts & b & lr & ls & xs & gw & w3 & cobj & gobj & pobj & GD' & EX' & _ & _ & _ & _ & _ & _ & _ & _ & _ & XF & _ & _ & HG & _); [| exact C].
    rewrite GD in GD'. injection GD' as <-. rewrite EX in EX'. injection EX' as <-. rewrite WG, WS in HG.
    destruct HG as (gr & gxs & bs & EGR & _ & _ & _ & _ & sobj & dobj & -> & (size & m & ESC & LE & ->) & _).
    exists gr, size, m, (cov_map o m). do 3 (split; [assumption |]). split.
    - apply (extends_get _ _ _ _ _ XF). apply in_or_app. right. apply in_or_app. left. left. reflexivity.
    - unfold cov_map. rewrite (axes_cov _ _ _ NN EL). apply triangle_ok. exact NT.
  Qed.

  Lemma base_keys (n m : list string) : result_keys n m false false false =
    n ++ map (fun n => ("runtime_" ++ n)%string) m ++ ["minimization_success"; "loss_reco"; "loss_seed"]%string.
  Proof. reflexivity. Qed.
  Lemma all_keys (n m : list string) g s w : result_keys n m g s w = (result_keys n m false false false
    ++ (if g then ["goodness_of_fit_1sided"; "goodness_of_fit_2sided"; "goodness_loss_sample_min"; "goodness_loss_sample_max";
                   "goodness_loss_sample_mean"; "goodness_loss_sample_median"; "goodness_loss_sample_std"; "goodness_loss_data_fit"]%string
                  ++ (if s then map (fun n => (n ++ "_sample_reco_bias")%string) n else [])
      else []))
    ++ (if w then ["circular_unc"; "runtime_circular_err"]%string else []).
  Proof. rewrite base_keys. unfold result_keys. rewrite <- !app_assoc. reflexivity. Qed.

  (** ** C121: particles, DOMs and failures *)

  (** The particle has the attributes of the mapping with the values of the map. *)
  Theorem C121_particle c o f f' m : configure c = Ok o -> physics o f = Ok f' -> n_mapping (k_manager o) = Some m -> m <> [] ->
    NoDup (map fst m) ->
    NoDup (result_keys (names o) (modules o) (w_gof c) (enabled "reconstruct_samples" (w_gof_settings c)) (w_circ c)) ->
    exists p d, dget (w_output c ++ "_I3Particle")%string f' = Some (OParticle p) /\ dget (w_output c) f' = Some (OMap d) /\
      (forall key param, In (key, param) m -> exists x, dget param d = Some x /\ attribute p key = Some x /\
         In param (result_keys (names o) (modules o) false false false)) /\
      forall key, ~ In key (map fst m) -> attribute p key = None.
  Proof.
    intros C P EM NE NM ND.
    destruct (C119_result c o f f' C P ND) as (data' & results' & best' & rest' & d & b' & bias & GD' & EX' & ED & _ & NAMES & RUN & _ & _ & _ & _ & _ & _ & KEYSD).
    pose proof P as P0. apply (frame_ok c) in P as (data & results & r & best & rest & v & ts & b & lr & ls & xs & gw & w3 & cobj & gobj & pobj & GD & EX & ER & EB & EO & ELR & ELS & LV & HV & LT & HT & XF & HXS & HC & HG & HW & HP); [| exact C].
    rewrite EM in HP. destruct m as [| it m]; [congruence |]. destruct HP as (p & -> & HP).
    exists p, d. split; [apply (extends_get _ _ _ _ _ XF); do 2 (apply in_or_app; right); right; left; reflexivity |].
    split; [exact ED |].
    assert (SELF : forall k v0, In (k, v0) (it :: m) -> dget k (it :: m) = Some v0).
    { intros k v0 I. destruct (dget k (it :: m)) as [y |] eqn:E.
      - apply dget_In in E. rewrite (nodup_in_eq _ _ _ _ NM I E). reflexivity.
      - apply dget_None_iff in E. exfalso. apply E. apply in_map_iff. exists (k, v0). auto. }
    destruct (fill_particle_ok _ _ _ _ _ NM SELF HP) as (H1 & H2 & H3 & H4 & _).
    assert (FK : map fst (fit_writes o v ts b lr ls) = result_keys (names o) (modules o) false false false).
    { rewrite base_keys. unfold fit_writes. rewrite !map_app, !combine_keys by (rewrite ?map_length; assumption). reflexivity. }
    assert (DD : d = writes (fit_writes o v ts b lr ls ++ map (fun x => ("runtime_covariance"%string, x)) xs ++ gw ++ w3) []).
    { rewrite (extends_get _ _ _ (w_output c) _ XF ltac:(do 2 (apply in_or_app; right); left; reflexivity)) in ED. injection ED as <-. reflexivity. }
    split.
    - intros key param I. destruct (H1 key param I) as (x & EP & EA). exists x.
      assert (IP : In param (result_keys (names o) (modules o) false false false)).
      { apply dget_Some_In_keys in EP. apply writes_keys in EP as [[] | EP]. rewrite FK in EP. exact EP. }
      split; [| split; [exact EA | exact IP]].
      (* later writes have other keys, or the same value *)
      rewrite DD. rewrite !fold_left_app.
      assert (OTH : forall k, In k (result_keys (names o) (modules o) false false false) -> ~ In k (map fst gw) /\ ~ In k (map fst w3)).
      { intros k IK. rewrite all_keys in ND.
        assert (GW : map fst gw = if w_gof c then ["goodness_of_fit_1sided"; "goodness_of_fit_2sided"; "goodness_loss_sample_min"; "goodness_loss_sample_max";
                   "goodness_loss_sample_mean"; "goodness_loss_sample_median"; "goodness_loss_sample_std"; "goodness_loss_data_fit"]%string
                  ++ (if enabled "reconstruct_samples" (w_gof_settings c) then map (fun n => (n ++ "_sample_reco_bias")%string) (names o) else []) else []).
        { destruct (w_gof c); [| rewrite (proj1 HG); reflexivity]. destruct HG as (gr & gxs & bs & _ & LX & _ & -> & HB & _).
          rewrite map_app, combine_keys by (rewrite map_length; exact LX). destruct (enabled _ _); [rewrite combine_keys by (rewrite map_length; exact (proj1 HB)) |]; reflexivity. }
        assert (W3 : map fst w3 = if w_circ c then ["circular_unc"; "runtime_circular_err"]%string else []).
        { destruct (w_circ c); [destruct HW as (cr & x0 & t0 & _ & _ & _ & ->) | rewrite HW]; reflexivity. }
        rewrite GW, W3. clear - ND IK.
        assert (SEP : forall (l1 l2 : list string), NoDup (l1 ++ l2) -> forall k, In k l1 -> ~ In k l2).
        { clear. intros l1 l2. induction l1 as [| a l1 IH]; intros N k I1 I2; [destruct I1 |]. cbn in N. inversion N; subst.
          destruct I1 as [-> | I1]; [apply H1, in_or_app; right; exact I2 | exact (IH H2 k I1 I2)]. }
        split; intros J.
        - apply nodup_app_l in ND. exact (SEP _ _ ND k IK J).
        - exact (SEP _ _ ND k ltac:(apply in_or_app; left; exact IK) J). }
      destruct (OTH param IP) as (NG & NW).
      rewrite (fold_dset_other param w3) by exact NW. rewrite (fold_dset_other param gw) by exact NG.
      destruct (string_dec param "runtime_covariance") as [-> | NR].
      + destruct xs as [| x0 xs']; [exact EP |].
        assert (ALL : forall y, In y (x0 :: xs') -> y = x).
        { intros y IY. apply HXS in IY. apply dget_In in EP.
          assert (NDF : NoDup (map fst (fit_writes o v ts b lr ls))).
          { rewrite FK. clear - ND. rewrite all_keys in ND. apply nodup_app_l, nodup_app_l in ND. exact ND. }
          assert (EP' : In ("runtime_covariance"%string, x) (fit_writes o v ts b lr ls)).
          { assert (Q : dget "runtime_covariance" (writes (fit_writes o v ts b lr ls) []) = Some y) by (apply fold_dset_get; assumption).
            assert (Q' : dget "runtime_covariance" (writes (fit_writes o v ts b lr ls) []) = Some x).
            { destruct (H1 key _ I) as (x1 & E1 & E2). congruence. }
            replace x with y by congruence. exact IY. }
          symmetry. exact (nodup_in_eq _ _ _ _ NDF IY EP'). }
        apply writes_get; [left; rewrite (ALL x0 (or_introl eq_refl)); reflexivity |].
        intros y IY. apply in_map_iff in IY as (y' & [= <-] & IY). exact (ALL y' IY).
      + rewrite fold_dset_other; [exact EP |]. intros J. apply in_map_iff in J as ((k0, y) & EQ & J). apply in_map_iff in J as (y' & [= <- <-] & _). cbn in EQ. congruence.
    - intros key NI.
      assert (TD : ~ In "zenith"%string (map fst (it :: m)) \/ ~ In "azimuth"%string (map fst (it :: m)) -> t_dir p = None).
      { intros NZ. destruct H3 as [-> | (z & a & zp & ap & _ & MZ & _ & MA & _)]; [reflexivity |]. exfalso.
        apply dget_Some_In_keys in MZ. apply dget_Some_In_keys in MA. destruct NZ as [NZ | NZ]; apply NZ; assumption. }
      destruct (string_dec key "zenith") as [-> | NZ]; [unfold attribute; cbn; rewrite (TD (or_introl NI)); reflexivity |].
      destruct (string_dec key "azimuth") as [-> | NA]; [unfold attribute; cbn; rewrite (TD (or_intror NI)); reflexivity |].
      rewrite (H2 key NI NZ NA). unfold attribute. cbn. repeat (destruct (String.eqb _ _); [reflexivity |]). reflexivity.
  Qed.

  (** A direction needs both angles in the mapping, and every parameter of the
      mapping must be in the map. *)
  Theorem C121_direction c o f m : configure c = Ok o -> n_mapping (k_manager o) = Some m -> NoDup (map fst m) ->
    (In "zenith"%string (map fst m) /\ ~ In "azimuth"%string (map fst m)) \/ (In "azimuth"%string (map fst m) /\ ~ In "zenith"%string (map fst m)) ->
    exists e, physics o f = Err e.
  Proof.
    intros C EM NM H. destruct (physics o f) as [f' | e] eqn:P; [| eauto]. exfalso.
    apply (frame_ok c) in P as (data & results & r & best & rest & v & ts & b & lr & ls & xs & gw & w3 & cobj & gobj & pobj & _ & _ & _ & _ & _ & _ & _ & _ & _ & _ & _ & _ & _ & _ & _ & _ & HP); [| exact C].
    rewrite EM in HP. destruct m as [| it m]; [destruct H as [([] & _) | ([] & _)] |]. destruct HP as (p & _ & HP).
    assert (SELF : forall k v0, In (k, v0) (it :: m) -> dget k (it :: m) = Some v0).
    { intros k v0 I. destruct (dget k (it :: m)) as [y |] eqn:E.
      - apply dget_In in E. rewrite (nodup_in_eq _ _ _ _ NM I E). reflexivity.
      - apply dget_None_iff in E. exfalso. apply E. apply in_map_iff. exists (k, v0). auto. }
    destruct (fill_particle_ok _ _ _ _ _ NM SELF HP) as (_ & _ & H3 & H4 & _).
    destruct H3 as [T | (z & a & zp & ap & _ & MZ & _ & MA & _)].
    - apply H4; [destruct H as [(I & _) | (I & _)]; auto | exact T].
    - apply dget_Some_In_keys in MZ, MA. destruct H as [(_ & N) | (_ & N)]; apply N; assumption.
  Qed.
  Theorem C121_unknown_parameter c o f m key param : configure c = Ok o -> n_mapping (k_manager o) = Some m -> NoDup (map fst m) ->
    In (key, param) m -> ~ In param (result_keys (names o) (modules o) false false false) -> exists e, physics o f = Err e.
  Proof.
    intros C EM NM I NI. destruct (physics o f) as [f' | e] eqn:P; [| eauto]. exfalso.
    apply (frame_ok c) in P as (data & results & r & best & rest & v & ts & b & lr & ls & xs & gw & w3 & cobj & gobj & pobj & _ & _ & _ & _ & _ & _ & _ & LV & _ & LT & _ & _ & _ & _ & _ & _ & HP); [| exact C].
    rewrite EM in HP. destruct m as [| it m]; [destruct I |]. destruct HP as (p & _ & HP).
    assert (SELF : forall k v0, In (k, v0) (it :: m) -> dget k (it :: m) = Some v0).
    { intros k v0 I0. destruct (dget k (it :: m)) as [y |] eqn:E.
      - apply dget_In in E. rewrite (nodup_in_eq _ _ _ _ NM I0 E). reflexivity.
      - apply dget_None_iff in E. exfalso. apply E. apply in_map_iff. exists (k, v0). auto. }
    destruct (fill_particle_ok _ _ _ _ _ NM SELF HP) as (H1 & _). destruct (H1 key param I) as (x & EP & _).
    apply dget_Some_In_keys in EP. apply writes_keys in EP as [[] | EP]. apply NI.
    unfold fit_writes in EP. rewrite !map_app, !combine_keys in EP by (rewrite ?map_length; assumption).
    rewrite base_keys. exact EP.
  Qed.

  (** p-values of DOMs: the values of all 86 strings with 60 DOMs each *)
  Lemma dom_map_spec p s om x : In ((s, om), x) (dom_map p) <->
    (1 <= s <= 86)%nat /\ (1 <= om <= 60)%nat /\ x = p (s - 1)%nat (om - 1)%nat.
  Proof.
    unfold dom_map. rewrite in_flat_map. split.
    - intros (s0 & IS & I). apply in_map_iff in I as (om0 & E & IO). apply in_seq in IS, IO. injection E as <- <- <-.
      split; [lia |]. split; [lia |]. f_equal; lia.
    - intros (LS & LO & ->). exists (s - 1)%nat. split; [apply in_seq; lia |]. apply in_map_iff. exists (om - 1)%nat.
      split; [f_equal; f_equal; lia | apply in_seq; lia].
  Qed.
  Theorem C121_doms c o f f' data results : configure c = Ok o -> physics o f = Ok f' ->
    get_data f = Ok (1%nat, data) -> execute (k_tray o) data = Ok results -> w_gof c = true ->
    enabled "add_per_dom_calculation" (w_gof_settings c) = true ->
    exists r p1 p2 l1 l2, dget "GoodnessOfFit" results = Some r /\
      dget "dom_p_value1" r = Some (VDoms p1) /\ dget "dom_p_value2" r = Some (VDoms p2) /\
      dget (w_output c ++ "_GoodnessOfFit_1sided")%string f' = Some (ODoms l1) /\
      dget (w_output c ++ "_GoodnessOfFit_2sided")%string f' = Some (ODoms l2) /\
      (forall s om x, In ((s, om), x) l1 <-> (1 <= s <= 86)%nat /\ (1 <= om <= 60)%nat /\ x = p1 (s - 1)%nat (om - 1)%nat) /\
      (forall s om x, In ((s, om), x) l2 <-> (1 <= s <= 86)%nat /\ (1 <= om <= 60)%nat /\ x = p2 (s - 1)%nat (om - 1)%nat).
  Proof.
    intros C P GD EX WG WS.
    apply (frame_ok c) in P as (data' & results' & r & best & rest & v' & ts & b & lr & ls & xs & gw & w3 & cobj & gobj & pobj & GD' & EX' & _ & _ & _ & _ & _ & _ & _ & _ & _ & XF & _ & _ & HG & _); [| exact C].
    rewrite GD in GD'. injection GD' as <-. rewrite EX in EX'. injection EX' as <-. rewrite WG, WS in HG.
    destruct HG as (gr & gxs & bs & EGR & _ & _ & _ & _ & sobj & dobj & -> & _ & (p1 & p2 & E1 & E2 & ->)).
    exists gr, p1, p2, (dom_map p1), (dom_map p2). do 3 (split; [assumption |]).
    split; [apply (extends_get _ _ _ _ _ XF); apply in_or_app; right; apply in_or_app; left; apply in_or_app; right; left; reflexivity |].
    split; [apply (extends_get _ _ _ _ _ XF); apply in_or_app; right; apply in_or_app; left; apply in_or_app; right; right; left; reflexivity |].
    split; intros; apply dom_map_spec.
  Qed.

  (** Frames with another number of events than one, and minimisers whose result
      has no attribute [success], are errors. *)
  Theorem C121_one_event o f n data : get_data f = Ok (n, data) -> n <> 1%nat -> physics o f = Err AssertionError.
  Proof. intros E N. unfold M_Frame.physics. rewrite E. cbn [bind]. rewrite (proj2 (Nat.eqb_neq _ _) N). reflexivity. Qed.
  Theorem C121_no_success o f data results r : get_data f = Ok (1%nat, data) -> execute (k_tray o) data = Ok results ->
    dget "reco" results = Some r -> dget "result_object" r = Some (VObj None) -> exists e, physics o f = Err e.
  Proof.
    intros GD EX ER EO. destruct (physics o f) as [f' | e] eqn:P; [| eauto]. exfalso.
    apply physics_ok in P as (data' & results' & r' & best & rest & v & ts & b & lr & ls & GD' & EX' & ER' & EB & EO' & _).
    rewrite GD in GD'. injection GD' as <-. rewrite EX in EX'. injection EX' as <-. congruence.
  Qed.
End Frame.

(** ** Examples *)
Definition ex_manager : fmanager :=
  mk_fmanager ["cascade_x"; "cascade_zenith"; "cascade_azimuth"; "cascade_energy"]%string [false; false; false; true]
    (Some [("x", "cascade_x"); ("zenith", "cascade_zenith"); ("azimuth", "cascade_azimuth"); ("energy", "cascade_energy")]%string).
Definition ex_make (n : nat) (best : list R) (flags : list bool) (key : option string) (sp : M_TestReco.spec) : result (module fval nat) :=
  Ok (fun _ _ => Ok (match sp with
    | M_TestReco.SReco _ _ _ => [("result", VRows [best])]
    | M_TestReco.SSelect _ => [("result", VRows [best]); ("result_object", VObj (Some true)); ("loss_reco", VNum 8); ("loss_seed", VNum 9)]
    | M_TestReco.SCov => [("inv_hessian", VMat n (fun i j => if Nat.eqb i 0 then INR j else 0)); ("fisher", VMat n (fun _ _ => 1))]
    | M_TestReco.SGof => app (map (fun k => (k, VNum 1)) (map snd goodness_numbers))
        [("sample_reco_cov", VMat n (fun _ _ => 2)); ("sample_reco_bias", VVec best);
         ("dom_p_value1", VDoms (fun _ _ => 1)); ("dom_p_value2", VDoms (fun _ _ => 0))]
    | M_TestReco.SCirc => [("circular_unc", VNum 7)]
    | _ => []
    end))%string.
Definition ex_config (cov gof circ : bool) : frame_settings :=
  mk_frame_settings (M_TestReco.Seeds ["a"; "b"]%string) (M_TestReco.OneSeed "model") (Some "base"%string) "out" circ cov gof true
    [("cascade_x"%string, false)] [].
Definition ex_load (m : fmanager) (dirs : list string) : result fmanager :=
  match dirs with ["base/model"%string] => Ok m | _ => Err IOError end.
Definition ex_physics (m : fmanager) (best : list R) (c : frame_settings) (f : frame) : result frame :=
  bind (frame_configure (ex_load m) (ex_make (length best) best) c) (fun o =>
  physics (fun k => INR k) (fun _ => Ok (1%nat, 0%nat)) o f).

Example C119_run : exists f', ex_physics ex_manager [1; 2; 3; 4] (ex_config true true true) [("pulses"%string, OOther 0)] = Ok f' /\
  map fst f' = ["pulses"; "out_cov_matrix_inv_hessian"; "out_cov_matrix_fisher"; "out_cov_matrix_goodness_of_fit";
    "out_GoodnessOfFit_1sided"; "out_GoodnessOfFit_2sided"; "out"; "out_I3Particle"]%string.
Proof. eexists. split; [cbv -[dom_map IZR INR]; reflexivity | reflexivity]. Qed.
Example C119_run_twice : ex_physics ex_manager [1; 2; 3; 4] (ex_config false false false) [("out"%string, OOther 0)] = Err RuntimeError.
Proof. cbv -[dom_map IZR INR]. reflexivity. Qed.
Example C119_keys : NoDup (result_keys (n_names ex_manager) (module_names (ex_config true true true)) true true true).
Proof.
  cbv -[In]. repeat (constructor; [cbn; intuition discriminate |]). constructor.
Qed.
Example C120_axes : axes (n_names ex_manager) (n_log ex_manager) = ["cascade_x"; "cascade_zenith"; "cascade_azimuth"; "log_cascade_energy"]%string /\
  NoDup (triangle (axes (n_names ex_manager) (n_log ex_manager))).
Proof.
  split; [reflexivity |]. cbv -[In]. repeat (constructor; [cbn; intuition discriminate |]). constructor.
Qed.
Example C121_run : exists f' p, ex_physics ex_manager [1; 2; 3; 4] (ex_config false false false) [] = Ok f' /\
  dget "out_I3Particle" f' = Some (OParticle p) /\ p = mk_i3particle (Some 1) None None (Some (2, 3)) [("energy"%string, 4)].
Proof. eexists. eexists. split; [cbv -[dom_map IZR INR]; reflexivity |]. split; reflexivity. Qed.
Example C121_run_direction :
  ex_physics (mk_fmanager ["a"; "b"]%string [false; false] (Some [("zenith", "a")]%string)) [1; 2]
    (mk_frame_settings (M_TestReco.OneSeed "a") (M_TestReco.OneSeed "model") (Some "base"%string) "out" false false false true [] []) [] = Err KeyError.
Proof. cbv -[dom_map IZR INR]. reflexivity. Qed.
Example C121_run_keyword :
  ex_physics ex_manager [1; 2; 3; 4] (mk_frame_settings (M_TestReco.OneSeed "a") (M_TestReco.OneSeed "model") (Some "base"%string) "out" false false true true []
    [("covariance_key"%string, None)]) [] = Err TypeError.
Proof. cbv -[dom_map IZR INR]. reflexivity. Qed.

(** A parameter with the name of another entry is lost: that of the name "loss_reco"
    has the value of the loss. *)
Theorem C119_collision_refuted : exists f' d,
  ex_physics (mk_fmanager ["a"; "loss_reco"]%string [false; false] None) [1; 2]
    (mk_frame_settings (M_TestReco.OneSeed "a") (M_TestReco.OneSeed "model") (Some "base"%string) "out" false false false true [] []) [] = Ok f' /\
  dget "out" f' = Some (OMap d) /\ dget "loss_reco" d = Some 8 /\ 8 <> 2.
Proof. eexists. eexists. split; [cbv -[dom_map IZR INR]; reflexivity |]. split; [reflexivity |]. split; [reflexivity | lra]. Qed.

(** Different pairs of parameters may have the same key: for "a", "b_c", "a_b" and
    "c" the covariance of the first two is lost. *)
Theorem C120_collision_refuted : exists f' d,
  NoDup ["a"; "b_c"; "a_b"; "c"]%string /\
  ex_physics (mk_fmanager ["a"; "b_c"; "a_b"; "c"]%string [false; false; false; false] None) [1; 2; 3; 4]
    (mk_frame_settings (M_TestReco.OneSeed "a") (M_TestReco.OneSeed "model") (Some "base"%string) "out" false true false true [] []) [] = Ok f' /\
  dget "out_cov_matrix_inv_hessian" f' = Some (OMap d) /\
  ~ Triangle ["a"; "b_c"; "a_b"; "c"]%string (fun i j => if Nat.eqb i 0 then INR j else 0) d.
Proof.
  eexists. eexists. split; [repeat (constructor; [cbn; intuition discriminate |]); constructor |].
  split; [cbv -[dom_map IZR INR]; reflexivity |]. split; [reflexivity |]. intros (T & _).
  specialize (T 0%nat 1%nat "a"%string "b_c"%string ltac:(lia) eq_refl eq_refl). cbn in T. injection T as T. lra.
Qed.
Print Assumptions C119_configured.
Print Assumptions C119_configurable.
Print Assumptions C119_objects.
Print Assumptions C119_no_overwriting.
Print Assumptions C119_result.
Print Assumptions C120_matrices.
Print Assumptions C120_samples.
Print Assumptions C121_particle.
Print Assumptions C121_direction.
Print Assumptions C121_unknown_parameter.
Print Assumptions C121_doms.
Print Assumptions C121_one_event.
Print Assumptions C121_no_success.
Print Assumptions C119_collision_refuted.
Print Assumptions C120_collision_refuted.
