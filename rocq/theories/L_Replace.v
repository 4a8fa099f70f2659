(** Proofs about replacing sub-components on load. *)
From Verif Require Import Py PyFacts PyStr PyStrFacts M_Config S_Config L_Config M_Component S_Component L_Component L_Load.

Section Replace.
Variable rv : string.
Variable kn : string -> bool.
Variable kind_of : string -> kind.
Variable rebuild : dict value -> result value.

Notation load := (load rv kn kind_of rebuild).
Notation load_loop := (load_loop rv kn).

(** Everything but the recorded sub-configurations. *)
Definition same_rest (a b : config) : Prop :=
  c_settings a = c_settings b /\ c_mutable a = c_mutable b /\ c_check a = c_check b /\
  c_class a = c_class b /\ c_dep a = c_dep b /\ c_mut_subs a = c_mut_subs b.

Lemma same_rest_refl a : same_rest a a.
Proof. repeat split. Qed.
Lemma same_rest_trans a b c : same_rest a b -> same_rest b c -> same_rest a c.
Proof. unfold same_rest. intuition congruence. Qed.

Lemma replace_inv n c cf cf' : replace_sub_component n c cf = Ok cf' ->
  In n (dkeys (c_subs (co_dict cf))) /\ k_configured c = true /\
  exists d, conf_dict c = Ok d /\ same_rest (co_dict cf) (co_dict cf') /\ co_config cf' = co_config cf /\
    c_subs (co_dict cf') = dset n d (c_subs (co_dict cf)).
Proof.
  unfold replace_sub_component. destruct (dmem n (c_subs (co_dict cf))) eqn:E; simpl; [|discriminate].
  destruct (k_configured c); simpl; [|discriminate]. destruct (conf_dict c) as [d|] eqn:Ed; [|discriminate].
  intros H; inversion H; subst; simpl. split; [apply dmem_In; exact E|]. split; [reflexivity|].
  exists d. repeat split.
Qed.

Lemma component_compatible_iff s r : component_compatible rv s r = Ok true <-> MayReplace rv s r.
Proof.
  unfold component_compatible, MayReplace. destruct (String.eqb (k_class s) (k_class r)) eqn:E; cbn [negb].
  - apply String.eqb_eq in E. split.
    + intros H. split; [exact E|].
      destruct (conf_dict s) as [ds|] eqn:E1; [|discriminate].
      destruct (conf_dict r) as [dr|] eqn:E2; [|discriminate]. exists ds, dr. auto.
    + intros (_ & ds & dr & E1 & E2 & H). rewrite E1, E2. exact H.
  - apply String.eqb_neq in E. split; [discriminate|]. intros [H _]. contradiction.
Qed.

Lemma smem_app_single n l m : smem n (l ++ [m]) = smem n l || String.eqb n m.
Proof. unfold smem. rewrite existsb_app. simpl. rewrite orb_false_r. reflexivity. Qed.

Lemma load_loop_spec sub_load d : forall names self m upd self' m' upd' cf,
  NoDup names -> dwf m -> k_conf self = Some cf -> (forall n, In n names -> ~ In n upd) ->
  load_loop sub_load d names (self, m, upd) = ((self', m', upd'), None) ->
  exists cf', k_conf self' = Some cf' /\ same_rest (co_dict cf) (co_dict cf') /\
    co_config cf' = co_config cf /\ k_data self' = k_data self /\
    k_class self' = k_class self /\ k_untracked self' = k_untracked self /\
    dkeys (k_subs self') = fold_left (fun ks n => if smem n ks then ks else ks ++ [n]) names (dkeys (k_subs self)) /\
    (forall n, In n names -> dget n m' = None) /\
    (forall n, ~ In n names -> dget n m' = dget n m) /\
    upd' = upd ++ filter (fun n => dmem n m) names /\
    (forall n, ~ In n names -> dget n (k_subs self') = dget n (k_subs self) /\
                               dget n (c_subs (co_dict cf')) = dget n (c_subs (co_dict cf))) /\
    (forall n, In n names -> exists recorded final recorded',
        dget n (c_subs (co_dict cf)) = Some recorded /\
        dget n (k_subs self') = Some final /\
        dget n (c_subs (co_dict cf')) = Some recorded' /\
        Outcome rv sub_load d (c_mut_subs (co_dict cf)) n (dget n m) recorded final recorded').
Proof.
  induction names as [|n names IH]; intros self m upd self' m' upd' cf Hnd Hm Hcf Hupd H.
  - cbn [M_Component.load_loop] in H. inversion H; subst. exists cf. simpl. rewrite app_nil_r.
    split; [exact Hcf|]. split; [apply same_rest_refl|]. do 5 (split; [reflexivity|]).
    split; [intros n []|]. split; [reflexivity|]. split; [reflexivity|]. split; [auto|]. intros n [].
  - inversion Hnd as [|? ? Hni Hnd']; subst.
    cbn [M_Component.load_loop] in H. rewrite Hcf in H.
    assert (Hnu : smem n upd = false) by (apply smem_false; apply Hupd; left; reflexivity).
    (* a uniform statement about the three ways to reach the recursive call *)
    assert (Hstep : exists self2 m2 upd2 cf2 sc final recorded',
      load_loop sub_load d names (self2, m2, upd2) = ((self', m', upd'), None) /\
      k_conf self2 = Some cf2 /\ same_rest (co_dict cf) (co_dict cf2) /\ co_config cf2 = co_config cf /\
      k_data self2 = k_data self /\ k_class self2 = k_class self /\ k_untracked self2 = k_untracked self /\
      (dkeys (k_subs self2) = dkeys (dset n final (k_subs self))) /\
      (forall x, dget x (k_subs self2) = if String.eqb x n then Some final else dget x (k_subs self)) /\
      (forall x, dget x (c_subs (co_dict cf2)) = if String.eqb x n then Some recorded' else dget x (c_subs (co_dict cf))) /\
      dwf m2 /\ dget n m2 = None /\ (forall x, x <> n -> dget x m2 = dget x m) /\
      upd2 = upd ++ (if dmem n m then [n] else []) /\
      dget n (c_subs (co_dict cf)) = Some sc /\
      Outcome rv sub_load d (c_mut_subs (co_dict cf)) n (dget n m) sc final recorded').
    { destruct (dget n m) as [[r|nd]|] eqn:Egm.
      - (* replacement component *)
        destruct (dget n (c_subs (co_dict cf))) as [sc|] eqn:Esc; [|inversion H].
        destruct (kn (c_class sc)); cbn [negb] in H; [|inversion H].
        match type of H with context [sub_load ?a ?b ?c] =>
          destruct (sub_load a b c) as [[sub [es|]] ms] eqn:Esub end; [inversion H|].
        rewrite Hnu in H. rewrite ?Egm in H.
        destruct (k_configured r) eqn:Er; cbn [negb] in H; [|inversion H].
        destruct (if smem n (c_mut_subs (co_dict cf)) then Ok true else component_compatible rv sub r)
          as [[|]|] eqn:Ecomp; try (inversion H; fail).
        destruct (replace_sub_component n r cf) as [cf2|] eqn:Erep; [|inversion H].
        apply replace_inv in Erep. destruct Erep as (R1 & R2 & dct & R3 & R4 & R5 & R6).
        exists (with_conf (with_sub (with_conf (with_sub self n sub) cf) n r) cf2), (ddel n m), (upd ++ [n]), cf2, sc, r, dct.
        split; [exact H|]. split; [reflexivity|]. split; [exact R4|]. split; [exact R5|].
        do 3 (split; [reflexivity|]). split.
        { cbn [with_conf with_sub k_subs]. 
          assert (G : forall (A : Type) (x y : A) l, dkeys (dset n x (dset n y l)) = dkeys (dset n x l)).
          { intros A x y l. induction l as [|[k w] l IHl]; simpl.
            - rewrite String.eqb_refl. reflexivity.
            - destruct (String.eqb n k) eqn:Ek; simpl; rewrite Ek; simpl; [reflexivity|]. f_equal; exact IHl. }
          apply G. }
        split.
        { intros x. cbn [with_conf with_sub k_subs]. destruct (String.eqb x n) eqn:Ex.
          - apply String.eqb_eq in Ex; subst. apply dget_dset_same.
          - apply String.eqb_neq in Ex. rewrite !dget_dset_other by congruence. reflexivity. }
        split.
        { intros x. rewrite R6. destruct (String.eqb x n) eqn:Ex.
          - apply String.eqb_eq in Ex; subst. apply dget_dset_same.
          - apply String.eqb_neq in Ex. apply dget_dset_other. congruence. }
        split; [apply dwf_ddel; exact Hm|]. split; [apply dget_ddel_same; exact Hm|].
        split; [intros x Hx; apply dget_ddel_other; congruence|]. split; [unfold dmem; rewrite Egm; reflexivity|]. split; [reflexivity|].
        econstructor; [exact Esub|exact Er| |exact R3].
        destruct (smem n (c_mut_subs (co_dict cf))) eqn:Esm; [left; apply smem_In; exact Esm|right; apply component_compatible_iff; exact Ecomp].
      - (* nested dictionary *)
        destruct (dget n (c_subs (co_dict cf))) as [sc|] eqn:Esc; [|inversion H].
        destruct (kn (c_class sc)); cbn [negb] in H; [|inversion H].
        match type of H with context [sub_load ?a ?b ?c] =>
          destruct (sub_load a b c) as [[sub [es|]] ms] eqn:Esub end; [inversion H|].
        rewrite smem_app_single, String.eqb_refl, orb_true_r in H.
        destruct (replace_sub_component n sub cf) as [cf2|] eqn:Erep; [|inversion H].
        rewrite (dget_ddel_same n m Hm) in H.
        apply replace_inv in Erep. destruct Erep as (R1 & R2 & dct & R3 & R4 & R5 & R6).
        exists (with_conf (with_sub self n sub) cf2), (ddel n m), (upd ++ [n]), cf2, sc, sub, dct.
        split; [exact H|]. split; [reflexivity|]. split; [exact R4|]. split; [exact R5|].
        do 4 (split; [reflexivity|]).
        split.
        { intros x. cbn [with_conf with_sub k_subs]. destruct (String.eqb x n) eqn:Ex.
          - apply String.eqb_eq in Ex; subst. apply dget_dset_same.
          - apply String.eqb_neq in Ex. apply dget_dset_other. congruence. }
        split.
        { intros x. rewrite R6. destruct (String.eqb x n) eqn:Ex.
          - apply String.eqb_eq in Ex; subst. apply dget_dset_same.
          - apply String.eqb_neq in Ex. apply dget_dset_other. congruence. }
        split; [apply dwf_ddel; exact Hm|]. split; [apply dget_ddel_same; exact Hm|].
        split; [intros x Hx; apply dget_ddel_other; congruence|]. split; [unfold dmem; rewrite Egm; reflexivity|]. split; [reflexivity|].
        econstructor; eauto.
      - (* no modification *)
        destruct (dget n (c_subs (co_dict cf))) as [sc|] eqn:Esc; [|inversion H].
        destruct (kn (c_class sc)); cbn [negb] in H; [|inversion H].
        match type of H with context [sub_load ?a ?b ?c] =>
          destruct (sub_load a b c) as [[sub [es|]] ms] eqn:Esub end; [inversion H|].
        rewrite Hnu in H. rewrite ?Egm in H.
        exists (with_conf (with_sub self n sub) cf), m, upd, cf, sc, sub, sc.
        split; [exact H|]. split; [reflexivity|]. split; [apply same_rest_refl|].
        do 5 (split; [reflexivity|]).
        split.
        { intros x. cbn [with_conf with_sub k_subs]. destruct (String.eqb x n) eqn:Ex.
          - apply String.eqb_eq in Ex; subst. apply dget_dset_same.
          - apply String.eqb_neq in Ex. apply dget_dset_other. congruence. }
        split.
        { intros x. destruct (String.eqb x n) eqn:Ex; [|reflexivity]. apply String.eqb_eq in Ex; subst. exact Esc. }
        split; [exact Hm|]. split; [exact Egm|]. split; [reflexivity|].
        split; [unfold dmem; rewrite Egm, app_nil_r; reflexivity|]. split; [reflexivity|]. econstructor; exact Esub. }
    clear H. destruct Hstep as (self2 & m2 & upd2 & cf2 & sc & final & recorded' & H & S1 & S2 & S3 & S4 & S5 & S6 & S7 & S8 & S9 & S10 & S11 & S12 & S13 & Esc & S14).
    assert (Hupd2 : forall x, In x names -> ~ In x upd2).
    { intros x Hx Hin. rewrite S13 in Hin. apply in_app_or in Hin. destruct Hin as [Hin|Hin].
      - exact (Hupd x (or_intror Hx) Hin).
      - destruct (dmem n m); [|destruct Hin]. destruct Hin as [->|[]]. contradiction. }
    destruct (IH _ _ _ _ _ _ _ Hnd' S10 S1 Hupd2 H) as
      (cf' & I1 & I2 & I3 & I4 & I5 & I6 & I7 & I8 & I9 & I10 & I11 & I12).
    assert (Hmut : c_mut_subs (co_dict cf2) = c_mut_subs (co_dict cf)) by (unfold same_rest in S2; intuition congruence).
    exists cf'. split; [exact I1|]. split; [eapply same_rest_trans; eauto|].
    do 4 (split; [congruence|]). split.
    { rewrite I7. cbn [fold_left]. f_equal. rewrite S7.
      destruct (smem n (dkeys (k_subs self))) eqn:Es.
      - apply dkeys_dset_mem. apply dmem_In. apply smem_In. exact Es.
      - rewrite dset_new_app by (apply smem_false; exact Es). unfold dkeys. rewrite map_app. reflexivity. }
    split.
    { intros x [<-|Hx]; [rewrite I9 by exact Hni; exact S11|auto]. }
    split.
    { intros x Hx. rewrite I9 by (intros Hin; apply Hx; right; exact Hin). apply S12. intros ->. apply Hx. left; reflexivity. }
    split.
    { rewrite I10, S13, <- app_assoc. f_equal. cbn [filter].
      assert (Hfil : filter (fun x => dmem x m2) names = filter (fun x => dmem x m) names).
      { apply filter_ext_in. intros x Hx. unfold dmem. rewrite S12; [reflexivity|]. intros ->. contradiction. }
      rewrite Hfil. destruct (dmem n m); reflexivity. }
    split.
    { intros x Hx. destruct (I11 x) as [J1 J2]; [intros Hin; apply Hx; right; exact Hin|].
      rewrite J1, J2, S8, S9. destruct (String.eqb x n) eqn:Ex; [|auto].
      apply String.eqb_eq in Ex. subst. exfalso. apply Hx. left; reflexivity. }
    intros x [<-|Hx].
    + exists sc, final, recorded'. destruct (I11 n Hni) as [J1 J2].
      split; [exact Esc|]. split; [rewrite J1, S8, String.eqb_refl; reflexivity|].
      split; [rewrite J2, S9, String.eqb_refl; reflexivity|exact S14].
    + destruct (I12 x Hx) as (rc & fin & rc' & K1 & K2 & K3 & K4).
      assert (Hxn : x <> n) by (intros ->; contradiction).
      exists rc, fin, rc'. rewrite S9 in K1. rewrite (proj2 (String.eqb_neq x n) Hxn) in K1.
      repeat (split; [assumption|]). rewrite Hmut, S12 in K4 by exact Hxn. exact K4.
Qed.

(** The hooks keep recorded configurations that are up to date. *)
Lemma update_keeps_recorded names : forall c c' cf,
  k_conf c = Some cf ->
  (forall n s, In n names -> dget n (k_subs c) = Some s ->
     exists d, conf_dict s = Ok d /\ dget n (c_subs (co_dict cf)) = Some d) ->
  update_sub_components rv kind_of rebuild names c = (c', None) ->
  exists cf', k_conf c' = Some cf' /\
    c_settings (co_dict cf') = c_settings (co_dict cf) /\
    c_check (co_dict cf') = c_check (co_dict cf) /\
    c_class (co_dict cf') = c_class (co_dict cf) /\
    c_dep (co_dict cf') = c_dep (co_dict cf) /\
    c_mut_subs (co_dict cf') = c_mut_subs (co_dict cf) /\
    forall n, dget n (c_subs (co_dict cf')) = dget n (c_subs (co_dict cf)).
Proof.
  intros c c' cf Hcf Hrec. unfold update_sub_components. destruct (kind_of (k_class c)); intros H.
  - inversion H.
  - unfold handler_update in H.
    assert (Hloop : forall names c c1 cf, k_conf c = Some cf ->
      (forall n s, In n names -> dget n (k_subs c) = Some s ->
        exists d, conf_dict s = Ok d /\ dget n (c_subs (co_dict cf)) = Some d) ->
      handler_update_loop names c = (c1, None) ->
      exists cf', k_conf c1 = Some cf' /\
        c_settings (co_dict cf') = c_settings (co_dict cf) /\
        c_check (co_dict cf') = c_check (co_dict cf) /\
        c_class (co_dict cf') = c_class (co_dict cf) /\
        c_dep (co_dict cf') = c_dep (co_dict cf) /\
        c_mut_subs (co_dict cf') = c_mut_subs (co_dict cf) /\
        forall n, dget n (c_subs (co_dict cf')) = dget n (c_subs (co_dict cf))).
    { clear. induction names as [|n names IH]; intros c c1 cf Hcf Hrec H; cbn [handler_update_loop] in H.
      - inversion H; subst. exists cf. repeat (split; [auto|]). auto.
      - destruct (handler_update_one n c) as [c2 [e2|]] eqn:E; [inversion H|].
        unfold handler_update_one in E.
        destruct (settings_name n); [|inversion E].
        destruct (dget n (k_subs c)) as [sub|] eqn:Esub; [|inversion E].
        destruct (k_data c); destruct (k_data sub); try (inversion E; fail).
        cbn [with_data k_conf] in E. rewrite Hcf in E.
        destruct (k_conf sub) as [cfs|] eqn:Ecfs; [|inversion E].
        destruct (dget "config" _) as [[| | | | | |cd]|]; try (inversion E; fail).
        destruct (update_mutable_settings _ _) as [cf1 [e1|]] eqn:Eu; [inversion E|].
        destruct (replace_sub_component n sub cf1) as [cf2|] eqn:Erep; [|inversion E]. inversion E; subst c2. clear E.
        assert (Hu : exists mm, co_dict cf1 = set_mutable mm (co_dict cf)).
        { unfold update_mutable_settings in Eu. destruct (update_loop _ _) as [mm [ee|]]; [inversion Eu|].
          destruct (combine_settings _); inversion Eu; subst. simpl. eauto. }
        destruct Hu as [mm Hmm].
        apply replace_inv in Erep. destruct Erep as (R1 & R2 & dct & R3 & R4 & R5 & R6).
        destruct (Hrec n sub (or_introl eq_refl) Esub) as (d' & D1 & D2).
        assert (dct = d') by congruence. subst d'.
        assert (Hsubs : forall x, dget x (c_subs (co_dict cf2)) = dget x (c_subs (co_dict cf))).
        { intros x. rewrite R6, Hmm. cbn [set_mutable c_subs]. destruct (String.eqb x n) eqn:Ex.
          - apply String.eqb_eq in Ex; subst. rewrite dget_dset_same. congruence.
          - apply String.eqb_neq in Ex. apply dget_dset_other. congruence. }
        destruct R4 as (Q1 & Q2 & Q3 & Q4 & Q5 & Q6). rewrite Hmm in Q1, Q2, Q3, Q4, Q5, Q6.
        cbn [set_mutable c_settings c_mutable c_check c_class c_dep c_mut_subs] in Q1, Q2, Q3, Q4, Q5, Q6.
        apply (IH _ _ cf2) in H; [|reflexivity|].
        + destruct H as (cf' & J1 & J2 & J3 & J4 & J5 & J6 & J7). exists cf'.
          split; [exact J1|]. do 5 (split; [congruence|]). intros x. rewrite J7. apply Hsubs.
        + intros x sx Hx Hs. cbn [with_conf with_data k_subs] in Hs.
          destruct (Hrec x sx (or_intror Hx) Hs) as (dx & X1 & X2). exists dx. rewrite Hsubs. auto. }
    destruct (handler_update_loop names c) as [c1 [e1|]] eqn:E1; [inversion H|].
    destruct (Hloop _ _ _ _ Hcf Hrec E1) as (cf' & J). exists cf'.
    destruct (k_data c1); try (inversion H; fail). destruct (rebuild d); inversion H; subst. exact J.
  - unfold manager_update in H. destruct (forallb _ names); [|inversion H]. inversion H; subst.
    exists cf. repeat (split; [auto|]). auto.
Qed.

Lemma fold_new_keys names : NoDup names ->
  forall ks, (forall n, In n names -> ~ In n ks) ->
  fold_left (fun ks n => if smem n ks then ks else ks ++ [n]) names ks = ks ++ names.
Proof.
  induction 1 as [|n names Hni Hnd IH]; intros ks H; simpl; [rewrite app_nil_r; reflexivity|].
  assert (E : smem n ks = false) by (apply smem_false; apply H; left; reflexivity). rewrite E.
  rewrite IH.
  - rewrite <- app_assoc. reflexivity.
  - intros x Hx Hin. apply in_app_or in Hin. destruct Hin as [Hin|[<-|[]]]; [|contradiction].
    exact (H x (or_intror Hx) Hin).
Qed.

Lemma load_replace fuel fs cls p m c m' cfg :
  dwf m -> fs (splitext_path p) FConf = Some (CConf cfg) -> NoDup (c_dep cfg) ->
  load (S fuel) fs (new_component cls) p m = (c, None, m') ->
  exists cf, k_conf c = Some cf /\ k_configured c = true /\
    dkeys (k_subs c) = c_dep cfg /\
    (forall n, In n (dkeys m) -> In n (c_dep cfg)) /\
    (forall n, In n (c_dep cfg) -> exists recorded final recorded',
       dget n (c_subs cfg) = Some recorded /\
       dget n (k_subs c) = Some final /\
       dget n (c_subs (co_dict cf)) = Some recorded' /\
       Outcome rv (load fuel fs) (splitext_path p) (c_mut_subs cfg) n (dget n m)
         recorded final recorded') /\
    (forall n, ~ In n (c_dep cfg) -> dget n (c_subs (co_dict cf)) = dget n (c_subs cfg)) /\
    c_settings (co_dict cf) = c_settings cfg /\ c_check (co_dict cf) = c_check cfg /\
    c_class (co_dict cf) = cls /\ c_dep (co_dict cf) = c_dep cfg /\
    c_mut_subs (co_dict cf) = c_mut_subs cfg.
Proof.
  intros Hm Hfile Hnd Hl.
  apply load_ok in Hl.
  destruct Hl as (fuel' & cfg0 & cf0 & v & self3 & upd & self4 & Hf & _ & _ & F1 & F2 & Hinit & Hver & Hcls & Hv & Hloop & Hupd & -> & ->).
  inversion Hf; subst fuel'. rewrite Hfile in F1. inversion F1; subst cfg0. clear Hf F1.
  assert (Hcf0 : co_dict cf0 = mkConfig rv (c_git cfg) (c_class cfg) (c_check cfg) (c_settings cfg)
    (c_mutable cfg) (c_subs cfg) (c_dep cfg) (c_mut_subs cfg)).
  { unfold configuration_init in Hinit. destruct (check_dependent_names _ _); [discriminate|].
    destruct (combine_settings _); inversion Hinit; reflexivity. }
  eapply load_loop_spec with (cf := cf0) in Hloop; [|exact Hnd|exact Hm|reflexivity|intros n _ []].
  destruct Hloop as (cf' & I1 & I2 & I3 & I4 & I5 & I6 & I7 & I8 & I9 & I10 & I11 & I12).
  rewrite Hcf0 in I2, I11, I12. cbn [c_subs c_mut_subs c_dep] in *.
  destruct I2 as (Q1 & Q2 & Q3 & Q4 & Q5 & Q6). cbn [c_settings c_mutable c_check c_class c_dep c_mut_subs] in *.
  assert (Hkeys : dkeys (k_subs self3) = c_dep cfg).
  { rewrite I7. cbn [with_data with_conf new_component k_subs dkeys map].
    rewrite (fold_new_keys _ Hnd []); [reflexivity|intros n _ []]. }
  assert (Hall : forall n, In n (dkeys m) -> In n (c_dep cfg)).
  { intros n Hn. destruct (in_dec string_dec n (c_dep cfg)) as [Hi|Hni]; [exact Hi|].
    exfalso. specialize (I9 n Hni). apply In_keys_dget in Hn. destruct Hn as [x Hx].
    rewrite Hx in I9. discriminate. }
  assert (Hfinal : exists cf4, k_conf self4 = Some cf4 /\ k_subs self4 = k_subs self3 /\
    c_settings (co_dict cf4) = c_settings (co_dict cf') /\ c_check (co_dict cf4) = c_check (co_dict cf') /\
    c_class (co_dict cf4) = c_class (co_dict cf') /\ c_dep (co_dict cf4) = c_dep (co_dict cf') /\
    c_mut_subs (co_dict cf4) = c_mut_subs (co_dict cf') /\
    forall n, dget n (c_subs (co_dict cf4)) = dget n (c_subs (co_dict cf'))).
  { destruct Hupd as [[_ ->]|[Hne Hu]].
    - exists cf'. repeat (split; [auto|]). auto.
    - pose proof Hu as Hu2. apply update_configured in Hu2. destruct Hu2 as [_ [_ Hsubs4]].
      apply (update_keeps_recorded upd self3 self4 cf' I1) in Hu.
      + destruct Hu as (cf4 & U1 & U2 & U3 & U4 & U5 & U6 & U7). exists cf4. auto 10.
      + intros n s Hn Hs. rewrite I10 in Hn. simpl in Hn. apply filter_In in Hn. destruct Hn as [Hn Hmem].
        destruct (I12 n Hn) as (rc & fin & rc' & K1 & K2 & K3 & K4). rewrite K2 in Hs. inversion Hs; subst fin.
        exists rc'. split; [|exact K3]. unfold dmem in Hmem.
        inversion K4 as [? ? ? ? Heq|? ? ? ? ? ? ? Heq|? ? ? ? ? ? ? ? ? Heq]; subst; auto.
        rewrite <- Heq in Hmem. discriminate. }
  destruct Hfinal as (cf4 & G1 & G2 & G3 & G4 & G5 & G6 & G7 & G8).
  exists cf4. cbn [set_configured k_conf k_configured k_subs]. rewrite G2.
  split; [exact G1|]. split; [reflexivity|]. split; [exact Hkeys|]. split; [exact Hall|].
  split.
  { intros n Hn. destruct (I12 n Hn) as (rc & fin & rc' & K1 & K2 & K3 & K4).
    exists rc, fin, rc'. rewrite G8. auto. }
  split.
  { intros n Hn. rewrite G8. destruct (I11 n Hn) as [_ J]. exact J. }
  simpl in Hcls. repeat split; congruence.
Qed.

(** Classes without an override refuse every modification. *)
Lemma base_refuses fuel fs cls p m c e m' :
  kind_of cls = KBase -> m <> [] -> dwf m ->
  (forall cfg, fs (splitext_path p) FConf = Some (CConf cfg) -> NoDup (c_dep cfg)) ->
  load fuel fs (new_component cls) p m = (c, e, m') -> e <> None.
Proof.
  intros Hk Hm Hwf Hnd Hl ->. apply load_ok in Hl.
  destruct Hl as (fuel' & cfg & cf & v & self3 & upd & self4 & Hf & _ & _ & F1 & F2 & Hinit & Hver & Hcls & Hv & Hloop & Hupd & -> & ->).
  pose proof (load_loop_configured _ _ _ _ _ _ _ _ _ _ _ _ Hloop) as [_ Hclass].
  cbn [with_data with_conf new_component k_class] in Hclass.
  eapply load_loop_spec with (cf := cf) in Hloop; [|exact (Hnd _ F1)|exact Hwf|reflexivity|intros n _ []].
  destruct Hloop as (cf' & _ & _ & _ & _ & _ & _ & _ & _ & I9 & I10 & _).
  destruct m as [|[n x] m]; [contradiction|].
  assert (Hn : In n (c_dep cfg)).
  { destruct (in_dec string_dec n (c_dep cfg)) as [Hi|Hni]; [exact Hi|]. specialize (I9 n Hni).
    simpl in I9. rewrite String.eqb_refl in I9. discriminate. }
  destruct Hupd as [[Hu _]|[_ Hu]].
  - rewrite Hu in I10. symmetry in I10. simpl app in I10.
    assert (Hin : In n (filter (fun k => dmem k ((n, x) :: m)) (c_dep cfg))).
    { apply filter_In. split; [exact Hn|]. unfold dmem. simpl. rewrite String.eqb_refl. reflexivity. }
    rewrite I10 in Hin. destruct Hin.
  - unfold update_sub_components in Hu. rewrite Hclass, Hk in Hu. inversion Hu.
Qed.

End Replace.
