(** Proofs about the configuration model. *)
From Verif Require Import Py PyFacts M_Config S_Config.

Definition config_ind' (P : config -> Prop)
  (H : forall ver git cls chk sett mut subs dep muts,
      Forall (fun s => P (snd s)) subs ->
      P (mkConfig ver git cls chk sett mut subs dep muts)) : forall c, P c :=
  fix F (c : config) : P c :=
    match c with
    | mkConfig ver git cls chk sett mut subs dep muts =>
        H ver git cls chk sett mut subs dep muts
          ((fix G (l : list (string * config)) : Forall (fun s => P (snd s)) l :=
              match l with
              | [] => Forall_nil _
              | s :: l' => Forall_cons _ (F (snd s)) (G l')
              end) subs)
    end.

(** ** Construction never fails on well-formed configurations *)

Lemma check_dependent_ok names c :
  (forall n, In n names -> In n (dkeys (c_subs c))) <-> check_dependent_names names c = None.
Proof.
  unfold check_dependent_names. destruct (forallb _ names) eqn:E; split; intros H; try reflexivity; try discriminate.
  - rewrite forallb_forall in E. intros n Hn. apply dmem_In. auto.
  - exfalso. assert (forallb (fun n => dmem n (c_subs c)) names = true); [|congruence].
    apply forallb_forall. intros n Hn. apply dmem_In. auto.
Qed.

Lemma combine_ok c :
  (forall k, In k (dkeys (c_settings c)) -> ~ In k (dkeys (c_mutable c))) ->
  combine_settings c = Ok (dupdate (c_settings c) (c_mutable c)).
Proof.
  intros H. unfold combine_settings. destruct (existsb _ _) eqn:E; [|reflexivity].
  apply existsb_exists in E. destruct E as [k [Hk Hm]]. apply dmem_In in Hm. exfalso; eapply H; eauto.
Qed.

Lemma combine_inv c cfg : combine_settings c = Ok cfg ->
  (forall k, In k (dkeys (c_settings c)) -> ~ In k (dkeys (c_mutable c))) /\
  cfg = dupdate (c_settings c) (c_mutable c).
Proof.
  unfold combine_settings. destruct (existsb _ _) eqn:E; intros H; inversion H; subst. split; auto.
  intros k Hk Hm. apply dmem_In in Hm.
  assert (existsb (fun k => dmem k (c_mutable c)) (dkeys (c_settings c)) = true); [|congruence].
  apply existsb_exists; eauto.
Qed.

Lemma init_ok_wf rv c : wf c -> exists o, configuration_init rv c = Ok o.
Proof.
  intros H; inversion H; subst. unfold configuration_init. simpl.
  assert (E : check_dependent_names (c_dep c)
    (mkConfig rv (c_git c) (c_class c) (c_check c) (c_settings c) (c_mutable c) (c_subs c) (c_dep c) (c_mut_subs c)) = None)
    by (apply check_dependent_ok; simpl; assumption).
  rewrite E. rewrite combine_ok by (simpl; assumption). eauto.
Qed.

Lemma init_wf rv c o :
  dvwf (c_settings c) -> dvwf (c_check c) -> dvwf (c_mutable c) -> dwf (c_subs c) ->
  Forall (fun s => wf (snd s)) (c_subs c) ->
  configuration_init rv c = Ok o -> wf (co_dict o).
Proof.
  intros H1 H2 H3 H4 H5. unfold configuration_init.
  destruct (check_dependent_names _ _) eqn:Ed; [discriminate|].
  destruct (combine_settings _) eqn:Ec; [|discriminate].
  intros H; inversion H; subst; simpl. apply combine_inv in Ec. destruct Ec as [Hdis _]. simpl in Hdis.
  pose proof (proj2 (check_dependent_ok _ _) Ed) as Ed2. simpl in Ed2. constructor; simpl; auto.
Qed.

(** ** The compatibility check computes [Compat] *)

Fixpoint compat_subs (rv : string) (a b : config) (subs : list (string * config)) : result bool :=
  match subs with
  | [] => Ok true
  | (name, sa) :: rest =>
      match configuration_init rv sa with
      | Err e => Err e
      | Ok _ =>
          match dget name (c_subs b) with
          | None => Err KeyError
          | Some sb =>
              match configuration_init rv sb with
              | Err e => Err e
              | Ok _ =>
                  match is_compatible rv sa sb with
                  | Err e => Err e
                  | Ok true => compat_subs rv a b rest
                  | Ok false => if smem name (c_mut_subs a)
                                then compat_subs rv a b rest else Ok false
                  end
              end
          end
      end
  end.

Lemma is_compatible_unfold rv a b :
  is_compatible rv a b =
  if negb (deqb (c_settings a) (c_settings b))
     || negb (deqb (c_check a) (c_check b))
     || negb (String.eqb (c_class a) (c_class b))
  then Ok false
  else if negb (same_names (dkeys (c_subs a)) (dkeys (c_subs b)))
  then Ok false
  else compat_subs rv a b (c_subs a).
Proof.
  destruct a as [ver git cls chk sett mut subs dep muts]. simpl.
  destruct (negb (deqb sett (c_settings b)) || negb (deqb chk (c_check b)) || negb (cls =? c_class b)%string); [reflexivity|].
  destruct (negb (same_names (dkeys subs) (dkeys (c_subs b)))); [reflexivity|].
  set (A := mkConfig ver git cls chk sett mut subs dep muts).
  replace muts with (c_mut_subs A) by reflexivity. clearbody A.
  induction subs as [|[n sa] subs IH]; simpl; [reflexivity|].
  destruct (configuration_init rv sa); [|reflexivity].
  destruct (dget n (c_subs b)); [|reflexivity].
  destruct (configuration_init rv c); [|reflexivity].
  destruct (is_compatible rv sa c) as [[|]|]; try reflexivity; auto.
  destruct (smem n (c_mut_subs A)); auto.
Qed.

Lemma wf_sub c n s : wf c -> dget n (c_subs c) = Some s -> wf s.
Proof.
  intros H Hg. inversion H as [? ? ? ? ? ? ? Hall]; subst. apply dget_In in Hg.
  rewrite Forall_forall in Hall. apply (Hall _ Hg).
Qed.

Lemma is_compatible_correct rv a : forall b, wf a -> wf b ->
  exists r, is_compatible rv a b = Ok r /\ (r = true <-> Compat a b).
Proof.
  induction a using config_ind'. intros b Wa Wb.
  set (A := mkConfig ver git cls chk sett mut subs dep muts) in *.
  rewrite is_compatible_unfold.
  destruct (negb (deqb (c_settings A) (c_settings b)) || negb (deqb (c_check A) (c_check b))
    || negb (String.eqb (c_class A) (c_class b))) eqn:E1.
  { exists false; split; [reflexivity|]. split; [discriminate|]. intros HC; exfalso.
    inversion HC as [? ? Hc Hs Hk _ _]; subst. rewrite Hs, Hk, Hc, String.eqb_refl in E1. discriminate. }
  apply orb_false_iff in E1. destruct E1 as [E1 Ecls]. apply orb_false_iff in E1. destruct E1 as [Es Ek].
  apply negb_false_iff in Es, Ek, Ecls. apply String.eqb_eq in Ecls.
  destruct (negb (same_names (dkeys (c_subs A)) (dkeys (c_subs b)))) eqn:E2.
  { exists false; split; [reflexivity|]. split; [discriminate|]. intros HC; exfalso.
    inversion HC as [? ? _ _ _ Hn _]; subst. apply same_names_spec in Hn. rewrite Hn in E2. discriminate. }
  apply negb_false_iff in E2. rewrite same_names_spec in E2.
  assert (Hloop : forall l, incl l (c_subs A) -> exists r, compat_subs rv A b l = Ok r /\
    (r = true <-> forall n sa sb, In (n, sa) l -> dget n (c_subs b) = Some sb ->
       In n (c_mut_subs A) \/ Compat sa sb)).
  { induction l as [|[n sa] l IHl]; intros Hincl.
    - exists true; split; [reflexivity|]. split; [intros _ n sa sb []|reflexivity].
    - cbn [compat_subs]. assert (Hin : In (n, sa) (c_subs A)) by (apply Hincl; left; reflexivity).
      assert (Wsa : wf sa).
      { inversion Wa as [? ? ? ? ? ? ? Hall]; subst. rewrite Forall_forall in Hall. apply (Hall _ Hin). }
      destruct (init_ok_wf rv sa Wsa) as [o1 ->].
      destruct (In_keys_dget n (c_subs b)) as [sb Hsb].
      { apply E2. apply (in_map fst) in Hin; exact Hin. }
      rewrite Hsb. pose proof (wf_sub b n sb Wb Hsb) as Wsb.
      destruct (init_ok_wf rv sb Wsb) as [o2 ->].
      rewrite Forall_forall in H. destruct (H _ Hin sb Wsa Wsb) as [r [Hr Hiff]]. simpl in Hr, Hiff. rewrite Hr.
      destruct (IHl (fun x Hx => Hincl x (or_intror Hx))) as [r2 [Hr2 Hiff2]].
      destruct r.
      + exists r2; split; [exact Hr2|]. rewrite Hiff2. split.
        * intros Hall m ma mb [Heq|Hm] Hmb; [|eauto]. inversion Heq; subst.
          rewrite Hsb in Hmb; inversion Hmb; subst. right. apply Hiff; reflexivity.
        * intros Hall m ma mb Hm Hmb. eapply Hall; [right; exact Hm|exact Hmb].
      + destruct (smem n (c_mut_subs A)) eqn:Em.
        * exists r2; split; [exact Hr2|]. rewrite Hiff2. split.
          -- intros Hall m ma mb [Heq|Hm] Hmb; [|eauto]. inversion Heq; subst. left. apply smem_In; exact Em.
          -- intros Hall m ma mb Hm Hmb. eapply Hall; [right; exact Hm|exact Hmb].
        * exists false; split; [reflexivity|]. split; [discriminate|]. intros Hall.
          destruct (Hall n sa sb (or_introl eq_refl) Hsb) as [Hm|HC].
          -- apply smem_In in Hm. congruence.
          -- apply Hiff in HC. discriminate. }
  destruct (Hloop (c_subs A) (fun x Hx => Hx)) as [r [Hr Hiff]].
  exists r; split; [exact Hr|]. rewrite Hiff. split.
  - intros Hall. constructor; auto. intros n sa sb Hsa Hsb. apply dget_In in Hsa. eauto.
  - intros HC n sa sb Hsa Hsb. inversion HC; subst.
    assert (Hd : dwf (c_subs A)) by (inversion Wa; assumption).
    eauto using In_dget.
Qed.

Lemma is_compatible_true_iff rv a b : wf a -> wf b -> (is_compatible rv a b = Ok true <-> Compat a b).
Proof.
  intros Wa Wb. destruct (is_compatible_correct rv a b Wa Wb) as [r [Hr Hiff]]. rewrite Hr, <- Hiff.
  split; congruence.
Qed.

Lemma Compat_refl a : wf a -> Compat a a.
Proof.
  induction a using config_ind'. intros W. constructor; simpl; auto.
  - inversion W; subst. apply deqb_refl; assumption.
  - inversion W; subst. apply deqb_refl; assumption.
  - reflexivity.
  - intros n sa sb Ha Hb. rewrite Ha in Hb; inversion Hb; subst. right.
    pose proof (dget_In _ _ _ Ha) as Hin. rewrite Forall_forall in H. apply (H _ Hin).
    exact (wf_sub _ n sb W Ha).
Qed.

(** ** Irrelevance of mutable settings, versions, dependent lists *)

Lemma Forall2_fst_dget (R : config -> config -> Prop) l l' :
  Forall2 (fun x y => fst x = fst y /\ R (snd x) (snd y)) l l' ->
  dkeys l = dkeys l' /\
  forall n, match dget n l, dget n l' with
            | Some x, Some y => R x y
            | None, None => True
            | _, _ => False
            end.
Proof.
  induction 1 as [|[n x] [n' y] l l' [Hn HR] HF [IHk IHg]]; simpl in *; [auto|]. subst n'. split.
  - f_equal; exact IHk.
  - intros m. destruct (String.eqb m n); [exact HR|apply IHg].
Qed.

Lemma Compat_core a : forall a' b b', SameCore a a' -> SameCore b b' -> Compat a b -> Compat a' b'.
Proof.
  induction a using config_ind'. intros a' b b' Ha Hb HC.
  set (A := mkConfig ver git cls chk sett mut subs dep muts) in *.
  inversion Ha as [? ? Hc Hk Hs Hm Hsub]; subst. inversion Hb as [? ? Hc' Hk' Hs' Hm' Hsub']; subst.
  inversion HC as [? ? Kc Ks Kk Kn Ksub]; subst.
  apply Forall2_fst_dget in Hsub. destruct Hsub as [Hkeys Hget].
  apply Forall2_fst_dget in Hsub'. destruct Hsub' as [Hkeys' Hget'].
  constructor.
  - congruence.
  - rewrite <- Hs, <- Hs'; exact Ks.
  - rewrite <- Hk, <- Hk'; exact Kk.
  - intros n. rewrite <- Hkeys, <- Hkeys'. apply Kn.
  - intros n sa sb Hsa Hsb. specialize (Hget n). specialize (Hget' n). rewrite Hsa in Hget. rewrite Hsb in Hget'.
    destruct (dget n (c_subs A)) as [sa0|] eqn:Ea; [|contradiction].
    destruct (dget n (c_subs b)) as [sb0|] eqn:Eb; [|contradiction].
    destruct (Ksub n sa0 sb0 Ea Eb) as [Hin|HCs].
    + left. rewrite <- Hm. exact Hin.
    + right. rewrite Forall_forall in H. apply dget_In in Ea. eapply (H _ Ea); eauto.
Qed.

Lemma SameCore_sym a : forall b, SameCore a b -> SameCore b a.
Proof.
  induction a using config_ind'. intros b Hab. inversion Hab as [? ? ? ? ? ? Hsub]; subst. constructor; auto.
  simpl in *. clear Hab H0 H1 H2 H3.
  remember (c_subs b) as bs eqn:E; clear E. revert H. 
  induction Hsub as [|x y l l' [Hn HR] HF IH]; intros Hall; constructor.
  - inversion Hall; subst. split; auto.
  - inversion Hall; subst. auto.
Qed.

Lemma compat_ignores rv a a' b b' : wf a -> wf a' -> wf b -> wf b' ->
  SameCore a a' -> SameCore b b' -> is_compatible rv a b = is_compatible rv a' b'.
Proof.
  intros Wa Wa' Wb Wb' Ha Hb.
  destruct (is_compatible_correct rv a b Wa Wb) as [r [Hr Hi]].
  destruct (is_compatible_correct rv a' b' Wa' Wb') as [r' [Hr' Hi']].
  rewrite Hr, Hr'. f_equal. apply eq_true_iff_eq. rewrite Hi, Hi'. split; intros HC.
  - eapply Compat_core; eauto.
  - eapply Compat_core; eauto using SameCore_sym.
Qed.

(** ** Equivalence when nothing is mutable *)

Lemma nomut_sub c n s : NoMutableSubs c -> dget n (c_subs c) = Some s -> NoMutableSubs s.
Proof.
  intros H Hg. inversion H as [? ? Hall]; subst. apply dget_In in Hg. rewrite Forall_forall in Hall. apply (Hall _ Hg).
Qed.

Lemma Compat_sym a : forall b, wf a -> wf b -> NoMutableSubs a -> Compat a b -> Compat b a.
Proof.
  induction a using config_ind'. intros b Wa Wb Na HC.
  set (A := mkConfig ver git cls chk sett mut subs dep muts) in *.
  inversion HC as [? ? Kc Ks Kk Kn Ksub]; subst.
  inversion Wa; inversion Wb; subst. constructor; auto.
  - rewrite deqb_sym; auto.
  - rewrite deqb_sym; auto.
  - intros n; symmetry; apply Kn.
  - intros n sb sa Hsb Hsa. right. destruct (Ksub n sa sb Hsa Hsb) as [Hm|HCs].
    + inversion Na as [? Hnil]; subst. rewrite Hnil in Hm; destruct Hm.
    + rewrite Forall_forall in H. apply (H (n, sa)); eauto using dget_In, wf_sub, nomut_sub.
Qed.

Lemma Compat_trans a : forall b c, wf a -> wf b -> wf c -> NoMutableSubs b ->
  Compat a b -> Compat b c -> Compat a c.
Proof.
  induction a using config_ind'. intros b c Wa Wb Wc Nb HC HC2.
  set (A := mkConfig ver git cls chk sett mut subs dep muts) in *.
  inversion HC as [? ? Kc Ks Kk Kn Ksub]; subst. inversion HC2 as [? ? Lc Ls Lk Ln Lsub]; subst.
  constructor.
  - congruence.
  - inversion Wa; inversion Wb; inversion Wc; subst. eapply deqb_trans; [| | |exact Ks|exact Ls]; auto.
  - inversion Wa; inversion Wb; inversion Wc; subst. eapply deqb_trans; [| | |exact Kk|exact Lk]; auto.
  - intros n. rewrite Kn. apply Ln.
  - intros n sa sc Hsa Hsc. destruct (In_keys_dget n (c_subs b)) as [sb Hsb].
    { apply Kn. eapply dget_Some_In_keys; eauto. }
    destruct (Ksub n sa sb Hsa Hsb) as [Hm|HCs]; [left; exact Hm|right].
    destruct (Lsub n sb sc Hsb Hsc) as [Hm|HCs2].
    + inversion Nb as [? Hnil]; subst. rewrite Hnil in Hm; destruct Hm.
    + rewrite Forall_forall in H. apply (H (n, sa)) with (b := sb); eauto using dget_In, wf_sub, nomut_sub.
Qed.

(** ** Updating mutable settings *)

Lemma update_loop_ok new m m' : update_loop new m = (m', None) ->
  (forall k, In k (dkeys new) -> In k (dkeys m)) /\ m' = dupdate m new /\ dkeys m' = dkeys m.
Proof.
  revert m. induction new as [|[k v] new IH]; simpl; intros m H.
  - inversion H; subst. split; [tauto|]. auto.
  - destruct (dmem k m) eqn:E; [|discriminate]. apply IH in H. destruct H as [H1 [H2 H3]].
    rewrite (dkeys_dset_mem k v m E) in *. split; [|split; auto].
    intros k' [<-|Hk']; [apply dmem_In; exact E|auto].
Qed.

Lemma update_loop_total new m :
  (forall k, In k (dkeys new) -> In k (dkeys m)) -> update_loop new m = (dupdate m new, None).
Proof.
  revert m. induction new as [|[k v] new IH]; simpl; intros m H; [reflexivity|].
  assert (E : dmem k m = true) by (apply dmem_In; auto). rewrite E. rewrite IH.
  - reflexivity.
  - intros k' Hk'. rewrite dkeys_dset_mem by exact E. auto.
Qed.

Lemma update_loop_fail new m m' e : update_loop new m = (m', Some e) ->
  exists pre k v post, new = pre ++ (k, v) :: post /\
    (forall k', In k' (dkeys pre) -> In k' (dkeys m)) /\ ~ In k (dkeys m) /\
    m' = dupdate m pre /\ e = KeyError.
Proof.
  revert m. induction new as [|[k v] new IH]; simpl; intros m H; [discriminate|].
  destruct (dmem k m) eqn:E.
  - apply IH in H. destruct H as (pre & k1 & v1 & post & -> & Hpre & Hk1 & -> & ->).
    exists ((k, v) :: pre), k1, v1, post. rewrite (dkeys_dset_mem k v m E) in *.
    repeat split; auto. intros k' [<-|Hk']; auto. apply dmem_In; exact E.
  - inversion H; subst. exists [], k, v, new. repeat split; auto.
    + intros k' [].
    + rewrite <- dmem_In. congruence.
Qed.

(** Objects whose effective configuration is up to date. *)
Definition synced (o : conf) : Prop :=
  combine_settings (co_dict o) = Ok (co_config o).

Lemma init_synced rv c o : configuration_init rv c = Ok o -> synced o.
Proof.
  unfold configuration_init. destruct (check_dependent_names _ _); [discriminate|].
  destruct (combine_settings _) eqn:E; [|discriminate]. intros H; inversion H; subst. exact E.
Qed.

Lemma set_mutable_disjoint m o : synced o -> dkeys m = dkeys (c_mutable (co_dict o)) ->
  combine_settings (set_mutable m (co_dict o)) = Ok (dupdate (c_settings (co_dict o)) m).
Proof.
  intros Hs Hk. apply combine_inv in Hs. destruct Hs as [Hd _]. rewrite combine_ok; [reflexivity|].
  simpl. rewrite Hk. exact Hd.
Qed.

Lemma update_ok new o o' : synced o -> update_mutable_settings new o = (o', None) ->
  co_dict o' = set_mutable (dupdate (c_mutable (co_dict o)) new) (co_dict o) /\
  dkeys (c_mutable (co_dict o')) = dkeys (c_mutable (co_dict o)) /\
  synced o'.
Proof.
  intros Hs. unfold update_mutable_settings. destruct (update_loop _ _) as [m e] eqn:E.
  destruct e as [e|]; [discriminate|]. apply update_loop_ok in E. destruct E as [H1 [H2 H3]].
  rewrite (set_mutable_disjoint m o Hs H3). intros H; inversion H; subst; simpl. repeat split; auto.
  unfold synced. simpl. rewrite set_mutable_disjoint; auto.
Qed.

Lemma synced_overlay o : dwf (c_mutable (co_dict o)) -> synced o ->
  overlay (c_settings (co_dict o)) (c_mutable (co_dict o)) (co_config o).
Proof.
  intros Hwf Hs k. apply combine_inv in Hs. destruct Hs as [_ ->]. apply dget_dupdate; exact Hwf.
Qed.

Lemma run_updates_ok calls o o' es :
  dwf (c_mutable (co_dict o)) -> Forall dwf calls -> synced o ->
  run_updates calls o = (o', es) -> Forall (fun e => e = None) es ->
  co_dict o' = set_mutable (c_mutable (co_dict o')) (co_dict o) /\
  dkeys (c_mutable (co_dict o')) = dkeys (c_mutable (co_dict o)) /\
  (forall k, dget k (c_mutable (co_dict o')) = latest k calls (dget k (c_mutable (co_dict o)))) /\
  synced o'.
Proof.
  revert o o' es. induction calls as [|c calls IH]; simpl; intros o o' es Hwf Hc Hs H Hes.
  - inversion H; subst. split; [destruct (co_dict o'); reflexivity|]. auto.
  - destruct (update_mutable_settings c o) as [o1 e] eqn:E1. destruct (run_updates calls o1) as [o2 es2] eqn:E2.
    inversion H; subst. inversion Hes; subst. inversion Hc; subst.
    apply update_ok in E1; [|exact Hs]. destruct E1 as [Hd [Hk Hs1]].
    assert (Hwf1 : dwf (c_mutable (co_dict o1))) by (unfold dwf; rewrite Hk; exact Hwf).
    destruct (IH o1 o' es2 Hwf1 H4 Hs1 E2 H3) as [I1 [I2 [I3 I4]]]. repeat split; auto.
    + rewrite I1 at 1. rewrite Hd. destruct (co_dict o); reflexivity.
    + congruence.
    + intros k. rewrite I3. f_equal. rewrite Hd. simpl. apply dget_dupdate. assumption.
Qed.

Lemma run_updates_wf calls o o' es : wf (co_dict o) -> synced o ->
  Forall dvwf calls ->
  run_updates calls o = (o', es) -> Forall (fun e => e = None) es -> wf (co_dict o').
Proof.
  revert o o' es. induction calls as [|c calls IH]; simpl; intros o o' es Hwf Hs Hc H Hes.
  - inversion H; subst. exact Hwf.
  - destruct (update_mutable_settings c o) as [o1 e] eqn:E1. destruct (run_updates calls o1) as [o2 es2] eqn:E2.
    inversion H; subst. inversion Hes; subst. inversion Hc; subst.
    apply update_ok in E1; [|exact Hs]. destruct E1 as [Hd [Hk Hs1]]. eapply (IH o1); eauto.
    inversion Hwf as [? Ws Wc Wm Wd Wsub Wdep Wall]; subst. rewrite Hd in *. constructor; simpl in *; auto.
    + destruct Wm as [Wm1 Wm2]. split; [unfold dwf; rewrite Hk; exact Wm1|].
      match goal with Hx : dvwf c |- _ => destruct Hx as [_ Hcv] end. clear - Wm2 Hcv. unfold dupdate.
      revert Wm2. generalize (c_mutable (co_dict o)). induction Hcv as [|[k v] c Hv Hc IH]; simpl; intros m Hm; [exact Hm|].
      apply IH. clear - Hm Hv. induction m as [|[k' v'] m IHm]; simpl; [repeat constructor; exact Hv|].
      inversion Hm; subst. destruct (String.eqb k k'); constructor; auto.
    + rewrite Hk. assumption.
Qed.

Lemma update_fail new o o' e : synced o -> update_mutable_settings new o = (o', Some e) ->
  exists pre k v post, new = pre ++ (k, v) :: post /\
    (forall k', In k' (dkeys pre) -> In k' (dkeys (c_mutable (co_dict o)))) /\
    ~ In k (dkeys (c_mutable (co_dict o))) /\
    co_dict o' = set_mutable (dupdate (c_mutable (co_dict o)) pre) (co_dict o) /\
    co_config o' = co_config o /\ e = KeyError.
Proof.
  intros Hs. unfold update_mutable_settings. destruct (update_loop _ _) as [m e0] eqn:E.
  destruct e0 as [e0|].
  - intros H; inversion H; subst. apply update_loop_fail in E.
    destruct E as (pre & k & v & post & -> & H1 & H2 & -> & ->).
    exists pre, k, v, post. repeat split; auto.
  - apply update_loop_ok in E. destruct E as [H1 [H2 H3]]. rewrite (set_mutable_disjoint m o Hs H3). discriminate.
Qed.
