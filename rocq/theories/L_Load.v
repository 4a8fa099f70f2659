(** Proofs about loading components. *)
From Verif Require Import Py PyFacts PyStr PyStrFacts M_Config S_Config L_Config M_Component S_Component L_Component.

(** ** Storage of a tree *)

Inductive Stored (fs : fsys) : component -> path -> Prop :=
| Stored_intro c p cf :
    k_conf c = Some cf ->
    fs (splitext_path p) FConf = Some (CConf (co_dict cf)) ->
    fs (splitext_path p) FData = Some (CData (k_data c)) ->
    (forall n s, In (n, s) (k_subs c) -> Stored fs s (splitext_path p ++ [n])) ->
    Stored fs c p.

(** Either unreadable, or exactly the tree. *)
Inductive Safe (fs : fsys) : component -> path -> Prop :=
| Safe_unreadable c p :
    fs (splitext_path p) FConf = None \/ fs (splitext_path p) FData = None \/
    fs (splitext_path p) FData = Some CGarbage ->
    Safe fs c p
| Safe_intro c p cf :
    k_conf c = Some cf ->
    fs (splitext_path p) FConf = Some (CConf (co_dict cf)) ->
    fs (splitext_path p) FData = Some (CData (k_data c)) ->
    (forall n s, In (n, s) (k_subs c) -> Safe fs s (splitext_path p ++ [n])) ->
    Safe fs c p.

Inductive DistinctNames : component -> Prop :=
| DistinctNames_intro c :
    NoDup (map splitext_root (dkeys (k_subs c))) ->
    Forall (fun s => DistinctNames (snd s)) (k_subs c) ->
    DistinctNames c.

Lemma Consistent_distinct rv kn c : Consistent rv kn c -> DistinctNames c.
Proof.
  induction c as [cls unt b cf data subs H] using component_ind'. intros HC. inversion HC; subst.
  constructor; [assumption|]. simpl. rewrite Forall_forall in *. eauto.
Qed.

Lemma Stored_Safe fs c : forall p, Stored fs c p -> Safe fs c p.
Proof.
  induction c as [cls unt b cf data subs H] using component_ind'. intros p HS.
  inversion HS as [? ? cf' H1 H2 H3 H4]; subst. eapply Safe_intro; eauto.
  intros n s Hin. rewrite Forall_forall in H. apply (H _ Hin). eauto.
Qed.

Lemma Stored_frame fs fs' c : forall p, Stored fs c p ->
  (forall q g, fs' (splitext_path p ++ q) g = fs (splitext_path p ++ q) g) -> Stored fs' c p.
Proof.
  induction c as [cls unt b cf data subs H] using component_ind'. intros p HS Hf.
  inversion HS as [? ? cf' H1 H2 H3 H4]; subst.
  pose proof (Hf [] FConf) as F1. pose proof (Hf [] FData) as F2. rewrite app_nil_r in F1, F2.
  eapply Stored_intro; [exact H1|rewrite F1; exact H2|rewrite F2; exact H3|].
  intros n s Hin. rewrite Forall_forall in H. apply (H _ Hin); [eauto|].
  intros q g. rewrite splitext_path_snoc, <- app_assoc. apply Hf.
Qed.

Lemma Safe_frame fs fs' c : forall p, Safe fs c p ->
  (forall q g, fs' (splitext_path p ++ q) g = fs (splitext_path p ++ q) g) -> Safe fs' c p.
Proof.
  induction c as [cls unt b cf data subs H] using component_ind'. intros p HS Hf.
  pose proof (Hf [] FConf) as F1. pose proof (Hf [] FData) as F2. rewrite app_nil_r in F1, F2.
  inversion HS as [? ? H1|? ? cf' H1 H2 H3 H4]; subst.
  - apply Safe_unreadable. rewrite F1, F2. exact H1.
  - eapply Safe_intro; [exact H1|rewrite F1; exact H2|rewrite F2; exact H3|].
    intros n s Hin. rewrite Forall_forall in H. apply (H _ Hin); [eauto|].
    intros q g. rewrite splitext_path_snoc, <- app_assoc. apply Hf.
Qed.

(** Writing below other sub-directories does not matter. *)
Lemma run_ops_frame ops fs q g :
  Forall (fun o => o_path o <> q) ops -> run_ops ops fs q g = fs q g.
Proof.
  revert fs. induction ops as [|o ops IH]; intros fs H; [reflexivity|]. inversion H; subst. simpl.
  rewrite IH by assumption. apply fs_write_other. assumption.
Qed.

Lemma under_neq (d : path) (x y : string) (q r : path) : x <> y -> (d ++ [x]) ++ q <> (d ++ [y]) ++ r.
Proof.
  intros Hne Heq. rewrite <- !app_assoc in Heq. apply app_inv_head in Heq. inversion Heq. contradiction.
Qed.

Lemma ops_other_dir ops d x y q :
  Forall (fun o => exists r, o_path o = (d ++ [x]) ++ r) ops -> x <> y ->
  Forall (fun o => o_path o <> (d ++ [y]) ++ q) ops.
Proof.
  intros H Hne. eapply Forall_impl; [|exact H]. intros o [r Hr]. rewrite Hr. apply under_neq. exact Hne.
Qed.

Lemma save_subs_under ov al d l : forall fs ops fs' e,
  save_subs ov al d l fs = (ops, fs', e) ->
  Forall (fun o => exists n r, In n (dkeys l) /\ o_path o = (d ++ [splitext_root n]) ++ r) ops /\
  fs' = run_ops ops fs.
Proof.
  induction l as [|[n s] l IH]; intros fs ops fs' e H; cbn [save_subs] in H.
  - inversion H; subst. split; [constructor|reflexivity].
  - destruct (save ov al s (d ++ [n]) fs) as [[ops1 fs1] e1] eqn:E1.
    pose proof (save_run _ _ _ _ _ _ _ _ E1) as R1. apply save_under in E1. rewrite splitext_path_snoc in E1.
    assert (E1' : Forall (fun o => exists m r, In m (dkeys ((n, s) :: l)) /\ o_path o = (d ++ [splitext_root m]) ++ r) ops1).
    { eapply Forall_impl; [|exact E1]. intros o [r Hr]. exists n, r. split; [left; reflexivity|exact Hr]. }
    destruct e1.
    + inversion H; subst. split; [exact E1'|reflexivity].
    + destruct (save_subs ov al d l fs1) as [[ops2 fs2] e2] eqn:E2. inversion H; subst.
      destruct (IH _ _ _ _ E2) as [I1 I2]. split; [|rewrite run_ops_app; exact I2].
      apply Forall_app. split; [exact E1'|]. eapply Forall_impl; [|exact I1].
      intros o (m & r & Hm & Hr). exists m, r. split; [right; exact Hm|exact Hr].
Qed.

Lemma subs_ops_neq_dir d (l : list (string * component)) ops :
  Forall (fun o => exists n r, In n (dkeys l) /\ o_path o = (d ++ [splitext_root n]) ++ r) ops ->
  Forall (fun o : op => o_path o <> d) ops.
Proof.
  intros H. eapply Forall_impl; [|exact H]. intros o (n & r & _ & Hr) Heq. rewrite Hr in Heq.
  rewrite <- app_assoc in Heq. rewrite <- (app_nil_r d) in Heq at 2. apply app_inv_head in Heq. discriminate.
Qed.

Lemma subs_ops_other d (l : list (string * component)) ops m q :
  Forall (fun o => exists n r, In n (dkeys l) /\ o_path o = (d ++ [splitext_root n]) ++ r) ops ->
  ~ In (splitext_root m) (map splitext_root (dkeys l)) ->
  Forall (fun o : op => o_path o <> (d ++ [splitext_root m]) ++ q) ops.
Proof.
  intros H Hni. eapply Forall_impl; [|exact H]. intros o (n & r & Hn & Hr). rewrite Hr. apply under_neq.
  intros Heq. apply Hni. rewrite <- Heq. apply in_map. exact Hn.
Qed.

Lemma save_stored ov al c : forall p fs ops fs',
  DistinctNames c -> save ov al c p fs = (ops, fs', None) -> Stored fs' c p.
Proof.
  induction c as [cls unt b cf data subs H] using component_ind'. intros p fs ops fs' HD Hs.
  rewrite save_unfold in Hs. cbn [k_configured k_untracked k_conf k_data k_subs] in Hs.
  destruct (negb b); [inversion Hs|]. destruct (negb al && _); [inversion Hs|].
  cbv zeta in Hs. set (d := splitext_path p) in *.
  destruct ((fs_exists fs d FConf || _) && negb ov); [inversion Hs|].
  destruct cf as [cf|]; [|inversion Hs].
  destruct (save_subs ov al d subs _) as [[ops0 fs0] e0] eqn:E.
  inversion Hs; subst. clear Hs.
  inversion HD as [? Hnd Hall]; subst. simpl in Hnd, Hall.
  destruct (save_subs_under _ _ _ _ _ _ _ _ E) as [U R].
  assert (Hsub : forall l fs0 ops0 fs0', incl l subs -> NoDup (map splitext_root (dkeys l)) ->
     save_subs ov al d l fs0 = (ops0, fs0', None) ->
     forall n s, In (n, s) l -> Stored fs0' s (d ++ [n])).
  { clear E U R fs' ops0 Hnd.
    induction l as [|[n s] l IHl]; intros fs1 ops1 fs1' Hincl Hnd Hl m t Hin; [destruct Hin|].
    cbn [save_subs] in Hl. destruct (save ov al s (d ++ [n]) fs1) as [[opsa fsa] [ea|]] eqn:E1; [inversion Hl|].
    destruct (save_subs ov al d l fsa) as [[opsb fsb] eb] eqn:E2. inversion Hl; subst.
    simpl in Hnd. inversion Hnd as [|? ? Hni Hnd']; subst.
    assert (Hn : In (n, s) subs) by (apply Hincl; left; reflexivity).
    destruct Hin as [Heq|Hin].
    - inversion Heq; subst m t. rewrite Forall_forall in H, Hall.
      assert (HS : Stored fsa s (d ++ [n])) by (eapply (H _ Hn); [apply (Hall _ Hn)|exact E1]).
      eapply Stored_frame; [exact HS|]. intros q g.
      destruct (save_subs_under _ _ _ _ _ _ _ _ E2) as [U2 R2]. rewrite R2, splitext_path_snoc.
      apply run_ops_frame. eapply subs_ops_other; eauto.
    - eapply IHl; [intros x Hx; apply Hincl; right; exact Hx|exact Hnd'|exact E2|exact Hin]. }
  pose proof (subs_ops_neq_dir _ _ _ U) as Hdir. subst fs'.
  eapply Stored_intro with (cf := cf); cbn [k_conf k_data k_subs]; fold d.
  - reflexivity.
  - rewrite run_ops_frame by exact Hdir. unfold apply_op; cbn [o_path o_file o_content].
    rewrite fs_write_file by discriminate. apply fs_write_same.
  - rewrite run_ops_frame by exact Hdir. unfold apply_op; cbn [o_path o_file o_content]. apply fs_write_same.
  - intros n s Hin. eapply Hsub; [apply incl_refl|exact Hnd|exact E|exact Hin].
Qed.

(** ** Loading back *)

Section Load.
Variable rv : string.
Variable kn : string -> bool.
Variable kind_of : string -> kind.
Variable rebuild : dict value -> result value.

Notation load := (load rv kn kind_of rebuild).
Notation load_loop := (load_loop rv kn).

Lemma dset_new_app {A} n (x : A) d : ~ In n (dkeys d) -> dset n x d = d ++ [(n, x)].
Proof.
  induction d as [|[m y] d IH]; simpl; intros H; [reflexivity|].
  destruct (String.eqb n m) eqn:E.
  - apply String.eqb_eq in E. subst. exfalso; apply H; left; reflexivity.
  - rewrite IH; [reflexivity|]. intros Hin; apply H; right; exact Hin.
Qed.

Lemma NoDup_map_inv' {A B} (f : A -> B) l : NoDup (map f l) -> NoDup l.
Proof. apply NoDup_map_inv. Qed.

(** The loop without modifications, when every sub-load returns the stored
    sub-component. *)
Lemma load_loop_plain sub_load d cf cls unt b data : forall rest done,
  NoDup (dkeys (done ++ rest)) ->
  (forall n s, In (n, s) rest -> exists sc, dget n (c_subs (co_dict cf)) = Some sc /\
      c_class sc = k_class s /\ kn (k_class s) = true) ->
  (forall n s, In (n, s) rest -> sub_load (new_component (k_class s)) (d ++ [n]) [] = (s, None, [])) ->
  load_loop sub_load d (dkeys rest) (mkComp cls unt b (Some cf) data done, [], []) =
  ((mkComp cls unt b (Some cf) data (done ++ rest), [], []), None).
Proof.
  induction rest as [|[n s] rest IH]; intros done Hnd Hcls Hload.
  - simpl. rewrite app_nil_r. reflexivity.
  - cbn [dkeys map fst M_Component.load_loop dget k_conf].
    destruct (Hcls n s (or_introl eq_refl)) as (sc & Hsc & Hc & Hk). rewrite Hsc, Hc, Hk. cbn [negb].
    rewrite (Hload n s (or_introl eq_refl)). cbn [smem existsb]. unfold with_conf, with_sub. cbn [k_class k_untracked k_configured k_conf k_data k_subs].
    rewrite dset_new_app.
    + fold (dkeys rest). rewrite IH.
      * rewrite <- app_assoc. reflexivity.
      * rewrite <- app_assoc. exact Hnd.
      * intros m t Hin. apply Hcls. right; exact Hin.
      * intros m t Hin. apply Hload. right; exact Hin.
    + intros Hin. unfold dkeys in Hnd. rewrite map_app in Hnd. simpl in Hnd.
      apply NoDup_remove_2 in Hnd. apply Hnd. apply in_or_app. left. exact Hin.
Qed.

Lemma depth_sub n s c : In (n, s) (k_subs c) -> depth s < depth c.
Proof.
  destruct c as [cls unt b cf data subs]. simpl. intros Hin. apply Nat.lt_succ_r.
  induction subs as [|[m t] subs IH]; simpl; [destruct Hin|]. destruct Hin as [Heq|Hin].
  - inversion Heq; subst. apply Nat.le_max_l.
  - etransitivity; [apply IH; exact Hin|]. apply Nat.le_max_r.
Qed.

Lemma init_self_facts cf : configuration_init rv (co_dict cf) = Ok cf -> c_version (co_dict cf) = rv.
Proof.
  unfold configuration_init. destruct (check_dependent_names _ _); [discriminate|].
  destruct (combine_settings _); [|discriminate]. intros H. inversion H as [H1]. rewrite H1. simpl.
  rewrite <- H1. reflexivity.
Qed.

Lemma load_stored c : forall fuel fs p, Consistent rv kn c -> Stored fs c p -> depth c <= fuel ->
  load fuel fs (new_component (k_class c)) p [] = (c, None, []).
Proof.
  induction c as [cls unt b cf data subs H] using component_ind'. intros fuel fs p HC HS Hd.
  destruct fuel as [|fuel]; [simpl in Hd; lia|].
  inversion HC as [cls' cf' data' subs' Hinit Hcls Hdata Hdep Hnd Hsub Hall]; subst.
  inversion HS as [? ? cf0 H1 H2 H3 H4]; subst. simpl in H1. inversion H1; subst cf0.
  cbn [M_Component.load new_component k_configured k_untracked length Nat.eqb negb k_class].
  rewrite H2, H3, Hinit. rewrite (init_self_facts _ Hinit), String.eqb_refl. cbn [negb].
  rewrite String.eqb_refl. cbn [negb k_data].
  replace (match data with VNone | VDict _ => true | _ => false end) with true
    by (destruct Hdata as [->|Hd']; [reflexivity|destruct data; try discriminate; reflexivity]).
  cbn [negb]. rewrite Hdep. unfold with_conf, with_data, new_component.
  cbn [k_class k_untracked k_configured k_conf k_data k_subs].
  assert (L : load_loop (load fuel fs) (splitext_path p) (dkeys subs)
      (mkComp (c_class (co_dict cf')) [] false (Some cf') data [], [], []) =
      ((mkComp (c_class (co_dict cf')) [] false (Some cf') data ([] ++ subs), [], []), None)).
  { apply load_loop_plain.
    - simpl. eapply NoDup_map_inv'. exact Hnd.
    - exact Hsub.
    - intros n s Hin. rewrite Forall_forall in H, Hall. apply (H _ Hin).
      + apply (Hall _ Hin).
      + simpl in H4. eauto.
      + pose proof (depth_sub n s (mkComp (c_class (co_dict cf')) [] true (Some cf') data subs) Hin). cbn [snd]. lia. }
  match goal with |- context [M_Component.load_loop rv kn ?f ?d ?n ?s] =>
    destruct (M_Component.load_loop rv kn f d n s) as [st e] eqn:E end.
  pose proof (eq_trans (eq_sym E) L) as E'. inversion E'; subst. reflexivity.
Qed.

Lemma load_loop_plain_inv sub_load d cf cls unt b data : forall rest done st,
  NoDup (dkeys (done ++ rest)) ->
  (forall n s, In (n, s) rest -> exists sc, dget n (c_subs (co_dict cf)) = Some sc /\
      c_class sc = k_class s /\ kn (k_class s) = true) ->
  (forall n s s' m, In (n, s) rest ->
     sub_load (new_component (k_class s)) (d ++ [n]) [] = (s', None, m) -> s' = s) ->
  load_loop sub_load d (dkeys rest) (mkComp cls unt b (Some cf) data done, [], []) = (st, None) ->
  st = (mkComp cls unt b (Some cf) data (done ++ rest), [], []).
Proof.
  induction rest as [|[n s] rest IH]; intros done st Hnd Hcls Hload.
  - simpl. rewrite app_nil_r. intros H; inversion H; reflexivity.
  - cbn [dkeys map fst M_Component.load_loop dget k_conf].
    destruct (Hcls n s (or_introl eq_refl)) as (sc & Hsc & Hc & Hk). rewrite Hsc, Hc, Hk. cbn [negb].
    destruct (sub_load (new_component (k_class s)) (d ++ [n]) []) as [[s' [e|]] m'] eqn:E; [intros H; inversion H|].
    pose proof (Hload n s s' m' (or_introl eq_refl) E) as ->.
    cbn [smem existsb]. unfold with_conf, with_sub. cbn [k_class k_untracked k_configured k_conf k_data k_subs].
    rewrite dset_new_app.
    + fold (dkeys rest). intros H. apply IH in H.
      * rewrite <- app_assoc in H. exact H.
      * rewrite <- app_assoc. exact Hnd.
      * intros m t Hin. apply Hcls. right; exact Hin.
      * intros m t t' mm Hin. apply Hload. right; exact Hin.
    + intros Hin. unfold dkeys in Hnd. rewrite map_app in Hnd. simpl in Hnd.
      apply NoDup_remove_2 in Hnd. apply Hnd. apply in_or_app. left. exact Hin.
Qed.

Lemma load_safe c : forall fuel fs p c' m, Consistent rv kn c -> Safe fs c p ->
  load fuel fs (new_component (k_class c)) p [] = (c', None, m) -> c' = c.
Proof.
  induction c as [cls unt b cf data subs H] using component_ind'. intros fuel fs p c' m HC HS Hl.
  destruct fuel as [|fuel]; [inversion Hl|].
  inversion HC as [cls' cf' data' subs' Hinit Hcls Hdata Hdep Hnd Hsub Hall]; subst.
  cbn [M_Component.load new_component k_configured k_untracked length Nat.eqb negb k_class] in Hl.
  inversion HS as [? ? H1|? ? cf0 H1 H2 H3 H4]; subst.
  - exfalso. destruct H1 as [H1|[H1|H1]]; rewrite H1 in Hl; try discriminate;
      destruct (fs (splitext_path p) FConf) as [[| |]|]; discriminate.
  - simpl in H1. inversion H1; subst cf0.
    rewrite H2, H3, Hinit in Hl. rewrite (init_self_facts _ Hinit), String.eqb_refl in Hl. cbn [negb] in Hl.
    rewrite String.eqb_refl in Hl. cbn [negb k_data] in Hl.
    replace (match data with VNone | VDict _ => true | _ => false end) with true in Hl
      by (destruct Hdata as [->|Hd']; [reflexivity|destruct data; try discriminate; reflexivity]).
    cbn [negb] in Hl. rewrite Hdep in Hl. unfold with_conf, with_data, new_component in Hl.
    cbn [k_class k_untracked k_configured k_conf k_data k_subs] in Hl.
    match type of Hl with context [M_Component.load_loop rv kn ?f ?d ?n ?s] =>
      destruct (M_Component.load_loop rv kn f d n s) as [st [e|]] eqn:E end;
      [destruct st as [[self3 m3] upd]; discriminate|].
    apply (load_loop_plain_inv (load fuel fs) (splitext_path p) cf') in E.
    + subst st. inversion Hl; reflexivity.
    + simpl. eapply NoDup_map_inv'. exact Hnd.
    + exact Hsub.
    + intros n s s' m' Hin Hsl. rewrite Forall_forall in H, Hall.
      eapply (H _ Hin); [apply (Hall _ Hin)| |exact Hsl]. simpl in H4. eauto.
Qed.

(** ** Crash while saving into a fresh directory *)

Lemma crash_app a b fs fs' : Crash (a ++ b) fs fs' -> Crash a fs fs' \/ Crash b (run_ops a fs) fs'.
Proof.
  revert fs. induction a as [|o a IH]; intros fs H; [right; exact H|]. simpl in *.
  inversion H as [| | |? ? ? ? Hc]; subst.
  - left; constructor.
  - left; constructor.
  - left; constructor.
  - apply IH in Hc. destruct Hc as [Hc|Hc]; [left; apply Crash_later; exact Hc|right; exact Hc].
Qed.

Lemma crash_frame_path ops fs fs' q g : Crash ops fs fs' -> Forall (fun o => o_path o <> q) ops -> fs' q g = fs q g.
Proof.
  intros HC H. eapply crash_frame; [exact HC|]. eapply Forall_impl; [|exact H].
  intros o Ho Heq. inversion Heq. contradiction.
Qed.

Lemma fresh_data_absent fs p : fresh_dir fs (splitext_path p) -> fs (splitext_path p) FData = None.
Proof. intros H. specialize (H [] FData). rewrite app_nil_r in H. exact H. Qed.

Lemma crash_safe ov al c : forall p fs ops fs' e fs'', DistinctNames c ->
  save ov al c p fs = (ops, fs', e) -> fresh_dir fs (splitext_path p) -> Crash ops fs fs'' -> Safe fs'' c p.
Proof.
  induction c as [cls unt b cf data subs H] using component_ind'. intros p fs ops fs' e fs'' HD Hs Hfresh HC.
  assert (Hstart : Safe fs (mkComp cls unt b cf data subs) p).
  { apply Safe_unreadable. right; left. apply fresh_data_absent; exact Hfresh. }
  rewrite save_unfold in Hs. cbn [k_configured k_untracked k_conf k_data k_subs] in Hs.
  assert (Hnil : ops = [] -> Safe fs'' (mkComp cls unt b cf data subs) p).
  { intros ->. inversion HC; subst; exact Hstart. }
  destruct (negb b); [apply Hnil; inversion Hs; reflexivity|].
  destruct (negb al && _); [apply Hnil; inversion Hs; reflexivity|].
  cbv zeta in Hs.
  destruct ((fs_exists fs (splitext_path p) FConf || _) && negb ov); [apply Hnil; inversion Hs; reflexivity|].
  destruct cf as [cf|]; [|apply Hnil; inversion Hs; reflexivity]. clear Hnil.
  set (d := splitext_path p) in *.
  set (o1 := mkOp d FConf (CConf (co_dict cf))) in *. set (o2 := mkOp d FData (CData data)) in *.
  destruct (save_subs ov al d subs (apply_op o2 (apply_op o1 fs))) as [[ops0 fs0] e0] eqn:E.
  inversion Hs; subst. clear Hs.
  inversion HD as [? Hnd Hall]; subst. simpl in Hnd, Hall.
  pose proof (fresh_data_absent fs p Hfresh) as Hda. fold d in Hda.
  inversion HC as [|? ? ? ? y| |? ? ? ? HC1]; subst.
  - exact Hstart.
  - apply Safe_unreadable. right; left. fold d. rewrite fs_write_file by discriminate. exact Hda.
  - inversion HC1 as [|? ? ? ? y| |? ? ? ? HC2]; subst.
    + apply Safe_unreadable. right; left. fold d. unfold apply_op; cbn [o_path o_file o_content o1].
      rewrite fs_write_file by discriminate. exact Hda.
    + apply Safe_unreadable. right; right. fold d. apply fs_write_same.
    + (* both files written; crash in the sub-components *)
      set (fs2 := apply_op o2 (apply_op o1 fs)) in *.
      destruct (save_subs_under _ _ _ _ _ _ _ _ E) as [U R].
      pose proof (subs_ops_neq_dir _ _ _ U) as Hdir.
      eapply Safe_intro with (cf := cf); cbn [k_conf k_data k_subs]; fold d.
      * reflexivity.
      * rewrite (crash_frame_path _ _ _ d FConf HC2 Hdir). unfold fs2, apply_op; cbn [o1 o2 o_path o_file o_content].
        rewrite fs_write_file by discriminate. apply fs_write_same.
      * rewrite (crash_frame_path _ _ _ d FData HC2 Hdir). unfold fs2, apply_op; cbn [o1 o2 o_path o_file o_content].
        apply fs_write_same.
      * assert (Hfr2 : forall n, fresh_dir fs2 (d ++ [splitext_root n])).
        { intros n q g. unfold fs2, apply_op; cbn [o1 o2 o_path o_file o_content].
          assert (Hne : d <> (d ++ [splitext_root n]) ++ q).
          { intros Heq. rewrite <- app_assoc in Heq. rewrite <- (app_nil_r d) in Heq at 1.
            apply app_inv_head in Heq. discriminate. }
          rewrite !fs_write_other by exact Hne. rewrite <- app_assoc. apply Hfresh. }
        clearbody fs2. clear HC HC1 Hstart U R Hdir.
        assert (Hloop : forall l fs2 ops0 fs0 e0 fs'', incl l subs -> NoDup (map splitext_root (dkeys l)) ->
          (forall n, In n (dkeys l) -> fresh_dir fs2 (d ++ [splitext_root n])) ->
          save_subs ov al d l fs2 = (ops0, fs0, e0) -> Crash ops0 fs2 fs'' ->
          forall n s, In (n, s) l -> Safe fs'' s (d ++ [n])).
        { clear - H Hall.
          induction l as [|[n s] l IHl]; intros fs2 ops0 fs0 e0 fs'' Hincl Hnd Hfr Hl HC m t Hin; [destruct Hin|].
          cbn [save_subs] in Hl. simpl in Hnd. inversion Hnd as [|? ? Hni Hnd']; subst.
          assert (Hn : In (n, s) subs) by (apply Hincl; left; reflexivity).
          rewrite Forall_forall in H, Hall.
          destruct (save ov al s (d ++ [n]) fs2) as [[opsa fsa] ea] eqn:E1.
          pose proof (save_under _ _ _ _ _ _ _ _ E1) as Ua. rewrite splitext_path_snoc in Ua.
          assert (Hfrn : fresh_dir fs2 (splitext_path (d ++ [n]))).
          { rewrite splitext_path_snoc. apply Hfr. left; reflexivity. }
          assert (Hother : forall fsx k x, Crash opsa fs2 fsx -> In (k, x) l -> Safe fsx x (d ++ [k])).
          { intros fsx k x HCx Hk. apply Safe_unreadable. right; left. rewrite splitext_path_snoc.
            assert (Hkk : In k (dkeys l)) by (apply (in_map fst) in Hk; exact Hk).
            rewrite <- (app_nil_r (d ++ [splitext_root k])).
            rewrite (crash_frame_path _ _ _ _ FData HCx).
            - apply Hfr. right. exact Hkk.
            - eapply ops_other_dir; [exact Ua|]. intros Heq. apply Hni. rewrite Heq. apply in_map. exact Hkk. }
          destruct ea as [ea|].
          - inversion Hl; subst. destruct Hin as [Heq|Hin].
            + inversion Heq; subst m t. eapply (H _ Hn); [apply (Hall _ Hn)|exact E1|exact Hfrn|exact HC].
            + eapply Hother; eauto.
          - destruct (save_subs ov al d l fsa) as [[opsb fsb] eb] eqn:E2. inversion Hl; subst.
            apply crash_app in HC. pose proof (save_run _ _ _ _ _ _ _ _ E1) as Ra.
            destruct HC as [HC|HC].
            + destruct Hin as [Heq|Hin].
              * inversion Heq; subst m t. eapply (H _ Hn); [apply (Hall _ Hn)|exact E1|exact Hfrn|exact HC].
              * eapply Hother; eauto.
            + rewrite <- Ra in HC. destruct Hin as [Heq|Hin].
              * inversion Heq; subst m t. apply Stored_Safe.
                assert (HSt : Stored fsa s (d ++ [n])) by (eapply save_stored; [apply (Hall _ Hn)|exact E1]).
                eapply Stored_frame; [exact HSt|]. intros q g. rewrite splitext_path_snoc.
                destruct (save_subs_under _ _ _ _ _ _ _ _ E2) as [U2 R2].
                eapply crash_frame_path; [exact HC|]. eapply subs_ops_other; eauto.
              * eapply IHl; [intros x Hx; apply Hincl; right; exact Hx|exact Hnd'| |exact E2|exact HC|exact Hin].
                intros k Hk q g. rewrite Ra. rewrite run_ops_frame; [apply Hfr; right; exact Hk|].
                eapply ops_other_dir; [exact Ua|]. intros Heq. apply Hni. rewrite Heq. apply in_map. exact Hk. }
        intros n s Hin. eapply Hloop; [apply incl_refl|exact Hnd| |exact E|exact HC2|exact Hin].
        intros k _. apply Hfr2.
Qed.

(** ** General facts about load *)

Lemma with_sub_configured c n s : k_configured (with_sub c n s) = k_configured c.
Proof. reflexivity. Qed.

Lemma load_loop_configured sub_load d names : forall self m upd self' m' upd' e,
  load_loop sub_load d names (self, m, upd) = ((self', m', upd'), e) ->
  k_configured self' = k_configured self /\ k_class self' = k_class self.
Proof.
  induction names as [|n names IH]; intros self m upd self' m' upd' e H; cbn [M_Component.load_loop] in H.
  - inversion H; subst; auto.
  - destruct (match dget n m with Some (MDict nd) => (nd, ddel n m, upd ++ [n]) | _ => ([], m, upd) end)
      as [[nested m1] upd1].
    destruct (k_conf self) as [cf|]; [|inversion H; subst; auto].
    destruct (dget n (c_subs (co_dict cf))) as [sc|]; [|inversion H; subst; auto].
    destruct (negb (kn (c_class sc))); [inversion H; subst; auto|].
    destruct (sub_load _ _ _) as [[sub [es|]] ms]; [inversion H; subst; auto|].
    destruct (if smem n upd1 then _ else _) as [cf1|]; [|inversion H; subst; auto].
    destruct (dget n m1) as [[r|nd]|].
    + destruct (negb (k_configured r)); [inversion H; subst; auto|].
      destruct (if smem n _ then _ else _) as [[|]|]; try (inversion H; subst; auto).
      destruct (replace_sub_component n r cf1) as [cf2|]; [|inversion H1; subst; auto].
      apply IH in H1. exact H1.
    + inversion H; subst; auto.
    + apply IH in H. exact H.
Qed.

Lemma update_configured names c c' e : update_sub_components rv kind_of rebuild names c = (c', e) ->
  k_configured c' = k_configured c /\ k_class c' = k_class c /\ k_subs c' = k_subs c.
Proof.
  unfold update_sub_components. destruct (kind_of (k_class c)); intros H.
  - inversion H; subst; auto.
  - unfold handler_update in H.
    assert (Hloop : forall names c c1 e1, handler_update_loop names c = (c1, e1) ->
       k_configured c1 = k_configured c /\ k_class c1 = k_class c /\ k_subs c1 = k_subs c).
    { clear. induction names as [|n names IH]; intros c c1 e1 H; cbn [handler_update_loop] in H.
      - inversion H; subst; auto.
      - assert (Hone : forall c2 e2, handler_update_one n c = (c2, e2) ->
          k_configured c2 = k_configured c /\ k_class c2 = k_class c /\ k_subs c2 = k_subs c).
        { clear. intros c2 e2 H. unfold handler_update_one in H.
          destruct (settings_name n); [|inversion H; subst; auto].
          destruct (dget n (k_subs c)) as [sub|]; [|inversion H; subst; auto].
          destruct (k_data c); destruct (k_data sub); try (inversion H; subst; auto; fail).
          cbn [with_data k_conf] in H.
          destruct (k_conf c) as [cf|]; [|inversion H; subst; auto].
          destruct (k_conf sub) as [cfs|]; [|inversion H; subst; auto].
          destruct (dget "config" _) as [[| | | | | |cd]|]; try (inversion H; subst; auto; fail).
          destruct (update_mutable_settings _ _) as [cf1 [e1|]]; [inversion H; subst; auto|].
          destruct (replace_sub_component _ _ _); inversion H; subst; auto. }
        destruct (handler_update_one n c) as [c2 [e2|]].
        + inversion H; subst. eapply Hone; reflexivity.
        + apply IH in H. destruct (Hone _ _ eq_refl) as [A [B C]]. destruct H as [A' [B' C']].
          rewrite A', B', C'. auto. }
    destruct (handler_update_loop names c) as [c1 [e1|]] eqn:E1.
    + inversion H; subst. eapply Hloop; exact E1.
    + destruct (Hloop _ _ _ _ E1) as [A [B C]]. destruct (k_data c1) eqn:Ed; try (inversion H; subst; auto; fail).
      destruct (rebuild d); inversion H; subst; auto.
  - unfold manager_update in H. destruct (forallb _ names); inversion H; subst; auto.
Qed.

Lemma load_err fuel fs self p m c' e m' : load fuel fs self p m = (c', Some e, m') ->
  (k_configured self = true /\ c' = self) \/ (k_configured self = false /\ k_configured c' = false).
Proof.
  destruct fuel as [|fuel]; cbn [M_Component.load].
  - intros H; inversion H; subst. destruct (k_configured c') eqn:E; auto.
  - destruct (k_configured self) eqn:Ec.
    + intros H; inversion H; subst; auto.
    + intros H. right. split; [reflexivity|].
      destruct (negb _); [inversion H; subst; exact Ec|].
      destruct (fs (splitext_path p) FConf) as [[cfg|v|]|]; try (inversion H; subst; exact Ec).
      all: try (destruct (fs (splitext_path p) FData); inversion H; subst; exact Ec).
      destruct (fs (splitext_path p) FData) as [[cfg'|v|]|]; try (inversion H; subst; exact Ec).
      destruct (configuration_init rv cfg) as [cf|]; [|inversion H; subst; exact Ec].
      destruct (negb (String.eqb (c_version cfg) rv)); [inversion H; subst; exact Ec|].
      destruct (negb (String.eqb _ _)); [inversion H; subst; exact Ec|].
      destruct (negb (match v with VNone | VDict _ => true | _ => false end)); [inversion H; subst; exact Ec|].
      match type of H with context [M_Component.load_loop rv kn ?f ?d ?n ?s] =>
        destruct (M_Component.load_loop rv kn f d n s) as [[[self3 m3] upd] e3] eqn:E end.
      apply load_loop_configured in E. destruct E as [E _]. cbn in E.
      destruct e3 as [e3|]; [inversion H; subst; congruence|].
      destruct upd as [|u upd].
      * destruct m3; inversion H; subst. congruence.
      * destruct (update_sub_components rv kind_of rebuild (u :: upd) self3) as [self4 e4] eqn:E4.
        apply update_configured in E4. destruct E4 as [E4 _].
        destruct e4; [inversion H; subst; congruence|]. destruct m3; inversion H; subst; congruence.
Qed.

(** Inversion of a successful load. *)
Lemma load_ok fuel fs self p m c' m' : load fuel fs self p m = (c', None, m') ->
  exists fuel' cfg cf v self3 upd self4,
    fuel = S fuel' /\ k_configured self = false /\ k_untracked self = [] /\
    fs (splitext_path p) FConf = Some (CConf cfg) /\
    fs (splitext_path p) FData = Some (CData v) /\
    configuration_init rv cfg = Ok cf /\
    c_version cfg = rv /\ c_class cfg = k_class self /\
    (v = VNone \/ is_dict v = true) /\
    load_loop (load fuel' fs) (splitext_path p) (c_dep cfg)
      (with_data (with_conf self cf) v, m, []) = ((self3, [], upd), None) /\
    (upd = [] /\ self4 = self3 \/
     upd <> [] /\ update_sub_components rv kind_of rebuild upd self3 = (self4, None)) /\
    c' = set_configured self4 /\ m' = [].
Proof.
  destruct fuel as [|fuel]; cbn [M_Component.load]; intros H; [inversion H|].
  destruct (k_configured self) eqn:Ec; [inversion H|].
  destruct (k_untracked self) as [|u us] eqn:Eu; cbn [length Nat.eqb negb] in H; [|inversion H].
  destruct (fs (splitext_path p) FConf) as [[cfg|v|]|] eqn:E1; try (inversion H; fail).
  all: try (destruct (fs (splitext_path p) FData); inversion H; fail).
  destruct (fs (splitext_path p) FData) as [[cfg'|v|]|] eqn:E2; try (inversion H; fail).
  destruct (configuration_init rv cfg) as [cf|] eqn:Ei; [|inversion H].
  destruct (String.eqb (c_version cfg) rv) eqn:Ev; cbn [negb] in H; [|inversion H].
  destruct (String.eqb (c_class (co_dict cf)) (k_class self)) eqn:Ek; cbn [negb] in H; [|inversion H].
  apply String.eqb_eq in Ev, Ek.
  destruct (match v with VNone | VDict _ => true | _ => false end) eqn:Evd; cbn [negb] in H; [|inversion H].
  assert (Hcf : c_dep (co_dict cf) = c_dep cfg /\ c_class (co_dict cf) = c_class cfg).
  { unfold configuration_init in Ei. destruct (check_dependent_names _ _); [discriminate|].
    destruct (combine_settings _); inversion Ei; auto. }
  destruct Hcf as [Hdep Hcl]. rewrite Hdep in H.
  match type of H with context [M_Component.load_loop rv kn ?f ?d ?n ?s] =>
    destruct (M_Component.load_loop rv kn f d n s) as [[[self3 m3] upd] e3] eqn:E end.
  destruct e3 as [e3|]; [inversion H|].
  destruct (match upd with [] => (self3, None) | _ => update_sub_components rv kind_of rebuild upd self3 end)
    as [self4 e4] eqn:E4.
  destruct e4; [inversion H|]. destruct m3; [|inversion H]. inversion H; subst c' m'.
  exists fuel, cfg, cf, v, self3, upd, self4.
  repeat (split; [first [assumption|reflexivity|congruence]|]). split.
  { destruct v; try discriminate; auto. }
  split; [exact E|]. split; [|auto].
  destruct upd; [left; inversion E4; auto|right; split; [discriminate|exact E4]].
Qed.

End Load.
