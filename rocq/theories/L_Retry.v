(** Proofs about loading into an object whose previous load failed. *)
From Verif Require Import Py PyFacts PyStr PyStrFacts M_Config S_Config L_Config
  M_Component S_Component L_Component L_Load L_Replace L_Update S_Retry.

Section Retry.
Variable rv : string.
Variable kn : string -> bool.
Variable kind_of : string -> kind.
Variable rebuild : dict value -> result value.
Notation load := (load rv kn kind_of rebuild).
Notation load_loop := (load_loop rv kn).

(** ** Members which no load touches *)

Lemma handler_loop_untracked names : forall c c1 e1,
  handler_update_loop names c = (c1, e1) -> k_untracked c1 = k_untracked c.
Proof.
  induction names as [|n names IH]; intros c c1 e1 H; cbn [handler_update_loop] in H.
  - inversion H; subst; auto.
  - assert (Hone : forall c2 e2, handler_update_one n c = (c2, e2) -> k_untracked c2 = k_untracked c).
    { clear. intros c2 e2 H. unfold handler_update_one in H.
      repeat match type of H with context [match ?x with _ => _ end] => destruct x end;
        inversion H; subst; reflexivity. }
    destruct (handler_update_one n c) as [c2 e2] eqn:E2. specialize (Hone _ _ eq_refl).
    destruct e2; [inversion H; subst; auto|].
    apply IH in H. congruence.
Qed.

Lemma update_untracked names c c' e :
  update_sub_components rv kind_of rebuild names c = (c', e) -> k_untracked c' = k_untracked c.
Proof.
  unfold update_sub_components. destruct (kind_of (k_class c)); intros H.
  - inversion H; subst; auto.
  - unfold handler_update in H. destruct (handler_update_loop names c) as [c1 e1] eqn:E1.
    apply handler_loop_untracked in E1.
    destruct e1; [inversion H; subst; auto|].
    destruct (k_data c1); try (inversion H; subst; auto; fail).
    destruct (rebuild _); inversion H; subst; auto.
  - unfold manager_update in H. destruct (forallb _ _); inversion H; subst; auto.
Qed.

Lemma load_loop_untracked sub_load d names : forall self m upd self' m' upd' e,
  load_loop sub_load d names (self, m, upd) = ((self', m', upd'), e) ->
  k_untracked self' = k_untracked self.
Proof.
  induction names as [|n names IH]; intros self m upd self' m' upd' e H; cbn [M_Component.load_loop] in H.
  - inversion H; subst; auto.
  - destruct (match dget n m with Some (MDict nd) => (nd, ddel n m, upd ++ [n]) | _ => ([], m, upd) end)
      as [[nested m1] upd1].
    destruct (k_conf self) as [cf|]; [|inversion H; subst; auto].
    destruct (dget n (c_subs (co_dict cf))) as [sc|]; [|inversion H; subst; auto].
    destruct (negb (kn (c_class sc))); [inversion H; subst; auto|].
    destruct (sub_load _ _ _) as [[sub [es|]] ms]; [inversion H; subst; auto|].
    destruct (if smem n upd1 then _ else _) as [cf1|]; [|inversion H; subst; auto].
    destruct (dget n m1) as [[r|nd]|].
    + destruct (negb (k_configured r)); [inversion H; subst; auto|].
      destruct (if smem n _ then _ else _) as [[|]|]; try (inversion H; subst; auto).
      destruct (replace_sub_component n r cf1) as [cf2|]; [|inversion H1; subst; auto].
      apply IH in H1. exact H1.
    + inversion H; subst; auto.
    + apply IH in H. exact H.
Qed.

(** After a failed load the object is still unconfigured, of its class, and
    has no further members. *)
Lemma load_failed fuel fs self p m c' e m' :
  k_configured self = false -> load fuel fs self p m = (c', Some e, m') ->
  k_configured c' = false /\ k_class c' = k_class self /\ k_untracked c' = k_untracked self.
Proof.
  intros Hc H. split.
  { destruct (load_err _ _ _ _ _ _ _ _ _ _ _ _ H) as [[H1 _]|[_ H1]]; [congruence|exact H1]. }
  destruct fuel as [|fuel]; cbn [M_Component.load] in H; [inversion H; subst; auto|].
  rewrite Hc in H.
  destruct (negb _); [inversion H; subst; auto|].
  destruct (fs (splitext_path p) FConf) as [[cfg|v|]|]; try (inversion H; subst; auto; fail).
  all: try (destruct (fs (splitext_path p) FData); inversion H; subst; auto; fail).
  destruct (fs (splitext_path p) FData) as [[cfg'|v|]|]; try (inversion H; subst; auto; fail).
  destruct (configuration_init rv cfg) as [cf|]; [|inversion H; subst; auto].
  destruct (negb (String.eqb (c_version cfg) rv)); [inversion H; subst; auto|].
  destruct (negb (String.eqb _ _)); [inversion H; subst; auto|].
  destruct (negb (match v with VNone | VDict _ => true | _ => false end)); [inversion H; subst; auto|].
  match type of H with context [M_Component.load_loop rv kn ?f ?d ?n ?s] =>
    destruct (M_Component.load_loop rv kn f d n s) as [[[self3 m3] upd] e3] eqn:E end.
  pose proof (load_loop_configured _ _ _ _ _ _ _ _ _ _ _ _ E) as [_ Ek].
  apply load_loop_untracked in E. cbn in E, Ek.
  destruct e3 as [e3|]; [inversion H; subst; auto|].
  destruct upd as [|u upd].
  - destruct m3; inversion H; subst; auto.
  - destruct (update_sub_components rv kind_of rebuild (u :: upd) self3) as [self4 e4] eqn:E4.
    pose proof (update_untracked _ _ _ _ E4) as Eu.
    apply update_configured in E4. destruct E4 as [_ [E4 _]].
    destruct e4; [inversion H; subst; split; congruence|].
    destruct m3; inversion H; subst; split; congruence.
Qed.

(** ** Two objects which differ by left-over sub-components *)

Lemma loop_overlaid sub_load d left names : forall a b a' ma ua ea b' mb ub eb,
  SameButSubs a b -> Overlaid left (k_subs a) (k_subs b) ->
  load_loop sub_load d names (a, [], []) = ((a', ma, ua), ea) ->
  load_loop sub_load d names (b, [], []) = ((b', mb, ub), eb) ->
  ea = eb /\ ma = [] /\ mb = [] /\ ua = [] /\ ub = [] /\
  SameButSubs a' b' /\ Overlaid left (k_subs a') (k_subs b') /\
  (forall n, ~ In n names -> dget n (k_subs a') = dget n (k_subs a)) /\
  (ea = None -> forall n, In n names -> dget n (k_subs a') <> None).
Proof.
  induction names as [|n names IH]; intros a b a' ma ua ea b' mb ub eb Hs Ho HA HB;
    cbn [M_Component.load_loop dget] in HA, HB.
  - inversion HA; inversion HB; subst. repeat (split; [solve [auto]|]). intros _ n [].
  - assert (Hcf : k_conf a = k_conf b) by apply Hs. rewrite <- Hcf in HB.
    destruct (k_conf a) as [cf|] eqn:Ea;
      [|inversion HA; inversion HB; subst; repeat (split; [solve [auto]|]); discriminate].
    destruct (dget n (c_subs (co_dict cf))) as [sc|];
      [|inversion HA; inversion HB; subst; repeat (split; [solve [auto]|]); discriminate].
    destruct (negb (kn (c_class sc)));
      [inversion HA; inversion HB; subst; repeat (split; [solve [auto]|]); discriminate|].
    destruct (sub_load _ _ _) as [[sub [es|]] ms];
      [inversion HA; inversion HB; subst; repeat (split; [solve [auto]|]); discriminate|].
    assert (H1 : SameButSubs (with_conf (with_sub a n sub) cf) (with_conf (with_sub b n sub) cf)).
    { destruct Hs as [h1 [h2 [h3 [h4 h5]]]]. repeat split; cbn; assumption. }
    assert (H2 : Overlaid left (k_subs (with_conf (with_sub a n sub) cf))
                               (k_subs (with_conf (with_sub b n sub) cf))).
    { intros k. cbn. destruct (string_dec k n) as [->|Hk].
      - rewrite !dget_dset_same. reflexivity.
      - rewrite !dget_dset_other by auto. apply Ho. }
    destruct (IH _ _ _ _ _ _ _ _ _ _ H1 H2 HA HB) as [h1 [h2 [h3 [h4 [h5 [h6 [h7 [h8 h9]]]]]]]].
    do 7 (split; [assumption|]). split.
    + intros k Hk. rewrite h8 by (intros Hin; apply Hk; right; exact Hin). cbn.
      apply dget_dset_other. intros ->; apply Hk; left; reflexivity.
    + intros He k Hin. destruct (in_dec string_dec k names) as [Hi|Hi]; [apply h9; assumption|].
      destruct Hin as [->|Hin]; [|contradiction].
      rewrite h8 by exact Hi. cbn. rewrite dget_dset_same. discriminate.
Qed.

Lemma load_overlaid fuel fs p b a' ea ma b' eb mb :
  k_configured b = false -> k_untracked b = [] ->
  load fuel fs (new_component (k_class b)) p [] = (a', ea, ma) ->
  load fuel fs b p [] = (b', eb, mb) ->
  ea = eb /\
  (ea = None -> SameButSubs a' b' /\ Overlaid (k_subs b) (k_subs a') (k_subs b') /\
     exists cfg, fs (splitext_path p) FConf = Some (CConf cfg) /\
       forall n, dget n (k_subs a') <> None <-> In n (c_dep cfg)).
Proof.
  intros Hc Hu HA HB. destruct fuel as [|fuel]; cbn [M_Component.load] in HA, HB;
    [inversion HA; inversion HB; subst; split; [auto|discriminate]|].
  rewrite Hc, Hu in HB. cbn [k_configured new_component k_untracked length Nat.eqb negb] in HA, HB.
  Ltac same HA HB := inversion HA; inversion HB; subst; split; [reflexivity|discriminate].
  destruct (fs (splitext_path p) FConf) as [[cfg|v|]|]; try (same HA HB; fail).
  all: try (destruct (fs (splitext_path p) FData); same HA HB; fail).
  destruct (fs (splitext_path p) FData) as [[cfg'|v|]|]; try (same HA HB; fail).
  destruct (configuration_init rv cfg) as [cf|] eqn:Ei; [|same HA HB].
  assert (Hdep : c_dep (co_dict cf) = c_dep cfg).
  { unfold configuration_init in Ei. destruct (check_dependent_names _ _); [discriminate|].
    destruct (combine_settings _); inversion Ei; auto. }
  destruct (negb (String.eqb (c_version cfg) rv)); [same HA HB|].
  change (k_class (new_component (k_class b))) with (k_class b) in HA.
  destruct (negb (String.eqb _ (k_class b))); [same HA HB|].
  destruct (negb (match v with VNone | VDict _ => true | _ => false end)); [same HA HB|].
  match type of HA with context [M_Component.load_loop rv kn ?f ?d ?n ?s] =>
    destruct (M_Component.load_loop rv kn f d n s) as [[[a3 ma3] ua] ea3] eqn:EA end.
  match type of HB with context [M_Component.load_loop rv kn ?f ?d ?n ?s] =>
    destruct (M_Component.load_loop rv kn f d n s) as [[[b3 mb3] ub] eb3] eqn:EB end.
  assert (H1 : SameButSubs (with_data (with_conf (new_component (k_class b)) cf) v)
                 (with_data (with_conf b cf) v)).
  { repeat split; cbn; auto. }
  assert (H2 : Overlaid (k_subs b)
     (k_subs (with_data (with_conf (new_component (k_class b)) cf) v))
     (k_subs (with_data (with_conf b cf) v))) by (intros n; reflexivity).
  destruct (loop_overlaid _ _ _ _ _ _ _ _ _ _ _ _ _ _ H1 H2 EA EB)
    as [-> [-> [-> [-> [-> [h6 [h7 [h8 h9]]]]]]]].
  destruct eb3; [same HA HB|].
  inversion HA; inversion HB; subst. split; [reflexivity|].
  intros _. split; [|split].
  - destruct h6 as [g1 [g2 [g3 [g4 g5]]]]. repeat split; cbn; assumption.
  - exact h7.
  - exists cfg. split; [reflexivity|]. intros n. rewrite <- Hdep. cbn. split.
    + intros Hn. destruct (in_dec string_dec n (c_dep (co_dict cf))) as [Hi|Hi]; [exact Hi|].
      exfalso. apply Hn. rewrite h8 by exact Hi. reflexivity.
    + intros Hi. apply h9; auto.
Qed.

(** ** Names of the sub-components left by a failed load *)

Lemma load_loop_names sub_load d names : forall self m upd self' m' upd' e k,
  load_loop sub_load d names (self, m, upd) = ((self', m', upd'), e) ->
  ~ In k names -> dget k (k_subs self') = dget k (k_subs self).
Proof.
  induction names as [|n names IH]; intros self m upd self' m' upd' e k H Hk; cbn [M_Component.load_loop] in H.
  - inversion H; subst; auto.
  - assert (Hkn : k <> n) by (intros ->; apply Hk; left; reflexivity).
    assert (Hkr : ~ In k names) by (intros Hin; apply Hk; right; exact Hin).
    destruct (match dget n m with Some (MDict nd) => (nd, ddel n m, upd ++ [n]) | _ => ([], m, upd) end)
      as [[nested m1] upd1].
    destruct (k_conf self) as [cf|]; [|inversion H; subst; auto].
    destruct (dget n (c_subs (co_dict cf))) as [sc|]; [|inversion H; subst; auto].
    destruct (negb (kn (c_class sc))); [inversion H; subst; auto|].
    destruct (sub_load _ _ _) as [[sub [es|]] ms]; [inversion H; subst; auto|].
    assert (H1 : forall c, dget k (dset n c (k_subs self)) = dget k (k_subs self))
      by (intros c; apply dget_dset_other; exact Hkn).
    destruct (if smem n upd1 then _ else _) as [cf1|]; [|inversion H; subst; apply H1].
    destruct (dget n m1) as [[r|nd]|].
    + destruct (negb (k_configured r)); [inversion H; subst; apply H1|].
      destruct (if smem n _ then _ else _) as [[|]|]; try (inversion H; subst; apply H1; fail).
      destruct (replace_sub_component n r cf1) as [cf2|].
      * apply (IH _ _ _ _ _ _ _ k) in H; [|exact Hkr]. rewrite H. cbn.
        rewrite dget_dset_other by exact Hkn. apply H1.
      * inversion H; subst. cbn. rewrite dget_dset_other by exact Hkn. apply H1.
    + inversion H; subst; apply H1.
    + apply (IH _ _ _ _ _ _ _ k) in H; [|exact Hkr]. rewrite H. apply H1.
Qed.

Lemma load_names fuel fs self p m c' e m' cfg k :
  fs (splitext_path p) FConf = Some (CConf cfg) ->
  load fuel fs self p m = (c', e, m') ->
  ~ In k (c_dep cfg) -> dget k (k_subs c') = dget k (k_subs self).
Proof.
  intros Hf H Hk. destruct fuel as [|fuel]; cbn [M_Component.load] in H; [inversion H; subst; auto|].
  destruct (k_configured self); [inversion H; subst; auto|].
  destruct (negb _); [inversion H; subst; auto|].
  rewrite Hf in H.
  destruct (fs (splitext_path p) FData) as [[cfg'|v|]|]; try (inversion H; subst; auto; fail).
  destruct (configuration_init rv cfg) as [cf|] eqn:Ei; [|inversion H; subst; auto].
  assert (Hdep : c_dep (co_dict cf) = c_dep cfg).
  { unfold configuration_init in Ei. destruct (check_dependent_names _ _); [discriminate|].
    destruct (combine_settings _); inversion Ei; auto. }
  rewrite <- Hdep in Hk.
  destruct (negb (String.eqb (c_version cfg) rv)); [inversion H; subst; auto|].
  destruct (negb (String.eqb _ _)); [inversion H; subst; auto|].
  destruct (negb (match v with VNone | VDict _ => true | _ => false end)); [inversion H; subst; auto|].
  match type of H with context [M_Component.load_loop rv kn ?f ?d ?n ?s] =>
    destruct (M_Component.load_loop rv kn f d n s) as [[[self3 m3] upd] e3] eqn:E end.
  pose proof (load_loop_names _ _ _ _ _ _ _ _ _ _ k E Hk) as E3. cbn in E3.
  destruct e3 as [e3|]; [inversion H; subst; exact E3|].
  destruct upd as [|u upd].
  - destruct m3; inversion H; subst; exact E3.
  - destruct (update_sub_components rv kind_of rebuild (u :: upd) self3) as [self4 e4] eqn:E4.
    apply update_configured in E4. destruct E4 as [_ [_ E4]]. rewrite <- E4 in E3.
    destruct e4; [inversion H; subst; exact E3|].
    destruct m3; inversion H; subst; exact E3.
Qed.

(** ** Everything that is kept is configured *)

Definition AllConfigured (l : list (string * component)) : Prop :=
  forall n s, dget n l = Some s -> k_configured s = true.

Lemma all_configured_dset l n s :
  AllConfigured l -> k_configured s = true -> AllConfigured (dset n s l).
Proof.
  intros H Hs k c Hk. destruct (string_dec k n) as [->|Hn].
  - rewrite dget_dset_same in Hk. congruence.
  - rewrite dget_dset_other in Hk by exact Hn. exact (H k c Hk).
Qed.

Lemma load_loop_all_configured sub_load d names :
  (forall c p m c' m', sub_load c p m = (c', None, m') -> k_configured c' = true) ->
  forall self m upd self' m' upd' e,
  load_loop sub_load d names (self, m, upd) = ((self', m', upd'), e) ->
  AllConfigured (k_subs self) -> AllConfigured (k_subs self').
Proof.
  intros Hsub. induction names as [|n names IH]; intros self m upd self' m' upd' e H Ha;
    cbn [M_Component.load_loop] in H.
  - inversion H; subst; auto.
  - destruct (match dget n m with Some (MDict nd) => (nd, ddel n m, upd ++ [n]) | _ => ([], m, upd) end)
      as [[nested m1] upd1].
    destruct (k_conf self) as [cf|]; [|inversion H; subst; auto].
    destruct (dget n (c_subs (co_dict cf))) as [sc|]; [|inversion H; subst; auto].
    destruct (negb (kn (c_class sc))); [inversion H; subst; auto|].
    destruct (sub_load _ _ _) as [[sub [es|]] ms] eqn:Es; [inversion H; subst; auto|].
    apply Hsub in Es. pose proof (all_configured_dset _ n sub Ha Es) as H1.
    destruct (if smem n upd1 then _ else _) as [cf1|]; [|inversion H; subst; exact H1].
    destruct (dget n m1) as [[r|nd]|].
    + destruct (k_configured r) eqn:Er; cbn [negb] in H; [|inversion H; subst; exact H1].
      pose proof (all_configured_dset _ n r H1 Er) as H2.
      destruct (if smem n _ then _ else _) as [[|]|]; try (inversion H; subst; exact H1; fail).
      destruct (replace_sub_component n r cf1) as [cf2|].
      * apply IH in H; [exact H|exact H2].
      * inversion H; subst. exact H2.
    + inversion H; subst; exact H1.
    + apply IH in H; [exact H|exact H1].
Qed.

Lemma load_all_configured fuel fs self p m c' e m' :
  load fuel fs self p m = (c', e, m') ->
  AllConfigured (k_subs self) -> AllConfigured (k_subs c').
Proof.
  intros H Ha. destruct fuel as [|fuel]; cbn [M_Component.load] in H; [inversion H; subst; auto|].
  destruct (k_configured self); [inversion H; subst; auto|].
  destruct (negb _); [inversion H; subst; auto|].
  destruct (fs (splitext_path p) FConf) as [[cfg|v|]|]; try (inversion H; subst; auto; fail).
  all: try (destruct (fs (splitext_path p) FData); inversion H; subst; auto; fail).
  destruct (fs (splitext_path p) FData) as [[cfg'|v|]|]; try (inversion H; subst; auto; fail).
  destruct (configuration_init rv cfg) as [cf|]; [|inversion H; subst; auto].
  destruct (negb (String.eqb (c_version cfg) rv)); [inversion H; subst; auto|].
  destruct (negb (String.eqb _ _)); [inversion H; subst; auto|].
  destruct (negb (match v with VNone | VDict _ => true | _ => false end)); [inversion H; subst; auto|].
  match type of H with context [M_Component.load_loop rv kn ?f ?d ?n ?s] =>
    destruct (M_Component.load_loop rv kn f d n s) as [[[self3 m3] upd] e3] eqn:E end.
  assert (E3 : AllConfigured (k_subs self3)).
  { refine (load_loop_all_configured _ _ _ _ _ _ _ _ _ _ _ E Ha).
    intros c q mq cq mq' Hq.
    destruct (load_ok _ _ _ _ _ _ _ _ _ _ _ Hq)
      as (f' & g1 & g2 & g3 & s3 & u & s4 & _ & _ & _ & _ & _ & _ & _ & _ & _ & _ & _ & Hc2 & _).
    subst cq. reflexivity. }
  destruct e3 as [e3|]; [inversion H; subst; exact E3|].
  destruct upd as [|u upd].
  - destruct m3; inversion H; subst; exact E3.
  - destruct (update_sub_components rv kind_of rebuild (u :: upd) self3) as [self4 e4] eqn:E4.
    apply update_configured in E4. destruct E4 as [_ [_ E4]]. rewrite <- E4 in E3.
    destruct e4; [inversion H; subst; exact E3|].
    destruct m3; inversion H; subst; exact E3.
Qed.

(** ** What a failed load takes out of the caller's dictionary *)

Lemma taken_cons n done next m m1 m' :
  (forall k, k <> n -> dget k m1 = dget k m) -> dget n m1 = None ->
  TakenOut done next m1 m' -> TakenOut (n :: done) next m m'.
Proof.
  intros H1 H2 [Ha Hb]. split.
  - intros k [->|Hk]; [|auto]. destruct (in_dec string_dec k done) as [Hi|Hi]; [auto|].
    destruct (Hb k Hi) as [->|[-> _]]; auto.
  - intros k Hk. assert (Hkn : k <> n) by (intros ->; apply Hk; left; reflexivity).
    assert (Hi : ~ In k done) by (intros Hi; apply Hk; right; exact Hi).
    destruct (Hb k Hi) as [H|H]; [left; rewrite H; auto|right; exact H].
Qed.

Lemma load_loop_taken sub_load d names : forall self (m : mods) upd self' m' upd' e,
  dwf m -> load_loop sub_load d names (self, m, upd) = ((self', m', upd'), e) ->
  exists done rest, names = done ++ rest /\ TakenOut done (hd_error rest) m m' /\
    (forall k, In k done \/ dget k (k_subs self) <> None -> dget k (k_subs self') <> None) /\
    (e = None -> rest = []).
Proof.
  induction names as [|n names IH]; intros self m upd self' m' upd' e Hwf H; cbn [M_Component.load_loop] in H.
  - inversion H; subst. exists [], []. split; [reflexivity|]. split; [split; [intros k []|auto]|].
    split; [intros k [[]|Hk]; exact Hk|auto].
  - destruct (match dget n m with Some (MDict nd) => (nd, ddel n m, upd ++ [n]) | _ => ([], m, upd) end)
      as [[nested m1] upd1] eqn:Em.
    assert (Hm : dwf m1 /\ (forall k, k <> n -> dget k m1 = dget k m) /\
       (dget n m1 = dget n m \/ dget n m1 = None)).
    { destruct (dget n m) as [[r|nd]|] eqn:En; inversion Em; subst;
        try (split; [exact Hwf|]; split; [auto|left; exact En]).
      split; [apply dwf_ddel; exact Hwf|]. split; [intros k Hk; apply dget_ddel_other; exact Hk|].
      right. apply dget_ddel_same. exact Hwf. }
    destruct Hm as (Hwf1 & Ho & Hn). clear Em.
    assert (Here : forall s mm, (forall k, k <> n -> dget k mm = dget k m) ->
       (dget n mm = dget n m \/ dget n mm = None) ->
       (forall k, dget k (k_subs self) <> None -> dget k (k_subs s) <> None) ->
       exists done rest, n :: names = done ++ rest /\ TakenOut done (hd_error rest) m mm /\
         (forall k, In k done \/ dget k (k_subs self) <> None -> dget k (k_subs s) <> None) /\
         (Some tt = None -> rest = [])).
    { intros s mm A B C. exists [], (n :: names). split; [reflexivity|]. split.
      - split; [intros k []|]. intros k _. destruct (string_dec k n) as [->|Hk]; [|left; auto].
        destruct B as [B|B]; [left; exact B|right; split; [exact B|reflexivity]].
      - split; [intros k [[]|Hk]; auto|discriminate]. }
    assert (Stop : forall s mm x, (forall k, k <> n -> dget k mm = dget k m) ->
       (dget n mm = dget n m \/ dget n mm = None) ->
       (forall k, dget k (k_subs self) <> None -> dget k (k_subs s) <> None) ->
       e = Some x -> exists done rest, n :: names = done ++ rest /\ TakenOut done (hd_error rest) m mm /\
         (forall k, In k done \/ dget k (k_subs self) <> None -> dget k (k_subs s) <> None) /\
         (e = None -> rest = [])).
    { intros s mm x A B C ->. destruct (Here s mm A B C) as (dn & rs & h1 & h2 & h3 & _).
      exists dn, rs. repeat (split; [assumption|]). discriminate. }
    clear Here.
    destruct (k_conf self) as [cf|]; [|inversion H; subst; eapply Stop; eauto].
    destruct (dget n (c_subs (co_dict cf))) as [sc|]; [|inversion H; subst; eapply Stop; eauto].
    destruct (negb (kn (c_class sc))); [inversion H; subst; eapply Stop; eauto|].
    destruct (sub_load _ _ _) as [[sub [es|]] ms]; [inversion H; subst; eapply Stop; eauto|].
    assert (Hset : forall (c : component) (l : list (string * component)) k,
      dget k l <> None -> dget k (dset n c l) <> None).
    { intros c l k Hk. destruct (string_dec k n) as [->|Hkn].
      - rewrite dget_dset_same. discriminate.
      - rewrite dget_dset_other by exact Hkn. exact Hk. }
    destruct (if smem n upd1 then _ else _) as [cf1|];
      [|inversion H; subst; eapply Stop; eauto; intros k Hk; apply Hset; exact Hk].
    assert (Go : forall s2 m2 u2, dwf m2 -> (forall k, k <> n -> dget k m2 = dget k m) ->
       dget n m2 = None -> (forall k, k = n \/ dget k (k_subs self) <> None -> dget k (k_subs s2) <> None) ->
       load_loop sub_load d names (s2, m2, u2) = ((self', m', upd'), e) ->
       exists done rest, n :: names = done ++ rest /\ TakenOut done (hd_error rest) m m' /\
         (forall k, In k done \/ dget k (k_subs self) <> None -> dget k (k_subs self') <> None) /\
         (e = None -> rest = [])).
    { intros s2 m2 u2 W A B C HL. destruct (IH _ _ _ _ _ _ _ W HL) as (dn & rs & h1 & h2 & h3 & h4).
      exists (n :: dn), rs. split; [cbn; congruence|]. split; [eapply taken_cons; eauto|].
      split; [|exact h4]. intros k [[Hk|Hk]|Hk].
      - apply h3. right. apply C. left. congruence.
      - apply h3. left. exact Hk.
      - apply h3. right. apply C. right. exact Hk. }
    assert (Hdel : (forall k, k <> n -> dget k (ddel n m1) = dget k m) /\ dget n (ddel n m1) = None).
    { split; [intros k Hk; rewrite dget_ddel_other by exact Hk; auto|apply dget_ddel_same; exact Hwf1]. }
    destruct Hdel as [Hd1 Hd2].
    assert (Hnew : forall (c : component) (l : list (string * component)) k,
      k = n \/ dget k l <> None -> dget k (dset n c l) <> None).
    { intros c l k [->|Hk]; [rewrite dget_dset_same; discriminate|apply Hset; exact Hk]. }
    destruct (dget n m1) as [[r|nd]|] eqn:En1.
    + destruct (negb (k_configured r));
        [inversion H; subst; eapply Stop; eauto; intros k Hk; apply Hset; exact Hk|].
      destruct (if smem n _ then _ else _) as [[|]|];
        try (inversion H; subst; eapply Stop; eauto; intros k Hk; apply Hset; exact Hk).
      destruct (replace_sub_component n r cf1) as [cf2|].
      * refine (Go _ _ _ _ Hd1 Hd2 _ H); [apply dwf_ddel; exact Hwf1|].
        intros k Hk. cbn. apply Hnew. destruct Hk as [Hk|Hk]; [left; exact Hk|right; apply Hset; exact Hk].
      * inversion H; subst; eapply Stop; eauto. intros k Hk. cbn. apply Hset, Hset. exact Hk.
    + inversion H; subst; eapply Stop; eauto; intros k Hk; apply Hset; exact Hk.
    + refine (Go _ _ _ Hwf1 Ho En1 _ H). intros k Hk. cbn. apply Hnew. exact Hk.
Qed.

Lemma load_taken fuel fs self p m c' e m' :
  dwf m -> load fuel fs self p m = (c', e, m') ->
  (m' = m /\ k_subs c' = k_subs self /\ e <> None) \/
  exists cfg done rest, fs (splitext_path p) FConf = Some (CConf cfg) /\ c_dep cfg = done ++ rest /\
    TakenOut done (hd_error rest) m m' /\ (forall k, In k done -> dget k (k_subs c') <> None).
Proof.
  intros Hwf H. destruct fuel as [|fuel]; cbn [M_Component.load] in H;
    [inversion H; subst; left; repeat split; discriminate|].
  Ltac none H := inversion H; subst; left; repeat split; discriminate.
  destruct (k_configured self); [none H|].
  destruct (negb _); [none H|].
  destruct (fs (splitext_path p) FConf) as [[cfg|v|]|]; try (none H; fail).
  all: try (destruct (fs (splitext_path p) FData); none H; fail).
  destruct (fs (splitext_path p) FData) as [[cfg'|v|]|]; try (none H; fail).
  destruct (configuration_init rv cfg) as [cf|] eqn:Ei; [|none H].
  assert (Hdep : c_dep (co_dict cf) = c_dep cfg).
  { unfold configuration_init in Ei. destruct (check_dependent_names _ _); [discriminate|].
    destruct (combine_settings _); inversion Ei; auto. }
  destruct (negb (String.eqb (c_version cfg) rv)); [none H|].
  destruct (negb (String.eqb _ _)); [none H|].
  destruct (negb (match v with VNone | VDict _ => true | _ => false end)); [none H|].
  match type of H with context [M_Component.load_loop rv kn ?f ?d ?n ?s] =>
    destruct (M_Component.load_loop rv kn f d n s) as [[[self3 m3] upd] e3] eqn:E end.
  right. destruct (load_loop_taken _ _ _ _ _ _ _ _ _ _ Hwf E) as (dn & rs & h1 & h2 & h3 & _).
  exists cfg, dn, rs. split; [reflexivity|]. split; [congruence|].
  assert (Hk : forall k, In k dn -> dget k (k_subs self3) <> None) by (intros k Hk; apply h3; left; exact Hk).
  assert (H3 : k_subs c' = k_subs self3 /\ m' = m3).
  { destruct e3 as [e3|]; [inversion H; subst; auto|].
    destruct upd as [|u upd]; [destruct m3; inversion H; subst; auto|].
    destruct (update_sub_components rv kind_of rebuild (u :: upd) self3) as [self4 e4] eqn:E4.
    apply update_configured in E4. destruct E4 as [_ [_ E4]].
    destruct e4; [inversion H; subst; auto|]. destruct m3; inversion H; subst; auto. }
  destruct H3 as [-> ->]. split; assumption.
Qed.

End Retry.
