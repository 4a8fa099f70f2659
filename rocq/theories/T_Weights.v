(** Theorems on the weights of models made of models (C171-C176). *)
From Coq Require Import Permutation.
From Verif Require Import Py PyStr PyStrFacts M_Checkpoint S_Checkpoint L_Checkpoint T_Checkpoint M_Weights S_Weights L_Weights.

Lemma nodup_left {A} (a b : list A) : NoDup (a ++ b) -> NoDup a.
Proof. induction a as [|x a IH]; intros H; [constructor|]. inversion H; subst. constructor; [rewrite in_app_iff in *; tauto|auto]. Qed.

Section Theorems.
Variable V : Type.
Variable df : nat -> bool.
Implicit Types (c : comp V) (m : manager V) (d : disk V) (t : trace V) (h : list (snapshot V)).

Lemma holds_path m q ok v st : Holds m q ok v st -> In q (map fst (flatm V m)).
Proof. intros H. apply in_flatm in H. apply in_map_iff. exists (q, (ok, v, st)). auto. Qed.

Lemma path_holds m q : In q (map fst (flatm V m)) -> exists ok v st, Holds m q ok v st.
Proof. intros H. apply in_map_iff in H. destruct H as ([q' [[ok v] st]] & E & H). cbn in E. subst q'. exists ok, v, st. apply in_flatm. exact H. Qed.

(** ** C171: saves of one manager *)

(** The directory of every source has the checkpoints of all saves, and no
    others; C25-C27 hold for each of them. *)
Theorem C171_each root h m d q ok v st : splitext_path root = root -> Keys m -> PlainNames m -> Run df root h m d ->
  Holds m q ok v st -> Checkpoints df root q h d.
Proof. intros HR HK HP HRun HH. apply (run_inv V df root h m d HR HK HP HRun). eapply holds_path. exact HH. Qed.

Lemma loadn_all root number m d (P : path -> V * nat -> Prop) :
  (forall q, In q (map fst (flatm V m)) -> exists w, M_Checkpoint.load_weights (d (root ++ q)) number = Ok w /\ P q w) ->
  exists m', manager_load_weights root number m d = (m', None) /\ Alike m m' /\
    forall q ok v st, Holds m' q ok v st -> P q (v, st).
Proof.
  intros H. destruct (manager_load_weights_flat V number m root d) as (E1 & E2 & E3).
  destruct (manager_load_weights root number m d) as [m' e]. cbn [fst snd] in *. destruct (loadn V root number (flatm V m) d) as [r e'] eqn:EL. cbn [fst snd] in *. subst e' r.
  destruct (loadn_spec V root number _ d _ _ EL) as (done & todo & El & (done' & Er & HF) & He). destruct e as [ex|].
  - exfalso. destruct He as (x & rest & -> & Hx). destruct (H (fst x)) as (w & Hw & _); [|congruence]. rewrite El, map_app. apply in_or_app. right. left. reflexivity.
  - subst todo. rewrite app_nil_r in *. exists m'. split; [reflexivity|]. split; [exact E3|]. intros q ok v st Hq. apply in_flatm in Hq. rewrite Er in Hq.
    apply In_nth_error in Hq. destruct Hq as (i & Hi). destruct (forall2_nth _ _ _ _ _ (forall2_flip _ _ _ HF) Hi) as (x & Hx & (Ef & _ & HL)). cbn [fst snd] in *. subst q.
    destruct (H (fst x)) as (w & Hw & HP); [rewrite El; apply in_map; eapply nth_error_In; exact Hx|]. rewrite HL in Hw. injection Hw as <-. exact HP.
Qed.

Lemma loadn_first root number m d ex : (exists q ok v st, Holds m q ok v st) ->
  (forall q, In q (map fst (flatm V m)) -> M_Checkpoint.load_weights (d (root ++ q)) number = Err ex) ->
  exists m', manager_load_weights root number m d = (m', Some ex) /\ Alike m m' /\ flatm V m' = flatm V m.
Proof.
  intros (q & ok & v & st & HH) H. destruct (manager_load_weights_flat V number m root d) as (E1 & E2 & E3).
  destruct (manager_load_weights root number m d) as [m' e]. cbn [fst snd] in *. apply in_flatm in HH. destruct (flatm V m) as [|x l] eqn:EF; [destruct HH|].
  cbn [loadn] in E1, E2. rewrite (H (fst x)) in E1, E2 by (left; reflexivity). cbn [fst snd] in *. subst e. exists m'. auto.
Qed.

(** A number loads the same save for all models, or none of them: *)
Theorem C171_number root h m d k s : splitext_path root = root -> Keys m -> PlainNames m -> Run df root h m d ->
  (forall s, In s h -> (0 <= a_keep (s_args s))%Z) -> nth_error h k = Some s ->
  (There h k -> exists m', manager_load_weights root (Some (S k)) m d = (m', None) /\ Alike m m' /\ Restored s m') /\
  (~ There h k -> (exists q ok v st, Holds m q ok v st) ->
     exists m', manager_load_weights root (Some (S k)) m d = (m', Some KeyError) /\ Alike m m' /\
       forall q ok v st, Holds m' q ok v st <-> Holds m q ok v st).
Proof.
  intros HR HK HP HRun HN Hs. pose proof (run_inv V df root h m d HR HK HP HRun) as HC. split; intros HT.
  - destruct (loadn_all root (Some (S k)) m d (fun q w => exists ok, Holds (s_manager s) q ok (fst w) (snd w))) as (m' & E & HA & HH).
    + intros q Hq. destruct (load_number V df root q h d k s (HC q Hq) HN Hs) as [A _]. destruct (A HT) as (ok & w & E & HH). exists w. split; [exact E|]. exists ok. exact HH.
    + exists m'. split; [exact E|]. split; [exact HA|]. intros q ok v st Hq. destruct (HH q ok v st Hq) as (ok' & Hok). exists ok'. exact Hok.
  - intros HE. destruct (loadn_first root (Some (S k)) m d KeyError HE) as (m' & E & HA & HF).
    + intros q Hq. destruct (load_number V df root q h d k s (HC q Hq) HN Hs) as [_ B]. exact (B HT).
    + exists m'. split; [exact E|]. split; [exact HA|]. intros q ok v st. rewrite <- !in_flatm, HF. reflexivity.
Qed.

(** Without a number the last save is loaded; also by a new manager. *)
Theorem C171_latest root h s m d : splitext_path root = root -> Keys m -> PlainNames m -> Run df root (h ++ [s]) m d ->
  a_prot (s_args s) = true \/ (0 <= a_keep (s_args s))%Z ->
  (exists m', manager_load_weights root None m d = (m', None) /\ Alike m m' /\ Restored s m') /\
  (exists m', manager_load root None m d = Ok m' /\ Restored s m' /\
     forall q, (exists ok v st, Holds m q ok v st) <-> (exists v st, Holds m' q true v st)).
Proof.
  intros HR HK HP HRun HN. pose proof (run_inv V df root _ m d HR HK HP HRun) as HC.
  assert (HL : forall q, In q (map fst (flatm V m)) -> exists w, M_Checkpoint.load_weights (d (root ++ q)) None = Ok w /\ exists ok, Holds (s_manager s) q ok (fst w) (snd w)).
  { intros q Hq. destruct (load_newest V df root q h s d (HC q Hq) HN) as (ok & w & E & HH). exists w. split; [exact E|]. exists ok. exact HH. }
  destruct (loadn_all root None m d _ HL) as (m' & E & HA & HH). cbn [fst snd] in HH. split.
  - exists m'. auto.
  - destruct (manager_load_weights_flat V None m root d) as (E1 & E2 & _). rewrite E in E1, E2. cbn [fst snd] in E1, E2.
    destruct (manager_load_can V None m root d HP HR) as (m2 & Em2); [congruence|]. exists m2. split; [exact Em2|].
    destruct (manager_load_flat V None m root d m2 HP HR Em2) as (l & El & Ef). rewrite El in E1. cbn [fst] in E1. subst l. split.
    + intros q ok v st Hq. apply in_flatm in Hq. rewrite Ef in Hq. apply in_map_iff in Hq. destruct Hq as ([q' [[ok' v'] st']] & Eq & Hq). cbn in Eq. injection Eq as <- <- <- <-.
      apply in_flatm in Hq. exact (HH _ _ _ _ Hq).
    + intros q. assert (Hp : In q (map fst (flatm V m)) <-> In q (map fst (flatm V m2))).
      { rewrite Ef, map_map. cbn [fst]. rewrite (flatm_alike V m m' HA). reflexivity. }
      split.
      * intros (ok & v & st & Hq). apply holds_path in Hq. apply Hp in Hq. rewrite Ef in Hq. rewrite map_map in Hq. apply in_map_iff in Hq. destruct Hq as ([q' [[ok' v'] st']] & Eq & Hq).
        cbn in Eq. subst q'. exists v', st'. apply in_flatm. rewrite Ef. apply in_map_iff. exists (q, (ok', v', st')). auto.
      * intros (v & st & Hq). apply holds_path in Hq. apply Hp in Hq. apply path_holds. exact Hq.
Qed.

(** The next save of weights succeeds, if no variables were added. *)
Theorem C171_next root h m d a : splitext_path root = root -> Keys m -> PlainNames m -> Run df root h m d -> a_steps a = None ->
  (forall q ok v st, Holds m q ok v st -> ok = true) -> exists t, manager_save_weights df root a m d = (t, None).
Proof.
  intros HR HK HP HRun HS HO. rewrite manager_save_weights_flat. apply seqn_can; [apply nodup_flatm; exact HK|]. intros [q [[ok v] st]] Hx. cbn [fst snd].
  apply in_flatm in Hx. rewrite save1_T. unfold saveT. cbn [fst snd]. rewrite (HO _ _ _ _ Hx).
  destruct (C171_each root h m d q ok v st HR HK HP HRun Hx) as (es & HH & _).
  destruct (C25_next_save (V * nat) df es _ {| e_prot := a_prot a; e_keep := a_keep a; e_desc := a_desc a; e_training := None; e_steps := a_steps a; e_w := (v, st) |} HH eq_refl HS) as (ops & E).
  cbn [e_keep e_prot e_desc e_training e_steps e_w] in E. rewrite E. reflexivity.
Qed.

(** ** C172: interrupted saves *)

(** Wherever a save of weights stops, the models before are complete, those
    after are untouched, and at most one is in between. *)
Theorem C172_stopped root a m d t1 t2 e : Keys m -> manager_save_weights df root a m d = (t1 ++ t2, e) ->
  exists done now todo, InOrder m (done ++ now ++ todo) /\ length now <= 1 /\
    (forall q, In q done -> exists ops, SavesOwn df root a m d q ops None /\ play t1 d (root ++ q) = run ops (d (root ++ q))) /\
    (forall q, In q now -> exists ops ops' ex, SavesOwn df root a m d q (ops ++ ops') ex /\ play t1 d (root ++ q) = run ops (d (root ++ q))) /\
    (forall q, In q todo -> play t1 d (root ++ q) = d (root ++ q)).
Proof.
  intros HK HS. rewrite manager_save_weights_flat in HS.
  destruct (seqn_prefix V _ _ _ _ _ _ t1 t2 (nodup_flatm V m HK) HS eq_refl) as (done & now & todo & El & Hl & HD & HW & HO).
  exists (map fst done), (map fst now), (map fst todo). rewrite <- !map_app, <- El. split; [apply inorder_flatm|]. split; [rewrite map_length; exact Hl|].
  assert (HI : forall x, In x (done ++ now) -> In x (flatm V m)) by (intros x Hx; rewrite El, app_assoc; apply in_or_app; left; exact Hx).
  split; [|split].
  - intros q Hq. apply in_map_iff in Hq. destruct Hq as ([q' [[ok v] st]] & Eq & Hq). cbn in Eq. subst q'. destruct (HD _ Hq) as (ops & E1 & E2). exists ops. split; [|exact E2].
    exists ok, v, st. split; [apply in_flatm; apply HI; apply in_or_app; left; exact Hq|exact E1].
  - intros q Hq. apply in_map_iff in Hq. destruct Hq as ([q' [[ok v] st]] & Eq & Hq). cbn in Eq. subst q'. destruct (HW _ Hq) as (ops & ops' & ex & E1 & E2). exists ops, ops', ex. split; [|exact E2].
    exists ok, v, st. split; [apply in_flatm; apply HI; apply in_or_app; right; exact Hq|exact E1].
  - intros q Hq. apply HO. intros HX. pose proof (nodup_flatm V m HK) as HND. rewrite El, app_assoc, map_app in HND. eapply nodup_app_disj; eassumption.
Qed.

(** A save that raises does so in the directory of one model, with the models
    before it saved and those after it untouched. *)
Theorem C172_raised root a m d t ex : Keys m -> manager_save_weights df root a m d = (t, Some ex) ->
  exists done q todo ops, InOrder m (done ++ q :: todo) /\
    (forall q, In q done -> exists ops, SavesOwn df root a m d q ops None /\ play t d (root ++ q) = run ops (d (root ++ q))) /\
    SavesOwn df root a m d q ops (Some ex) /\ play t d (root ++ q) = run ops (d (root ++ q)) /\
    (forall q, In q todo -> play t d (root ++ q) = d (root ++ q)).
Proof.
  intros HK HS. rewrite manager_save_weights_flat in HS.
  destruct (seqn_raises V _ _ _ _ _ _ (nodup_flatm V m HK) HS) as (done & [q [[ok v] st]] & todo & ops & El & HD & HW & HP & HO).
  exists (map fst done), q, (map fst todo), ops. cbn [fst snd] in *.
  assert (Em : map fst done ++ q :: map fst todo = map fst (flatm V m)) by (rewrite El, map_app; reflexivity).
  rewrite Em. split; [apply inorder_flatm|]. split; [|split; [|split; [exact HP|]]].
  - intros q0 Hq. apply in_map_iff in Hq. destruct Hq as ([q' [[ok0 v0] st0]] & Eq & Hq). cbn in Eq. subst q'. destruct (HD _ Hq) as (ops0 & E1 & E2). exists ops0. split; [|exact E2].
    exists ok0, v0, st0. split; [apply in_flatm; rewrite El; apply in_or_app; left; exact Hq|exact E1].
  - exists ok, v, st. split; [apply in_flatm; rewrite El; apply in_or_app; right; left; reflexivity|exact HW].
  - intros q0 Hq. apply HO. intros HX. pose proof (nodup_flatm V m HK) as HND. rewrite <- Em in HND. replace (map fst done ++ q :: map fst todo) with (map fst (done ++ [(q, (ok, v, st))]) ++ map fst todo) in HND.
    + eapply nodup_app_disj; eassumption.
    + rewrite map_app. cbn [map fst]. rewrite <- app_assoc. reflexivity.
Qed.

(** Every number of models is left saved by some crash. *)
Theorem C172_crash_points root a m d t done todo : Keys m -> manager_save_weights df root a m d = (t, None) -> InOrder m (done ++ todo) ->
  exists t1 t2, t = t1 ++ t2 /\ Halfway df root a m d (play t1 d) done todo.
Proof.
  intros HK HS HI. pose proof (nodup_flatm V m HK) as HND. rewrite manager_save_weights_flat in HS. pose proof (inorder_unique V m _ HI) as Em. symmetry in Em. apply map_eq_app in Em.
  destruct Em as (l1 & l2 & El & E1 & E2). rewrite El in HS. rewrite seqn_app in HS. unfold andthen in HS. rewrite El, map_app in HND.
  destruct (seqn V (save1 V df a) root l1 d) as [t1 e1] eqn:F1. destruct e1 as [e1|]; [discriminate|].
  destruct (seqn V (save1 V df a) root l2 (play t1 d)) as [t2 e2] eqn:F2. injection HS as <- ->. exists t1, t2. split; [reflexivity|].
  destruct (seqn_ok V _ _ _ _ _ (nodup_left _ _ HND) F1) as [HD HO]. split; [exact HI|]. split.
  - intros q Hq. rewrite <- E1 in Hq. apply in_map_iff in Hq. destruct Hq as ([q' [[ok v] st]] & Eq & Hq). cbn in Eq. subst q'. destruct (HD _ Hq) as (ops & G1 & G2). exists ops. split; [|exact G2].
    exists ok, v, st. split; [apply in_flatm; rewrite El; apply in_or_app; left; exact Hq|exact G1].
  - intros q Hq. apply HO. intros HX. rewrite <- E2 in Hq. eapply nodup_app_disj; eassumption.
Qed.

Lemma halfway_checkpoints root h m d a d' done todo : splitext_path root = root -> Keys m -> PlainNames m -> Run df root h m d ->
  Halfway df root a m d d' done todo ->
  (forall q, In q done -> Checkpoints df root q (h ++ [{| s_manager := m; s_args := a; s_training := None |}]) d') /\
  (forall q, In q todo -> Checkpoints df root q h d').
Proof.
  intros HR HK HP HRun (HI & HD & HT). pose proof (run_inv V df root h m d HR HK HP HRun) as HC. pose proof (inorder_unique V m _ HI) as Em. split.
  - intros q Hq. destruct (HD q Hq) as (ops & (ok & v & st & HH & E) & E2). eapply checkpoints_step with (x := (ok, v, st)).
    + apply in_flatm. exact HH.
    + apply HC. eapply holds_path. exact HH.
    + rewrite <- save1_T. unfold save1. cbn [fst snd]. exact E.
    + exact E2.
  - intros q Hq. eapply checkpoints_same; [apply HC; rewrite <- Em; apply in_or_app; right; exact Hq|]. apply HT. exact Hq.
Qed.

(** After a crash between two models, the newest checkpoint mixes two saves
    without any error. *)
Theorem C172_mixed root h s m d a d' done todo : splitext_path root = root -> Keys m -> PlainNames m -> Run df root (h ++ [s]) m d ->
  a_prot (s_args s) = true \/ (0 <= a_keep (s_args s))%Z -> a_prot a = true \/ (0 <= a_keep a)%Z ->
  Halfway df root a m d d' done todo ->
  exists m', manager_load_weights root None m d' = (m', None) /\ Alike m m' /\
    (forall q ok v st, In q done -> Holds m' q ok v st -> exists ok', Holds m q ok' v st) /\
    (forall q ok v st, In q todo -> Holds m' q ok v st -> exists ok', Holds (s_manager s) q ok' v st).
Proof.
  intros HR HK HP HRun HN HNa HW. destruct (halfway_checkpoints _ _ _ _ _ _ _ _ HR HK HP HRun HW) as [HD HT]. destruct HW as (HI & _ & _).
  pose proof (inorder_unique V m _ HI) as Em. pose proof (nodup_flatm V m HK) as HND. rewrite <- Em in HND.
  destruct (loadn_all root None m d' (fun q w => (In q done -> exists ok, Holds m q ok (fst w) (snd w)) /\ (In q todo -> exists ok, Holds (s_manager s) q ok (fst w) (snd w)))) as (m' & E & HA & HH).
  - intros q Hq. rewrite <- Em in Hq. apply in_app_iff in Hq. destruct Hq as [Hq|Hq].
    + destruct (load_newest V df root q _ _ d' (HD q Hq) HNa) as (ok & w & Ew & Hw). exists w. split; [exact Ew|]. split; [intros _; exists ok; exact Hw|].
      intros Hq'. exfalso. eapply nodup_app_disj; eassumption.
    + destruct (load_newest V df root q _ _ d' (HT q Hq) HN) as (ok & w & Ew & Hw). exists w. split; [exact Ew|]. split; [|intros _; exists ok; exact Hw].
      intros Hq'. exfalso. eapply nodup_app_disj; eassumption.
  - exists m'. split; [exact E|]. split; [exact HA|]. split; intros q ok v st Hq Hm; destruct (HH q ok v st Hm) as [A B]; [destruct (A Hq) as (ok' & X)|destruct (B Hq) as (ok' & X)]; exists ok'; exact X.
Qed.

(** All later saves keep the models one number apart, ... *)
Theorem C172_apart root h m d a d' done todo h2 m2 d2 : splitext_path root = root -> Keys m -> PlainNames m -> Run df root h m d ->
  Halfway df root a m d d' done todo -> RunFrom df root m d' h2 m2 d2 ->
  (forall q, In q done -> Checkpoints df root q (h ++ {| s_manager := m; s_args := a; s_training := None |} :: h2) d2) /\
  (forall q, In q todo -> Checkpoints df root q (h ++ h2) d2).
Proof.
  intros HR HK HP HRun HW HF. destruct (halfway_checkpoints _ _ _ _ _ _ _ _ HR HK HP HRun HW) as [HD HT]. destruct HW as (HI & _ & _).
  pose proof (inorder_unique V m _ HI) as Em. pose proof (nodup_flatm V m HK) as HND. rewrite <- Em in HND.
  pose (H := fun q => if existsb (fun q' => path_eqb q q') done then h ++ [{| s_manager := m; s_args := a; s_training := None |}] else h).
  assert (HDone : forall q, In q done -> H q = h ++ [{| s_manager := m; s_args := a; s_training := None |}]).
  { intros q Hq. unfold H. assert (E : existsb (fun q' => path_eqb q q') done = true) by (apply existsb_exists; exists q; split; [exact Hq|apply path_eqb_eq; reflexivity]). rewrite E. reflexivity. }
  assert (HTodo : forall q, In q todo -> H q = h).
  { intros q Hq. unfold H. destruct (existsb (fun q' => path_eqb q q') done) eqn:E; [|reflexivity]. exfalso. apply existsb_exists in E. destruct E as (q' & Hq' & E). apply path_eqb_eq in E. subst q'.
    eapply nodup_app_disj; eassumption. }
  destruct (runfrom_inv V df root m d' h2 m2 d2 H HR HK HP) as (_ & _ & _ & HC); [|exact HF|].
  - intros q Hq. rewrite <- Em in Hq. apply in_app_iff in Hq. destruct Hq as [Hq|Hq]; [rewrite (HDone q Hq); apply HD; exact Hq|rewrite (HTodo q Hq); apply HT; exact Hq].
  - split; intros q Hq.
    + assert (HX : In q (map fst (flatm V m))) by (rewrite <- Em; apply in_or_app; left; exact Hq). specialize (HC q HX). rewrite (HDone q Hq), <- app_assoc in HC. exact HC.
    + assert (HX : In q (map fst (flatm V m))) by (rewrite <- Em; apply in_or_app; right; exact Hq). specialize (HC q HX). rewrite (HTodo q Hq) in HC. exact HC.
Qed.

Lemma runfrom_same root m d' h2 m2 d2 : RunFrom df root m d' h2 m2 d2 -> map fst (flatm V m2) = map fst (flatm V m).
Proof.
  intros HF. induction HF as [|h m1 m' d HRun IH HA|h m1 d a t HRun IH HS|h m1 d a tr t HRun IH HS]; [reflexivity| |exact IH|exact IH].
  rewrite <- (flatm_alike V _ _ HA). exact IH.
Qed.

(** ... so that a number loads different saves (here protected ones), ... *)
Theorem C172_numbers root h m d a d' done todo h2 m2 d2 j s s' : splitext_path root = root -> Keys m -> PlainNames m -> Run df root h m d ->
  Halfway df root a m d d' done todo -> RunFrom df root m d' h2 m2 d2 ->
  (forall s, In s (h ++ h2) -> (0 <= a_keep (s_args s))%Z) -> (0 <= a_keep a)%Z ->
  nth_error h2 j = Some s -> nth_error h2 (S j) = Some s' -> a_prot (s_args s) = true -> a_prot (s_args s') = true ->
  exists m', manager_load_weights root (Some (length h + j + 2)) m2 d2 = (m', None) /\ Alike m2 m' /\
    (forall q ok v st, In q done -> Holds m' q ok v st -> exists ok', Holds (s_manager s) q ok' v st) /\
    (forall q ok v st, In q todo -> Holds m' q ok v st -> exists ok', Holds (s_manager s') q ok' v st).
Proof.
  intros HR HK HP HRun HW HF HN HNa Hs Hs' Hp Hp'. destruct (C172_apart _ _ _ _ _ _ _ _ _ _ _ HR HK HP HRun HW HF) as [HD HT]. destruct HW as (HI & _ & _).
  pose proof (inorder_unique V m _ HI) as Em. pose proof (nodup_flatm V m HK) as HND. rewrite <- Em in HND.
  pose proof (runfrom_same _ _ _ _ _ _ HF) as E2.
  replace (length h + j + 2) with (S (length h + S j)) by lia.
  destruct (loadn_all root (Some (S (length h + S j))) m2 d2 (fun q w => (In q done -> exists ok, Holds (s_manager s) q ok (fst w) (snd w)) /\ (In q todo -> exists ok, Holds (s_manager s') q ok (fst w) (snd w)))) as (m' & E & HA & HH).
  - intros q Hq. rewrite E2, <- Em in Hq. apply in_app_iff in Hq. destruct Hq as [Hq|Hq].
    + assert (Hn : nth_error (h ++ {| s_manager := m; s_args := a; s_training := None |} :: h2) (length h + S j) = Some s).
      { rewrite nth_error_app2 by lia. replace (length h + S j - length h) with (S j) by lia. exact Hs. }
      destruct (load_number V df root q _ d2 (length h + S j) s (HD q Hq)) with (2 := Hn) as [A _].
      { intros s0 H0. apply in_app_iff in H0. destruct H0 as [H0|[<-|H0]]; [apply HN; apply in_or_app; left; exact H0|exact HNa|apply HN; apply in_or_app; right; exact H0]. }
      destruct A as (ok & w & Ew & Hw); [exists s; split; [exact Hn|left; exact Hp]|]. exists w. split; [exact Ew|]. split; [intros _; exists ok; exact Hw|].
      intros Hq'. exfalso. eapply nodup_app_disj; eassumption.
    + assert (Hn : nth_error (h ++ h2) (length h + S j) = Some s').
      { rewrite nth_error_app2 by lia. replace (length h + S j - length h) with (S j) by lia. exact Hs'. }
      destruct (load_number V df root q _ d2 _ _ (HT q Hq) HN Hn) as [A _]. destruct A as (ok & w & Ew & Hw); [exists s'; split; [exact Hn|left; exact Hp']|].
      exists w. split; [exact Ew|]. split; [|intros _; exists ok; exact Hw]. intros Hq'. exfalso. eapply nodup_app_disj; eassumption.
  - exists m'. split; [exact E|]. split; [exact HA|]. split; intros q ok v st Hq Hm; destruct (HH q ok v st Hm) as [A B]; [destruct (A Hq) as (ok' & X)|destruct (B Hq) as (ok' & X)]; exists ok'; exact X.
Qed.

(** ... while the newest checkpoints agree again after the next save. *)
Theorem C172_newest root h m d a d' done todo h2 s m2 d2 : splitext_path root = root -> Keys m -> PlainNames m -> Run df root h m d ->
  Halfway df root a m d d' done todo -> RunFrom df root m d' (h2 ++ [s]) m2 d2 -> a_prot (s_args s) = true \/ (0 <= a_keep (s_args s))%Z ->
  exists m', manager_load_weights root None m2 d2 = (m', None) /\ Alike m2 m' /\ Restored s m'.
Proof.
  intros HR HK HP HRun HW HF HN. destruct (C172_apart _ _ _ _ _ _ _ _ _ _ _ HR HK HP HRun HW HF) as [HD HT]. destruct HW as (HI & _ & _).
  pose proof (inorder_unique V m _ HI) as Em.
  pose proof (runfrom_same _ _ _ _ _ _ HF) as E2.
  destruct (loadn_all root None m2 d2 (fun q w => exists ok, Holds (s_manager s) q ok (fst w) (snd w))) as (m' & E & HA & HH).
  - intros q Hq. rewrite E2, <- Em in Hq. apply in_app_iff in Hq. destruct Hq as [Hq|Hq].
    + specialize (HD q Hq). rewrite app_comm_cons, app_assoc in HD. destruct (load_newest V df root q _ _ d2 HD HN) as (ok & w & Ew & Hw). exists w. split; [exact Ew|]. exists ok. exact Hw.
    + specialize (HT q Hq). rewrite app_assoc in HT. destruct (load_newest V df root q _ _ d2 HT HN) as (ok & w & Ew & Hw). exists w. split; [exact Ew|]. exists ok. exact Hw.
  - exists m'. auto.
Qed.

(** ** C173: loading is not all or nothing *)

Theorem C173_parts root number m d m' e : manager_load_weights root number m d = (m', e) ->
  exists done todo, InOrder m (done ++ todo) /\ Alike m m' /\
    (Keys m -> forall q ok v st, In q done -> Holds m' q ok v st -> M_Checkpoint.load_weights (d (root ++ q)) number = Ok (v, st)) /\
    (Keys m -> forall q ok v st, In q todo -> (Holds m' q ok v st <-> Holds m q ok v st)) /\
    match e with None => todo = [] | Some ex => exists q rest, todo = q :: rest /\ M_Checkpoint.load_weights (d (root ++ q)) number = Err ex end.
Proof.
  intros HL. destruct (manager_load_weights_flat V number m root d) as (E1 & E2 & E3). rewrite HL in E1, E2, E3. cbn [fst snd] in *.
  destruct (loadn V root number (flatm V m) d) as [r e'] eqn:EL. cbn [fst snd] in *. subst e' r.
  destruct (loadn_spec V root number _ d _ _ EL) as (done & todo & El & (done' & Er & HF) & He).
  exists (map fst done), (map fst todo). rewrite <- map_app, <- El. split; [apply inorder_flatm|]. split; [exact E3|].
  assert (HFP : map fst done' = map fst done) by (clear - HF; induction HF as [|x y l l' [E _] _ IH]; [reflexivity|]; cbn [map]; exact (f_equal2 cons E IH)).
  split; [|split].
  - intros HK q ok v st Hq Hh. pose proof (nodup_flatm V m HK) as HND. rewrite El, map_app in HND. apply in_flatm in Hh. rewrite Er in Hh. apply in_app_iff in Hh. destruct Hh as [Hh|Hh].
    + apply In_nth_error in Hh. destruct Hh as (i & Hi). destruct (forall2_nth _ _ _ _ _ (forall2_flip _ _ _ HF) Hi) as (x & Hx & (Ef & _ & HX)). cbn [fst snd] in *. subst q. exact HX.
    + exfalso. eapply (nodup_app_disj _ _ q HND); [exact Hq|]. apply in_map_iff. exists (q, (ok, v, st)). auto.
  - intros HK q ok v st Hq. pose proof (nodup_flatm V m HK) as HND. rewrite El, map_app in HND. rewrite <- !in_flatm, Er, El, !in_app_iff. split; (intros [Hh|Hh]; [|right; exact Hh]); exfalso.
    + eapply (nodup_app_disj _ _ q HND); [|exact Hq]. rewrite <- HFP. apply in_map_iff. exists (q, (ok, v, st)). auto.
    + eapply (nodup_app_disj _ _ q HND); [|exact Hq]. apply in_map_iff. exists (q, (ok, v, st)). auto.
  - destruct e as [ex|]; [|subst todo; reflexivity]. destruct He as (x & rest & -> & Hx). exists (fst x), (map fst rest). split; [reflexivity|exact Hx].
Qed.

(** Loading weights changes neither the counters of models made of others nor
    what the configurations have recorded. *)
Definition same (c c' : comp V) : Prop :=
  (forall q st, Inner c' q st <-> Inner c q st) /\ forall q ok, (exists v st, Leaf c' q ok v st) <-> (exists v st, Leaf c q ok v st).

Lemma same_refl c : same c c.
Proof. split; intros; reflexivity. Qed.

Lemma same_in (l l' : list (string * comp V)) : Forall2 (fun x y => fst x = fst y /\ same (snd x) (snd y)) l l' -> forall n q,
  (forall st, (exists c, In (n, c) l' /\ Inner c q st) <-> (exists c, In (n, c) l /\ Inner c q st)) /\
  forall ok, (exists c v st, In (n, c) l' /\ Leaf c q ok v st) <-> (exists c v st, In (n, c) l /\ Leaf c q ok v st).
Proof.
  intros F n q. induction F as [| (a, c) (b, c') l l' (E & S1 & S2) F IH]; [split; intros; split; [intros (c & [] & _) | intros (c & [] & _) | intros (c & v & st & [] & _) | intros (c & v & st & [] & _)] |].
  cbn [fst snd] in E, S1, S2. subst b. destruct IH as (I1 & I2). split.
  - intros st. split; intros (x & [H | H] & HI).
    + injection H as -> <-. exists c. split; [left; reflexivity | apply S1, HI].
    + destruct (proj1 (I1 st) (ex_intro _ x (conj H HI))) as (y & Hy & Iy). exists y. split; [right; exact Hy | exact Iy].
    + injection H as -> <-. exists c'. split; [left; reflexivity | apply S1, HI].
    + destruct (proj2 (I1 st) (ex_intro _ x (conj H HI))) as (y & Hy & Iy). exists y. split; [right; exact Hy | exact Iy].
  - intros ok. split; intros (x & v & st & [H | H] & HI).
    + injection H as -> <-. destruct (proj1 (S2 q ok) (ex_intro _ v (ex_intro _ st HI))) as (v0 & st0 & L). exists c, v0, st0. split; [left; reflexivity | exact L].
    + destruct (proj1 (I2 ok)) as (y & v0 & st0 & Hy & Iy); [exists x, v, st; split; assumption |]. exists y, v0, st0. split; [right; exact Hy | exact Iy].
    + injection H as -> <-. destruct (proj2 (S2 q ok) (ex_intro _ v (ex_intro _ st HI))) as (v0 & st0 & L). exists c', v0, st0. split; [left; reflexivity | exact L].
    + destruct (proj2 (I2 ok)) as (y & v0 & st0 & Hy & Iy); [exists x, v, st; split; assumption |]. exists y, v0, st0. split; [right; exact Hy | exact Iy].
Qed.

Lemma same_list_refl l : Forall2 (fun x y : string * comp V => fst x = fst y /\ same (snd x) (snd y)) l l.
Proof. induction l; constructor; [split; [reflexivity | apply same_refl] | assumption]. Qed.

Lemma load_weights_same number c p d c' e : load_weights p number c d = (c', e) -> same c c'.
Proof.
  revert p c' e. induction c as [ok v s | | st subs IH] using comp_ind2; intros p c' e H; cbn [load_weights] in H.
  - destruct (M_Checkpoint.load_weights (d p) number) as [(v', s') | x]; injection H as <- <-; split; intros q b; split; try (intros HI; inversion HI; fail);
      intros (v0 & st0 & L); inversion L; subst; eexists; eexists; constructor.
  - injection H as <- <-. apply same_refl.
  - match type of H with (let '(_, _) := ?F subs in _) = _ => set (each := F) in H end.
    destruct (each subs) as [subs' e'] eqn:E. injection H as <- <-.
    assert (F : Forall2 (fun x y => fst x = fst y /\ same (snd x) (snd y)) subs subs').
    { revert subs' e' E. induction subs as [| (n1, c1) subs IHs]; intros subs' e' E; cbn in E; [injection E as <- <-; constructor |].
      destruct (load_weights (p ++ [n1]) number c1 d) as (c2, [x |]) eqn:E1.
      - injection E as <- <-. constructor; [split; [reflexivity | exact (IH n1 c1 (or_introl eq_refl) _ _ _ E1)] | apply same_list_refl].
      - fold each in E. destruct (each subs) as (r, e2) eqn:E2. injection E as <- <-.
        constructor; [split; [reflexivity | exact (IH n1 c1 (or_introl eq_refl) _ _ _ E1)] |].
        exact (IHs (fun n c H => IH n c (or_intror H)) r e2 eq_refl). }
    split.
    + intros q s. split; intros HI; inversion HI as [| st1 subs1 n c q' s1 Hn Hq]; subst; try constructor;
        destruct (same_in _ _ F n q') as (A & _); [destruct (proj1 (A s) (ex_intro _ c (conj Hn Hq))) as (y & Hy & Iy) | destruct (proj2 (A s) (ex_intro _ c (conj Hn Hq))) as (y & Hy & Iy)];
        econstructor; eassumption.
    + intros q ok. split; intros (v & s & HI); inversion HI as [| st1 subs1 n c q' ok1 v1 s1 Hn Hq]; subst;
        destruct (same_in _ _ F n q') as (_ & A); [destruct (proj1 (A ok)) as (y & v0 & s0 & Hy & Iy) | destruct (proj2 (A ok)) as (y & v0 & s0 & Hy & Iy)];
        try (exists c, v, s; split; assumption); exists v0, s0; econstructor; eassumption.
Qed.

Theorem C173_counters root number m d m' e : manager_load_weights root number m d = (m', e) ->
  (forall q st, HoldsMulti m' q st <-> HoldsMulti m q st) /\
  forall q ok, (exists v st, Holds m' q ok v st) <-> (exists v st, Holds m q ok v st).
Proof.
  intros H. assert (F : Forall2 (fun x y => fst x = fst y /\ same (snd x) (snd y)) m m').
  { revert m' e H. induction m as [| (n1, c1) m IH]; intros m' e H; cbn [manager_load_weights] in H; [injection H as <- <-; constructor |].
    destruct (load_weights (root ++ [n1]) number c1 d) as (c2, [x |]) eqn:E1.
    - injection H as <- <-. constructor; [split; [reflexivity | exact (load_weights_same _ _ _ _ _ _ E1)] | apply same_list_refl].
    - destruct (manager_load_weights root number m d) as (r, e2) eqn:E2. injection H as <- <-.
      constructor; [split; [reflexivity | exact (load_weights_same _ _ _ _ _ _ E1)] | exact (IH r e2 eq_refl)]. }
  split.
  - intros q st. split; intros (n & c & q' & -> & Hn & HI); destruct (same_in _ _ F n q') as (A & _);
      [destruct (proj1 (A st) (ex_intro _ c (conj Hn HI))) as (y & Hy & Iy) | destruct (proj2 (A st) (ex_intro _ c (conj Hn HI))) as (y & Hy & Iy)];
      exists n, y, q'; auto.
  - intros q ok. split; intros (v & s & n & c & q' & -> & Hn & HI); destruct (same_in _ _ F n q') as (_ & A);
      [destruct (proj1 (A ok)) as (y & v0 & s0 & Hy & Iy) | destruct (proj2 (A ok)) as (y & v0 & s0 & Hy & Iy)];
      try (exists c, v, s; split; assumption); exists v0, s0, n, y, q'; auto.
Qed.

(** After a crash between two models, loading the interrupted checkpoint raises
    and leaves the models before the crash changed. *)
Theorem C173_half_loaded root h m d a d' done q todo m2 : splitext_path root = root -> Keys m -> PlainNames m -> Run df root h m d -> h <> [] ->
  (forall s, In s h -> (0 <= a_keep (s_args s))%Z) -> a_prot a = true -> (0 <= a_keep a)%Z ->
  Halfway df root a m d d' done (q :: todo) -> Alike m m2 ->
  exists m', manager_load_weights root (Some (S (length h))) m2 d' = (m', Some KeyError) /\
    (forall q ok v st, In q done -> Holds m' q ok v st -> exists ok', Holds m q ok' v st) /\
    (forall q' ok v st, In q' (q :: todo) -> (Holds m' q' ok v st <-> Holds m2 q' ok v st)).
Proof.
  intros HR HK HP HRun Hne HN Ha HNa HW HA. destruct (halfway_checkpoints _ _ _ _ _ _ _ _ HR HK HP HRun HW) as [HD HT]. destruct HW as (HI & _ & _).
  pose proof (inorder_unique V m _ HI) as Em. pose proof (nodup_flatm V m HK) as HND. rewrite <- Em in HND.
  destruct (manager_load_weights root (Some (S (length h))) m2 d') as [m' e] eqn:EL.
  assert (HDL : forall p, In p done -> exists ok w, M_Checkpoint.load_weights (d' (root ++ p)) (Some (S (length h))) = Ok w /\ Holds m p ok (fst w) (snd w)).
  { intros p Hp. set (s := {| s_manager := m; s_args := a; s_training := None |}).
    assert (Hn : nth_error (h ++ [s]) (length h) = Some s) by (rewrite nth_error_app2, Nat.sub_diag by lia; reflexivity).
    destruct (load_number V df root p (h ++ [s]) d' (length h) s (HD p Hp)) with (2 := Hn) as [A _].
    { intros s0 H0. apply in_app_iff in H0. destruct H0 as [H0|[<-|[]]]; [apply HN; exact H0|exact HNa]. }
    apply A. exists s. split; [exact Hn|]. left. exact Ha. }
  destruct (C173_parts root _ m2 d' m' e EL) as (l1 & l2 & HO & HA2 & H1 & H2 & H3). pose proof (inorder_unique V m2 _ HO) as Em2. pose proof (alike_keys V _ _ HA HK) as HK2.
  rewrite <- (flatm_alike V m m2 HA), <- Em in Em2.
  assert (HB : M_Checkpoint.load_weights (d' (root ++ q)) (Some (S (length h))) = Err KeyError).
  { eapply load_beyond; [apply HT; left; reflexivity|lia|exact Hne]. }
  assert (HS : exists l2', l1 = done /\ l2 = q :: l2' /\ e = Some KeyError).
  { apply app_eq_app in Em2. destruct Em2 as (k & [[X1 X2]|[X1 X2]]).
    - destruct k as [|x k].
      + cbn in X2. rewrite app_nil_r in X1. subst l1 l2. destruct e as [ex|]; [|discriminate]. destruct H3 as (q' & rest & Eq & Hx). injection Eq as <- <-. rewrite HB in Hx. injection Hx as <-. exists todo. auto.
      + cbn in X2. injection X2 as <- X2. exfalso. assert (HX : In q l1) by (rewrite X1; apply in_or_app; right; left; reflexivity).
        assert (HX2 : In q (map fst (flatm V m'))).
        { rewrite <- (flatm_alike V _ _ HA2). rewrite <- (inorder_unique V m2 _ HO). apply in_or_app. left. exact HX. }
        apply path_holds in HX2. destruct HX2 as (ok & v & st & HX2). specialize (H1 HK2 q ok v st HX HX2). congruence.
    - subst done l2. destruct k as [|x k].
      + cbn in *. rewrite app_nil_r in *. destruct e as [ex|]; [|discriminate]. destruct H3 as (q' & rest & Eq & Hx). injection Eq as <- <-. rewrite HB in Hx. injection Hx as <-. exists todo. auto.
      + exfalso. destruct e as [ex|]; [|discriminate]. destruct H3 as (q' & rest & Eq & Hx). injection Eq as <- <-. destruct (HDL x) as (ok & w & Ew & _); [apply in_or_app; right; left; reflexivity|]. congruence. }
  destruct HS as (l2' & -> & -> & ->). exists m'. split; [reflexivity|]. split.
  - intros p ok v st Hp Hh. specialize (H1 HK2 p ok v st Hp Hh). destruct (HDL p Hp) as (ok' & w & Ew & Hw). rewrite H1 in Ew. injection Ew as <-. exists ok'. exact Hw.
  - intros q' ok v st Hq'. apply (H2 HK2). pose proof (inorder_unique V m2 _ HO) as Em3. rewrite <- (flatm_alike V m m2 HA), <- Em in Em3. apply app_inv_head in Em3. injection Em3 as ->. exact Hq'.
Qed.


(** ** C174: step counters *)

Definition train (us : list (path -> V -> V)) (m : manager V) : manager V := fold_left (fun m u => iterate u m) us m.

Lemma assign_leaf u p c q ok v st : Leaf (assign u p c) q ok v st <-> exists v0, Leaf c q ok v0 st /\ v = u (p ++ q) v0.
Proof.
  revert p q. induction c as [ok' v' s'| |st' subs IH] using comp_ind2; intros p q; cbn [assign].
  - split; [intros H; inversion H; subst; exists v'; rewrite app_nil_r; split; [constructor|reflexivity]|]. intros (v0 & H & ->). inversion H; subst. rewrite app_nil_r. constructor.
  - split; [intros H; inversion H|intros (v0 & H & _); inversion H].
  - split.
    + intros H. inversion H as [|st1 subs1 n c q' ok1 v1 s1 Hn HL]; subst. apply in_map_iff in Hn. destruct Hn as ([n' c'] & E & Hn). cbn [fst snd] in E. injection E as <- <-.
      apply (IH n' c' Hn) in HL. destruct HL as (v0 & HL & ->). exists v0. split; [econstructor; eassumption|]. rewrite <- app_assoc. reflexivity.
    + intros (v0 & H & ->). inversion H as [|st1 subs1 n c q' ok1 v1 s1 Hn HL]; subst. apply (leaf_multi _ _ _ n (assign u (p ++ [n]) c)).
      * apply in_map_iff. exists (n, c). auto.
      * apply (IH n c Hn). exists v0. split; [exact HL|]. rewrite <- app_assoc. reflexivity.
Qed.

Lemma assign_inner u p c q st : Inner (assign u p c) q st <-> Inner c q st.
Proof.
  revert p q. induction c as [ok' v' s'| |st' subs IH] using comp_ind2; intros p q; cbn [assign]; [split; intros H; inversion H|tauto|]. split.
  - intros H. inversion H as [|st1 subs1 n c q' s1 Hn HL]; subst; [constructor|]. apply in_map_iff in Hn. destruct Hn as ([n' c'] & E & Hn). cbn [fst snd] in E. injection E as <- <-.
    apply (IH n' c' Hn) in HL. econstructor; eassumption.
  - intros H. inversion H as [|st1 subs1 n c q' s1 Hn HL]; subst; [constructor|]. apply (inner_multi _ _ _ n (assign u (p ++ [n]) c)); [apply in_map_iff; exists (n, c); auto|].
    apply (IH n c Hn). exact HL.
Qed.

Lemma holds_iterate u m q ok v st : Holds (iterate u m) q ok v st <->
  exists v0 st0, Holds m q ok v0 st0 /\ v = u q v0 /\ st = match q with [_] => S st0 | _ => st0 end.
Proof.
  unfold Holds, iterate. split.
  - intros (n & c & q' & -> & Hn & HL). apply in_map_iff in Hn. destruct Hn as ([n' c'] & E & Hn). cbn [fst snd] in E. injection E as <- <-.
    apply assign_leaf in HL. destruct HL as (v0 & HL & ->). destruct c' as [ok' v' s'|s' subs|]; cbn [count] in HL; inversion HL; subst.
    + exists v0, s'. split; [|auto]. exists n', (Source ok v0 s'), []. split; [reflexivity|]. split; [exact Hn|constructor].
    + exists v0, st. split; [|auto]. exists n', (Multi s' subs). eexists. split; [reflexivity|]. split; [exact Hn|]. econstructor; eassumption.
  - intros (v0 & st0 & (n & c & q' & -> & Hn & HL) & -> & ->). exists n, (assign u [n] (count c)), q'. split; [reflexivity|]. split; [apply in_map_iff; exists (n, c); auto|].
    apply assign_leaf. exists v0. split; [|reflexivity]. inversion HL; subst; cbn [count]; [constructor|econstructor; eassumption].
Qed.

Lemma multi_iterate u m q st : HoldsMulti (iterate u m) q st <-> exists st0, HoldsMulti m q st0 /\ st = match q with [_] => S st0 | _ => st0 end.
Proof.
  unfold HoldsMulti, iterate. split.
  - intros (n & c & q' & -> & Hn & HL). apply in_map_iff in Hn. destruct Hn as ([n' c'] & E & Hn). cbn [fst snd] in E. injection E as <- <-.
    apply assign_inner in HL. destruct c' as [ok' v' s'|s' subs|]; cbn [count] in HL; inversion HL; subst.
    + exists s'. split; [|auto]. exists n', (Multi s' subs), []. split; [reflexivity|]. split; [exact Hn|constructor].
    + exists st. split; [|auto]. exists n', (Multi s' subs). eexists. split; [reflexivity|]. split; [exact Hn|]. econstructor; eassumption.
  - intros (st0 & (n & c & q' & -> & Hn & HL) & ->). exists n, (assign u [n] (count c)), q'. split; [reflexivity|]. split; [apply in_map_iff; exists (n, c); auto|].
    apply assign_inner. inversion HL; subst; cbn [count]; [constructor|econstructor; eassumption].
Qed.

(** Training for some iterations counts in the models of the manager, ... *)
Theorem C174_counted us m q ok v st : Holds (train us m) q ok v st <->
  exists v0 st0, Holds m q ok v0 st0 /\ v = fold_left (fun v u => u q v) us v0 /\ st = match q with [_] => length us + st0 | _ => st0 end.
Proof.
  unfold train. revert m. induction us as [|u us IH]; intros m; cbn [fold_left length].
  - split; [intros H; exists v, st; split; [exact H|]; destruct q as [|? [|? ?]]; auto|]. intros (v0 & st0 & H & -> & ->). destruct q as [|? [|? ?]]; exact H.
  - rewrite IH. split.
    + intros (v0 & st0 & H & -> & ->). apply holds_iterate in H. destruct H as (v1 & st1 & H & -> & ->). exists v1, st1. split; [exact H|]. split; [reflexivity|]. destruct q as [|? [|? ?]]; lia.
    + intros (v1 & st1 & H & -> & ->). exists (u q v1), (match q with [_] => S st1 | _ => st1 end). split; [apply holds_iterate; exists v1, st1; auto|]. split; [reflexivity|]. destruct q as [|? [|? ?]]; lia.
Qed.

(** ... also if they are made of others, ... *)
Theorem C174_counted_multi us m q st : HoldsMulti (train us m) q st <->
  exists st0, HoldsMulti m q st0 /\ st = match q with [_] => length us + st0 | _ => st0 end.
Proof.
  unfold train. revert m. induction us as [|u us IH]; intros m; cbn [fold_left length].
  - split; [intros H; exists st; split; [exact H|]; destruct q as [|? [|? ?]]; auto|]. intros (st0 & H & ->). destruct q as [|? [|? ?]]; exact H.
  - rewrite IH. split.
    + intros (st0 & H & ->). apply multi_iterate in H. destruct H as (st1 & H & ->). exists st1. split; [exact H|]. destruct q as [|? [|? ?]]; lia.
    + intros (st1 & H & ->). exists (match q with [_] => S st1 | _ => st1 end). split; [apply multi_iterate; exists st1; auto|]. destruct q as [|? [|? ?]]; lia.
Qed.

Lemma load_inner number c p d c' q st : load p number c d = Ok c' -> Inner c' q st -> st = 1.
Proof.
  revert p c' q. induction c as [ok' v' s'| |st' subs IH] using comp_ind2; intros p c' q HL HI; cbn [load] in HL.
  - destruct (M_Checkpoint.load_weights (d (splitext_path p)) number) as [[v s]|]; [|discriminate]. injection HL as <-. inversion HI.
  - injection HL as <-. inversion HI.
  - unfold bind in HL at 1.
    match type of HL with match ?F subs with _ => _ end = _ => set (each := F) in HL end.
    destruct (each subs) as [subs'|] eqn:E; [|discriminate]. injection HL as <-. inversion HI as [|st1 subs1 n c q' s1 Hn Hq]; subst; [reflexivity|].
    clear HI. revert subs' E Hn. induction subs as [|[n1 c1] subs IHs]; intros subs' E Hn; cbn in E; [injection E as <-; destruct Hn|].
    destruct (load (splitext_path p ++ [n1]) number c1 d) as [c2|] eqn:E1; [|discriminate]. cbn in E. fold each in E. destruct (each subs) as [r|]; [|discriminate]. injection E as <-.
    destruct Hn as [Hn|Hn].
    + injection Hn as -> ->. exact (IH n c1 (or_introl eq_refl) _ _ _ E1 Hq).
    + apply (IHs (fun n c H => IH n c (or_intror H)) r eq_refl Hn).
Qed.

(** ... but after loading a model made of others starts again with one. *)
Theorem C174_lost root number m d m' q st : manager_load root number m d = Ok m' -> HoldsMulti m' q st -> st = 1.
Proof.
  unfold manager_load. intros HL (n & c & q' & -> & Hn & HI). revert m' HL Hn. induction m as [|[n1 c1] m IH]; intros m' HL Hn; cbn [load_each] in HL; [injection HL as <-; destruct Hn|].
  unfold bind in HL. destruct (load (splitext_path root ++ [n1]) number c1 d) as [c2|] eqn:E1; [|discriminate]. destruct (load_each (splitext_path root) number m d) as [r|]; [|discriminate].
  injection HL as <-. destruct Hn as [Hn|Hn]; [|exact (IH r eq_refl Hn)]. injection Hn as -> ->. eapply load_inner; eassumption.
Qed.

Lemma like_trans (c c' c'' : comp V) : Like c c' -> Like c' c'' -> Like c c''.
Proof.
  revert c' c''. induction c as [ok' v' s'| |st' subs IHx] using comp_ind2; intros y z H1 H2; inversion H1 as [| |a1 a2 l1 l2 F1]; subst; inversion H2 as [| |b1 b2 k1 k2 F2]; subst; constructor.
  clear H1 H2. revert k2 F2. induction F1 as [|x1 x2 l l' [E1 L1] F1 IHF]; intros k2 F2; inversion F2 as [|y1 y2 j j' [E2 L2] F3]; subst; constructor.
  - split; [congruence|]. destruct x1 as [n1 c1]. eapply (IHx n1 c1); [left; reflexivity|exact L1|exact L2].
  - apply IHF; [|exact F3]. intros n0 c0 H0. apply (IHx n0 c0). right. exact H0.
Qed.

Lemma alike_trans (m m' m'' : manager V) : Alike m m' -> Alike m' m'' -> Alike m m''.
Proof.
  intros H. revert m''. induction H as [|a b l l' [E1 L1] F IH]; intros m'' H2; inversion H2 as [|y1 y2 j j' [E2 L2] F3]; subst; constructor; [split; [congruence|eapply like_trans; eassumption]|].
  apply IH. exact F3.
Qed.

Lemma like_sym (c c' : comp V) : Like c c' -> Like c' c.
Proof.
  revert c'. induction c as [ok' v' s'| |st subs IH] using comp_ind2; intros c' H; inversion H as [ok1 v1 s1 ok2 v2 s2| |st1 st2 l1 l2 H1]; subst; constructor.
  clear H. revert IH. induction H1 as [|a b l l' [E HL] HF IHF]; intros IH; constructor.
  - split; [symmetry; exact E|]. apply (IH (fst a)); [left; destruct a; reflexivity|exact HL].
  - apply IHF. intros n' c' Hc. apply (IH n' c'). right. exact Hc.
Qed.

Lemma alike_sym m m' : Alike m m' -> Alike m' m.
Proof. unfold Alike. induction 1 as [|a b l l' [E HL] HF IHF]; constructor; [split; [symmetry; exact E|apply like_sym; exact HL]|exact IHF]. Qed.

Lemma like_assign u p c : Like c (assign u p c).
Proof.
  revert p. induction c as [ok' v' s'| |st' subs IH] using comp_ind2; intros p; cbn [assign]; constructor. induction subs as [|[n c] subs IHs]; constructor.
  - split; [reflexivity|]. apply (IH n c). left. reflexivity.
  - apply IHs. intros n' c' Hc. apply (IH n' c'). right. exact Hc.
Qed.

Lemma alike_train us m : Alike m (train us m).
Proof.
  unfold train. revert m. induction us as [|u us IH]; intros m; cbn [fold_left]; [apply alike_refl|]. eapply alike_trans; [|apply IH].
  clear. unfold iterate. induction m as [|[n c] m IH]; constructor; [|exact IH]. split; [reflexivity|]. cbn [fst snd]. eapply like_trans; [|apply like_assign].
  destruct c as [ok v s|s subs|]; cbn [count]; constructor. induction subs as [|[n' c'] subs IHs]; constructor; [|exact IHs]. split; [reflexivity|apply like_refl].
Qed.

Lemma load_like number c p d c' : load p number c d = Ok c' -> Like c c'.
Proof.
  revert p c'. induction c as [ok' v' s'| |st' subs IH] using comp_ind2; intros p c' HL; cbn [load] in HL.
  - destruct (M_Checkpoint.load_weights (d (splitext_path p)) number) as [[v s]|]; [|discriminate]. injection HL as <-. constructor.
  - injection HL as <-. constructor.
  - unfold bind in HL at 1.
    match type of HL with match ?F subs with _ => _ end = _ => set (each := F) in HL end.
    destruct (each subs) as [subs'|] eqn:E; [|discriminate]. injection HL as <-. constructor.
    revert subs' E. induction subs as [|[n1 c1] subs IHs]; intros subs' E; cbn in E; [injection E as <-; constructor|].
    destruct (load (splitext_path p ++ [n1]) number c1 d) as [c2|] eqn:E1; [|discriminate]. cbn in E. fold each in E. destruct (each subs) as [r|]; [|discriminate]. injection E as <-.
    constructor; [split; [reflexivity|]; exact (IH n1 c1 (or_introl eq_refl) _ _ E1)|]. apply (IHs (fun n c H => IH n c (or_intror H)) r eq_refl).
Qed.

Lemma manager_load_alike root number m d m' : manager_load root number m d = Ok m' -> Alike m m'.
Proof.
  unfold manager_load. revert m'. induction m as [|[n1 c1] m IH]; intros m' HL; cbn [load_each] in HL; [injection HL as <-; constructor|].
  unfold bind in HL. destruct (load (splitext_path root ++ [n1]) number c1 d) as [c2|] eqn:E1; [|discriminate]. destruct (load_each (splitext_path root) number m d) as [r|]; [|discriminate].
  injection HL as <-. constructor; [split; [reflexivity|eapply load_like; exact E1]|exact (IH r eq_refl)].
Qed.

Lemma multi_alike m m' n st : Alike m m' -> HoldsMulti m [n] st -> exists st', HoldsMulti m' [n] st'.
Proof.
  intros HA (n' & c & q' & Eq & Hn & HI). injection Eq as <- <-. inversion HI; subst. clear HI. induction HA as [|[n1 c1] [n2 c2] l l' [E L] F IH]; [destruct Hn|]. cbn [fst snd] in *. subst n2. destruct Hn as [Hn|Hn].
  - injection Hn as -> ->. inversion L; subst. eexists. exists n. eexists. exists []. split; [reflexivity|]. split; [left; reflexivity|constructor].
  - destruct (IH Hn) as (st' & n3 & c3 & q3 & Eq & Hn3 & HI3). exists st', n3, c3, q3. split; [exact Eq|]. split; [right; exact Hn3|exact HI3].
Qed.

(** A training of [us] iterations, saved and loaded: the counters of sources
    go on, those of models made of others do not. *)
Theorem C174_resumed root h m us d a tr t : splitext_path root = root -> Keys m -> PlainNames m -> Run df root h m d ->
  a_prot a = true \/ (0 <= a_keep a)%Z -> manager_save df root a tr (train us m) d = (t, None) ->
  exists m', manager_load root None m (play t d) = Ok m' /\
    (forall n ok v st, Holds m' [n] ok v st -> exists ok0 v0 st0, Holds m [n] ok0 v0 st0 /\ st = length us + st0) /\
    (forall n st, HoldsMulti m [n] st -> HoldsMulti (train us m) [n] (length us + st) /\ HoldsMulti m' [n] 1).
Proof.
  intros HR HK HP HRun HN HS. pose proof (alike_train us m) as HT. pose proof (run_change V df root h m _ d HRun HT) as HRun1. pose proof (run_save V df root h _ d a tr t HRun1 HS) as HRun2.
  assert (HSym : Run df root (h ++ [{| s_manager := train us m; s_args := a; s_training := tr |}]) m (play t d)).
  { eapply run_change; [exact HRun2|]. apply alike_sym. exact HT. }
  destruct (C171_latest root h _ m (play t d) HR HK HP HSym HN) as [_ (m' & E & HRest & _)]. exists m'. split; [exact E|]. split.
  - intros n ok v st Hm. destruct (HRest [n] ok v st Hm) as (ok' & H'). cbn [s_manager] in H'. apply C174_counted in H'. destruct H' as (v0 & st0 & H0 & _ & ->). exists ok', v0, st0. auto.
  - intros n st Hm. split; [apply C174_counted_multi; exists st; auto|]. pose proof (manager_load_alike _ _ _ _ _ E) as HA. destruct (multi_alike m m' n st HA Hm) as (st' & H'). pose proof (C174_lost _ _ _ _ _ _ _ E H') as ->. exact H'.
Qed.


(** ** C175: training settings *)

Lemma untrained_save D k pr de st w ops : M_Checkpoint.save (W := V * nat) df D true k pr de None st w = (ops, None) -> d_train D = None ->
  d_train (run ops D) = None /\ st = None.
Proof.
  intros H HT. unfold M_Checkpoint.save in H. cbn [run fold_left app] in H. destruct (M_Checkpoint.save_weights df D true k pr de st w) as [o e] eqn:E. injection H as <- ->. unfold M_Checkpoint.save_weights in E. cbn [negb] in E.
  destruct (match d_yaml D with None => _ | Some m => m end) as [m|]; [|discriminate]. destruct (d_index D (S (m_latest m))); [discriminate|].
  destruct (has_key _ _ || has_key _ _); [discriminate|]. destruct st as [s|]; [unfold update_num_training_steps in E; rewrite HT in E; discriminate|].
  match type of E with context [match ?X with Ok _ => _ | Err _ => _ end] => destruct X as [[u o2]|] eqn:E2; [|discriminate] end.
  injection E as <-. split; [|reflexivity]. rewrite run_keeps_train; [exact HT|]. cbn [app]. repeat constructor. apply Forall_app. split; [|repeat constructor].
  destruct pr; [injection E2 as <- <-; constructor|]. destruct (k <? _)%Z; [|injection E2 as <- <-; constructor]. exact (prune_keeps V df _ _ _ _ E2).
Qed.

Definition records (h : list (snapshot V)) (D : dir (V * nat)) : Prop :=
  ((exists s, In s h /\ s_training s <> None) -> trained V D) /\ ((forall s, In s h -> s_training s = None) -> d_train D = None) /\ (trained V D \/ d_train D = None).

Lemma records_step root m d h a tr t : Keys m -> seqn V (saveT V df a tr) root (flatm V m) d = (t, None) ->
  (forall q, In q (map fst (flatm V m)) -> records h (d (root ++ q))) ->
  forall q, In q (map fst (flatm V m)) -> records (h ++ [{| s_manager := m; s_args := a; s_training := tr |}]) (play t d (root ++ q)).
Proof.
  intros HK HS HC q Hq. destruct (seqn_ok V _ _ _ _ _ (nodup_flatm V m HK) HS) as [HD _]. destruct (HC q Hq) as (R1 & R2 & R3). apply in_map_iff in Hq. destruct Hq as ([q' [[ok v] st]] & E & Hx). cbn in E. subst q'.
  destruct (HD _ Hx) as (ops & E1 & E2). cbn [fst snd] in *. rewrite E2. unfold saveT in E1. cbn [fst snd] in E1. pose proof (save_needs_ok V df _ _ _ _ _ _ _ _ _ E1) as ->.
  assert (HN : tr = None -> d_train (d (root ++ q)) = None -> d_train (run ops (d (root ++ q))) = None) by (intros -> HN; exact (proj1 (untrained_save _ _ _ _ _ _ _ E1 HN))).
  split; [|split].
  - intros (s & Hs & Ht). eapply save_trained; [exact E1|]. apply in_app_iff in Hs. destruct Hs as [Hs|[<-|[]]]; [left; apply R1; exists s; auto|right; exact Ht].
  - intros H. apply HN; [apply (H {| s_manager := m; s_args := a; s_training := tr |}); apply in_or_app; right; left; reflexivity|]. apply R2. intros s Hs. apply H. apply in_or_app. left. exact Hs.
  - destruct tr as [cs|]; [left; eapply save_trained; [exact E1|right; discriminate]|]. destruct R3 as [R3|R3]; [left; eapply save_trained; [exact E1|left; exact R3]|right; apply HN; auto].
Qed.

Lemma run_records root h m d : splitext_path root = root -> Keys m -> PlainNames m -> Run df root h m d ->
  forall q, In q (map fst (flatm V m)) -> records h (d (root ++ q)).
Proof.
  intros HR HK HP HRun. revert HK HP. induction HRun as [m|h m m' d HRun IH HA|h m d a t HRun IH HS|h m d a tr t HRun IH HS]; intros HK HP.
  - intros q _. split; [intros (s & [] & _)|]. split; [reflexivity|right; reflexivity].
  - pose proof (alike_sym _ _ HA) as HA'. rewrite <- (flatm_alike V m m' HA). apply IH; [eapply alike_keys; eassumption|eapply alike_plain; eassumption].
  - rewrite manager_save_weights_flat in HS. rewrite (seqn_ext V _ (saveT V df a None)) in HS by (intros; apply save1_T). apply records_step; auto.
  - rewrite manager_save_flat in HS by assumption. apply records_step; auto.
Qed.

(** Once a save had training settings, numbers of steps are accepted, ... *)
Theorem C175_steps root h m d a : splitext_path root = root -> Keys m -> PlainNames m -> Run df root h m d ->
  (exists s, In s h /\ s_training s <> None) -> (forall q ok v st, Holds m q ok v st -> ok = true) ->
  exists t, manager_save_weights df root a m d = (t, None).
Proof.
  intros HR HK HP HRun HT HO. rewrite manager_save_weights_flat. apply seqn_can; [apply nodup_flatm; exact HK|]. intros [q [[ok v] st]] Hx. cbn [fst snd].
  assert (Hq : In q (map fst (flatm V m))) by (apply in_map_iff; exists (q, (ok, v, st)); auto).
  pose proof (proj1 (run_records root h m d HR HK HP HRun q Hq) HT) as HTr. apply in_flatm in Hx. unfold save1. cbn [fst snd]. rewrite (HO _ _ _ _ Hx).
  destruct (C171_each root h m d q ok v st HR HK HP HRun Hx) as (es & HH & _). destruct (hist_inv (V * nat) df es _ HH) as (l & HI & _).
  destruct (save_weights_inv (V * nat) df es _ l {| e_prot := a_prot a; e_keep := a_keep a; e_desc := a_desc a; e_training := None; e_steps := a_steps a; e_w := (v, st) |} HI) as [(ops & ex & _ & s & Es & Eu)|(o & _ & E)].
  - destruct (update_trained V _ s HTr) as (o' & Eo & _). cbn in Es. congruence.
  - cbn [e_keep e_prot e_desc e_steps e_w] in E. rewrite E. reflexivity.
Qed.

(** ... and before that they are refused without writing anything. *)
Theorem C175_no_steps root h m d a k : splitext_path root = root -> Keys m -> PlainNames m -> Run df root h m d ->
  (forall s, In s h -> s_training s = None) -> a_steps a = Some k -> (forall q ok v st, Holds m q ok v st -> ok = true) ->
  (exists q ok v st, Holds m q ok v st) -> manager_save_weights df root a m d = ([], Some IOError).
Proof.
  intros HR HK HP HRun HT HS HO (q0 & ok0 & v0 & st0 & H0). rewrite manager_save_weights_flat. apply in_flatm in H0.
  destruct (flatm V m) as [|[q [[ok v] st]] l] eqn:EF; [destruct H0|]. assert (Hx : In (q, (ok, v, st)) (flatm V m)) by (rewrite EF; left; reflexivity).
  assert (Hq : In q (map fst (flatm V m))) by (apply in_map_iff; exists (q, (ok, v, st)); auto).
  pose proof (proj1 (proj2 (run_records root h m d HR HK HP HRun q Hq)) HT) as HTr. apply in_flatm in Hx. cbn [seqn fst snd]. unfold andthen, at_path, save1. cbn [fst snd]. rewrite (HO _ _ _ _ Hx).
  destruct (C171_each root h m d q ok v st HR HK HP HRun Hx) as (es & HH & _). destruct (hist_inv (V * nat) df es _ HH) as (l' & HI & _).
  destruct (save_weights_inv (V * nat) df es _ l' {| e_prot := a_prot a; e_keep := a_keep a; e_desc := a_desc a; e_training := None; e_steps := a_steps a; e_w := (v, st) |} HI) as [(ops & ex & E & s & Es & Eu)|(o & Eo & _)].
  - cbn [e_keep e_prot e_desc e_steps e_w] in E. rewrite E. unfold update_num_training_steps in Eu. rewrite HTr in Eu. injection Eu as <- <-. reflexivity.
  - cbn [e_steps] in Eo. rewrite HS in Eo. unfold update_num_training_steps in Eo. rewrite HTr in Eo. discriminate.
Qed.

Lemma training_other root ts m d t e q : manager_save_training root ts m d = (t, e) -> (forall n, q <> [n]) -> play t d (root ++ q) = d (root ++ q).
Proof.
  revert d t e. induction m as [|[n c] m IH]; intros d t e H Hq; cbn [manager_save_training] in H; [injection H as <- <-; reflexivity|].
  assert (HX : forall ef : effect (V * nat), andthen (fun d => at_path (root ++ [n]) (save_training_settings (d (root ++ [n])) ts)) (manager_save_training root ts m) d = (t, e) ->
    play t d (root ++ q) = d (root ++ q)).
  { intros _ HA. unfold andthen, at_path in HA. destruct (save_training_settings (d (root ++ [n])) ts) as [ops e1]. cbn [fst snd] in HA.
    assert (HO : play (map (fun o => (root ++ [n], o)) ops) d (root ++ q) = d (root ++ q)) by (apply play_at_other; intros E; apply app_inv_head in E; exact (Hq n E)).
    destruct e1 as [e1|]; [injection HA as <- <-; exact HO|].
    match type of HA with (let '(t', e') := manager_save_training root ts m ?D in _) = _ => change D with (play (map (fun o => (root ++ [n], o)) ops) d) in HA end.
    destruct (manager_save_training root ts m (play (map (fun o => (root ++ [n], o)) ops) d)) as [t2 e2] eqn:E2. injection HA as <- <-. rewrite play_app.
    exact (eq_trans (IH _ _ _ E2 Hq) HO). }
  destruct c; [apply (HX ([], None) H)|apply (HX ([], None) H)|exact (IH _ _ _ H Hq)].
Qed.

(** Settings that are saved without the weights only reach the models of the
    manager, not those inside a model made of others. *)
Theorem C175_inside root h m d ts t e q ok v st : splitext_path root = root -> Keys m -> PlainNames m -> Run df root h m d ->
  (forall s, In s h -> s_training s = None) -> manager_save_training root ts m d = (t, e) ->
  Holds m q ok v st -> (forall n, q <> [n]) -> d_train (play t d (root ++ q)) = None.
Proof.
  intros HR HK HP HRun HT HS HH Hq. rewrite (training_other _ _ _ _ _ _ _ HS Hq). apply (run_records root h m d HR HK HP HRun q); [eapply holds_path; exact HH|exact HT].
Qed.

(** A number of steps is then refused when saving such a model. *)
Theorem C175_inside_raises root h m d ts t a k q ok v st : splitext_path root = root -> Keys m -> PlainNames m -> Run df root h m d ->
  (forall s, In s h -> s_training s = None) -> manager_save_training root ts m d = (t, None) ->
  Holds m q ok v st -> (forall n, q <> [n]) -> a_steps a = Some k -> exists t' ex, manager_save_weights df root a m (play t d) = (t', Some ex).
Proof.
  intros HR HK HP HRun HT HS HH Hq Hk. destruct (manager_save_weights df root a m (play t d)) as [t' [ex|]] eqn:HW; [exists t', ex; reflexivity|exfalso]. pose proof (C175_inside root h m d ts t None q ok v st HR HK HP HRun HT HS HH Hq) as HN.
  rewrite manager_save_weights_flat in HW. destruct (seqn_ok V _ _ _ _ _ (nodup_flatm V m HK) HW) as [HD _]. apply in_flatm in HH. destruct (HD _ HH) as (ops & E & _). cbn [fst snd] in E.
  rewrite save1_T in E. unfold saveT in E. cbn [fst snd] in E. pose proof (save_needs_ok V df _ _ _ _ _ _ _ _ _ E) as ->. destruct (untrained_save _ _ _ _ _ _ _ E HN) as [_ X]. congruence.
Qed.

(** *** Names with an extension *)

(** [save] and [load] take the extension off the name of a source, [save_weights]
    and [load_weights] do not. *)
Definition within (n0 n : string) (st : nat) (v : V) (s : nat) : manager V := [(n0, Multi st [(n, Source true v s)])].

Lemma split_off root n0 n : splitext_path root = root -> Bare n0 -> splitext_path (splitext_path (splitext_path root ++ [n0]) ++ [n]) = root ++ [n0; splitext_root n].
Proof. intros HR HB. rewrite HR, !splitext_path_snoc, HB, <- app_assoc. reflexivity. Qed.

Theorem C175_extension root n0 n st v s a tr d t e : splitext_path root = root -> Bare n0 -> splitext_root n <> n ->
  manager_save df root a tr (within n0 n st v s) d = (t, e) -> play t d (root ++ [n0; n]) = d (root ++ [n0; n]).
Proof.
  intros HR HB HN HS. unfold manager_save, within in HS. cbn [save_each save] in HS. rewrite (split_off root n0 n HR HB) in HS. unfold andthen, at_path in HS.
  destruct (M_Checkpoint.save df (d (root ++ [n0; splitext_root n])) true (a_keep a) (a_prot a) (a_desc a) tr (a_steps a) (v, s)) as [ops e1]. cbn [fst snd] in HS.
  assert (HO : play (map (fun o => (root ++ [n0; splitext_root n], o)) ops) d (root ++ [n0; n]) = d (root ++ [n0; n])).
  { apply play_at_other. intros E. apply app_inv_head in E. congruence. }
  destruct e1 as [e1|]; injection HS as <- <-; rewrite ?app_nil_r; exact HO.
Qed.

(** So a training fails at its first checkpoint, ... *)
Theorem C175_extension_steps root n0 n st v s a tr t e a' k m' : splitext_path root = root -> Bare n0 -> splitext_root n <> n ->
  manager_save df root a tr (within n0 n st v s) (fun _ => empty_dir) = (t, e) -> a_steps a' = Some k ->
  m' = within n0 n st v s -> manager_save_weights df root a' m' (play t (fun _ => empty_dir)) = ([], Some IOError).
Proof.
  intros HR HB HN HS Hk ->. pose proof (C175_extension root n0 n st v s a tr _ t e HR HB HN HS) as HE. unfold within. cbn [manager_save_weights save_weights]. unfold andthen, at_path.
  rewrite <- app_assoc. cbn [app]. rewrite HE. unfold M_Checkpoint.save_weights. cbn. rewrite Hk. reflexivity.
Qed.

(** ... and weights that are saved later are not those that are loaded. *)
Theorem C175_extension_old root n0 n st v s a tr t v' s' a' t' : splitext_path root = root -> Bare n0 -> splitext_root n <> n ->
  a_prot a = true \/ (0 <= a_keep a)%Z -> a_steps a' = None ->
  manager_save df root a tr (within n0 n st v s) (fun _ => empty_dir) = (t, None) ->
  manager_save_weights df root a' (within n0 n st v' s') (play t (fun _ => empty_dir)) = (t', None) ->
  manager_load root None (within n0 n st v s) (play t' (play t (fun _ => empty_dir))) = Ok (within n0 n 1 v s).
Proof.
  intros HR HB HN HP Hk HS HW. set (d := play t (fun _ => empty_dir)) in *.
  assert (HO : play t' d (root ++ [n0; splitext_root n]) = d (root ++ [n0; splitext_root n])).
  { unfold within in HW. cbn [manager_save_weights save_weights] in HW. unfold andthen, at_path in HW. rewrite <- app_assoc in HW. cbn [app] in HW.
    destruct (M_Checkpoint.save_weights df (d (root ++ [n0; n])) true (a_keep a') (a_prot a') (a_desc a') (a_steps a') (v', s')) as [ops [e1|]]; cbn [fst snd] in HW; [discriminate|].
    injection HW as <-. rewrite ?app_nil_r. apply play_at_other. intros E. apply app_inv_head in E. congruence. }
  assert (HD : exists ops, M_Checkpoint.save df empty_dir true (a_keep a) (a_prot a) (a_desc a) tr (a_steps a) (v, s) = (ops, None) /\ d (root ++ [n0; splitext_root n]) = run ops empty_dir).
  { unfold d. unfold manager_save, within in HS. cbn [save_each save] in HS. rewrite (split_off root n0 n HR HB) in HS. unfold andthen, at_path in HS.
    destruct (M_Checkpoint.save df empty_dir true (a_keep a) (a_prot a) (a_desc a) tr (a_steps a) (v, s)) as [ops [e1|]]; cbn [fst snd] in HS; [discriminate|]. injection HS as <-. rewrite ?app_nil_r.
    exists ops. split; [reflexivity|]. rewrite play_at_same. reflexivity. }
  destruct HD as (ops & Eo & Ed). unfold manager_load, within. cbn [load_each load]. rewrite (split_off root n0 n HR HB), HO, Ed.
  assert (HL : M_Checkpoint.load_weights (run ops empty_dir) None = Ok (v, s)).
  { set (e := {| e_prot := a_prot a; e_keep := a_keep a; e_desc := a_desc a; e_training := tr; e_steps := a_steps a; e_w := (v, s) |}).
    assert (HH : Hist df ([] ++ [e]) (run ops empty_dir)) by (apply h_save; [constructor|exact Eo]).
    exact (C25_latest (V * nat) df [] e (run ops empty_dir) HH HP). }
  rewrite HL. reflexivity.
Qed.

End Theorems.

(** ** C176: the check that no variables were added *)

Definition ids (l : list variable) : list nat := map v_id l.

Lemma in_unique v l : In v (unique l) -> In v l.
Proof. induction l as [|u l IH]; [intros []|]. cbn [unique]. intros [<-|H]; [left; reflexivity|]. apply filter_In in H. right. apply IH. apply H. Qed.

Lemma unique_in v l : In v l -> exists u, In u (unique l) /\ v_id u = v_id v.
Proof.
  induction l as [|u l IH]; [intros []|]. cbn [unique]. intros [<-|H]; [exists u; split; [left; reflexivity|reflexivity]|]. destruct (IH H) as (w & Hw & E).
  destruct (Nat.eq_dec (v_id w) (v_id u)) as [Eu|Eu]; [exists u; split; [left; reflexivity|congruence]|]. exists w. split; [|exact E]. right. apply filter_In. split; [exact Hw|].
  apply Nat.eqb_neq in Eu. rewrite Eu. reflexivity.
Qed.

Lemma nodup_unique l : NoDup (ids (unique l)).
Proof.
  induction l as [|u l IH]; [constructor|]. cbn [unique ids map]. constructor.
  - intros H. apply in_map_iff in H. destruct H as (w & E & H). apply filter_In in H. destruct H as [_ H]. rewrite E, Nat.eqb_refl in H. discriminate.
  - clear - IH. unfold ids in *. induction (unique l) as [|w k IHk]; [constructor|]. cbn [map] in IH. inversion IH as [|x k' Hx HN]; subst. cbn [filter]. destruct (negb (Nat.eqb (v_id w) (v_id u))); [|apply IHk; exact HN].
    cbn [map]. constructor; [|apply IHk; exact HN]. intros H. apply Hx. apply in_map_iff in H. destruct H as (y & E & H). apply filter_In in H. apply in_map_iff. exists y. split; [exact E|apply H].
Qed.

Lemma unique_nodup l : NoDup (ids l) -> unique l = l.
Proof.
  induction l as [|u l IH]; intros H; [reflexivity|]. cbn [ids map] in H. inversion H as [|x k Hx HN]; subst. cbn [unique]. rewrite (IH HN). f_equal.
  clear - Hx. induction l as [|w l IH]; [reflexivity|]. cbn [filter]. destruct (Nat.eqb_spec (v_id w) (v_id u)) as [E|E]; cbn [negb].
  - exfalso. apply Hx. left. exact E.
  - f_equal. apply IH. intros H. apply Hx. right. exact H.
Qed.

Lemma filter_short {A} (f : A -> bool) l : length (filter f l) <= length l.
Proof. induction l as [|x l IH]; [reflexivity|]. cbn [filter]. destruct (f x); cbn [length]; lia. Qed.

Lemma filter_filter_comm {A} (f g : A -> bool) l : filter f (filter g l) = filter g (filter f l).
Proof. induction l as [|x l IH]; [reflexivity|]. cbn [filter]. destruct (f x) eqn:F, (g x) eqn:G; cbn [filter]; rewrite ?F, ?G, ?IH; reflexivity. Qed.

Lemma unique_filter u l : unique (filter (fun w => negb (Nat.eqb (v_id w) (v_id u))) l) = filter (fun w => negb (Nat.eqb (v_id w) (v_id u))) (unique l).
Proof.
  induction l as [|w l IH]; [reflexivity|]. cbn [filter unique]. destruct (negb (Nat.eqb (v_id w) (v_id u))) eqn:E.
  - cbn [unique]. rewrite IH, filter_filter_comm. reflexivity.
  - rewrite IH. rewrite filter_filter_comm. assert (HF : forall k, filter (fun v => negb (Nat.eqb (v_id v) (v_id w))) (filter (fun v => negb (Nat.eqb (v_id v) (v_id u))) k) = filter (fun v => negb (Nat.eqb (v_id v) (v_id u))) k).
    { intros k. apply Bool.negb_false_iff in E. apply Nat.eqb_eq in E. rewrite E. induction k as [|y k IHk]; [reflexivity|]. cbn [filter]. destruct (negb (Nat.eqb (v_id y) (v_id u))) eqn:Ey; cbn [filter]; rewrite ?Ey, ?IHk; reflexivity. }
    rewrite HF. reflexivity.
Qed.

Lemma unique_app a b : unique (a ++ b) = unique (unique a ++ b).
Proof.
  induction a as [|u a IH]; [reflexivity|]. cbn [app unique]. f_equal. rewrite IH. rewrite <- (unique_filter u (unique a ++ b)), <- (unique_filter u (filter _ (unique a) ++ b)), !filter_app. do 2 f_equal.
  generalize (unique a) as k. intros k. induction k as [|w k IHk]; [reflexivity|]. cbn [filter]. destruct (negb (Nat.eqb (v_id w) (v_id u))) eqn:E; cbn [filter]; rewrite ?E; [f_equal; exact IHk|exact IHk].
Qed.

Lemma unique_short l : length (unique l) <= length l.
Proof. induction l as [|u l IH]; [reflexivity|]. cbn [unique length]. pose proof (filter_short (fun w => negb (Nat.eqb (v_id w) (v_id u))) (unique l)). lia. Qed.

Lemma unique_full l : length (unique l) = length l -> NoDup (ids l).
Proof.
  intros H. assert (HF : forall (f : variable -> bool) k, length (filter f k) = length k -> filter f k = k).
  { intros f k. induction k as [|w k IH]; [reflexivity|]. cbn [filter]. destruct (f w); cbn [length]; intros Hk; [f_equal; apply IH; lia|]. pose proof (filter_short f k). lia. }
  assert (E : unique l = l); [|rewrite <- E; apply nodup_unique].
  induction l as [|u l IH]; [reflexivity|]. cbn [unique length] in *. injection H as H. pose proof (filter_short (fun w => negb (Nat.eqb (v_id w) (v_id u))) (unique l)) as H1. pose proof (unique_short l) as H2.
  rewrite HF by lia. rewrite (IH ltac:(lia)). reflexivity.
Qed.

Lemma insert_perm x l : Permutation (x :: l) (insert_name x l).
Proof.
  induction l as [|y l IH]; [reflexivity|]. cbn [insert_name]. destruct (String.leb x y); [reflexivity|]. rewrite perm_swap. constructor. exact IH.
Qed.

Lemma sort_perm l : Permutation l (sort_names l).
Proof. induction l as [|x l IH]; [constructor|]. cbn [sort_names fold_right]. rewrite <- insert_perm. constructor. exact IH. Qed.

Lemma unchanged_length loading m : unchanged loading m = true -> length (variables m) = length (recorded loading m).
Proof.
  unfold unchanged. destruct (list_eq_dec string_dec _ _) as [E|E]; [intros _|discriminate].
  rewrite <- (map_length v_name (variables m)), <- (map_length v_name (recorded loading m)), (Permutation_length (sort_perm (map v_name (variables m)))), (Permutation_length (sort_perm (map v_name (recorded loading m)))), E. reflexivity.
Qed.

Lemma unchanged_same loading m : variables m = recorded loading m -> unchanged loading m = true.
Proof. unfold unchanged. intros ->. destruct (list_eq_dec string_dec _ _); [reflexivity|congruence]. Qed.

Lemma module_ind2 (P : module -> Prop) : (forall own c subs, (forall n s, In (n, Some s) subs -> P s) -> P (Module own c subs)) -> forall m, P m.
Proof.
  intros H. fix IH 1. intros [own c subs]. apply H. induction subs as [|[n o] subs IHs]; intros n' s' Hs; [destruct Hs|].
  destruct Hs as [E|Hs]; [|exact (IHs _ _ Hs)]. destruct o as [s|]; [injection E as _ <-; apply IH|discriminate].
Qed.

Lemma variables_module own c subs : variables (Module own c subs) = unique (own ++ [c] ++ sub_variables subs).
Proof.
  cbn [variables]. do 3 f_equal. unfold sub_variables. induction subs as [|[n [s|]] subs IH]; [reflexivity| |]; cbn [flat_map snd]; rewrite IH; reflexivity.
Qed.

Lemma in_sub_variables v subs : In v (sub_variables subs) <-> exists n s, In (n, Some s) subs /\ In v (variables s).
Proof.
  unfold sub_variables. rewrite in_flat_map. split.
  - intros ([n [s|]] & Hn & Hv); cbn [snd] in Hv; [exists n, s; auto|destruct Hv].
  - intros (n & s & Hn & Hv). exists (n, Some s). auto.
Qed.

Lemma variables_reach m v : In v (variables m) -> Reaches m v.
Proof.
  revert v. induction m as [own c subs IH] using module_ind2. intros v H. rewrite variables_module in H. apply in_unique in H. rewrite !in_app_iff in H. destruct H as [H|[[<-|[]]|H]]; [apply reach_own; exact H|apply reach_counter|].
  apply in_sub_variables in H. destruct H as (n & s & Hn & Hv). eapply reach_sub; [exact Hn|]. exact (IH n s Hn v Hv).
Qed.

Lemma reach_variables m v : Reaches m v -> exists u, In u (variables m) /\ v_id u = v_id v.
Proof.
  induction 1 as [own c subs v H|own c subs|own c subs n s v Hn H (u & Hu & E)]; rewrite variables_module.
  - apply unique_in. apply in_or_app. left. exact H.
  - apply unique_in. apply in_or_app. right. left. reflexivity.
  - destruct (unique_in u (own ++ [c] ++ sub_variables subs)) as (w & Hw & E2).
    + rewrite !in_app_iff. right. right. apply in_sub_variables. exists n, s. auto.
    + exists w. split; [exact Hw|congruence].
Qed.

Lemma variables_nodup m : NoDup (ids (variables m)).
Proof. destruct m as [own c subs]. rewrite variables_module. apply nodup_unique. Qed.

Lemma nodup_join {A} (a b : list A) : NoDup (a ++ b) <-> NoDup a /\ NoDup b /\ forall x, In x a -> In x b -> False.
Proof.
  induction a as [|x a IH]; cbn [app].
  - split; [intros H; split; [constructor|]; split; [exact H|intros x []]|tauto].
  - split.
    + intros H. inversion H as [|y l Hy HN]; subst. apply IH in HN. destruct HN as (H1 & H2 & H3). rewrite in_app_iff in Hy. split; [constructor; tauto|]. split; [exact H2|]. intros z [<-|Hz] Hb; [tauto|]. exact (H3 z Hz Hb).
    + intros (H1 & H2 & H3). inversion H1 as [|y l Hy HN]; subst. constructor; [rewrite in_app_iff; intros [H|H]; [exact (Hy H)|exact (H3 x (or_introl eq_refl) H)]|].
      apply IH. split; [exact HN|]. split; [exact H2|]. intros z Hz Hb. exact (H3 z (or_intror Hz) Hb).
Qed.

Definition Apart (subs : list (string * option module)) : Prop :=
  forall i j n s n' s' u v, nth_error subs i = Some (n, Some s) -> nth_error subs j = Some (n', Some s') -> i <> j -> Reaches s u -> Reaches s' v -> v_id u <> v_id v.

Lemma nodup_subs subs : NoDup (ids (sub_variables subs)) <-> Apart subs.
Proof.
  induction subs as [|[n o] subs IH].
  - split; [intros _ i j n s n' s' u v H; destruct i; discriminate|constructor].
  - assert (HC : Apart ((n, o) :: subs) <-> Apart subs /\ forall s n' s' u v, o = Some s -> In (n', Some s') subs -> Reaches s u -> Reaches s' v -> v_id u <> v_id v).
    { split.
      - intros H. split.
        + intros i j n1 s n' s' u v Hi Hj Hij. apply (H (S i) (S j) n1 s n' s' u v Hi Hj). congruence.
        + intros s n' s' u v -> Hn. apply In_nth_error in Hn. destruct Hn as (j & Hj). apply (H 0 (S j) n s n' s' u v eq_refl Hj). discriminate.
      - intros [H1 H2] i j n1 s n' s' u v Hi Hj Hij Hu Hv. destruct i as [|i], j as [|j]; [congruence| | |].
        + cbn in Hi, Hj. injection Hi as <- ->. eapply H2; [reflexivity|eapply nth_error_In; exact Hj|exact Hu|exact Hv].
        + cbn in Hi, Hj. injection Hj as <- ->. intros E. eapply H2; [reflexivity|eapply nth_error_In; exact Hi|exact Hv|exact Hu|symmetry; exact E].
        + cbn in Hi, Hj. apply (H1 i j n1 s n' s' u v Hi Hj); auto. }
    rewrite HC. unfold sub_variables. cbn [flat_map snd]. fold (sub_variables subs). unfold ids. rewrite map_app. fold (ids (sub_variables subs)). rewrite nodup_join, IH. destruct o as [s|].
    + split.
      * intros (_ & H1 & H2). split; [exact H1|]. intros s0 n' s' u v E Hn Hu Hv Ei. injection E as <-. apply reach_variables in Hu. apply reach_variables in Hv. destruct Hu as (u' & Hu & Eu), Hv as (v' & Hv & Ev).
        apply (H2 (v_id u)); [apply in_map_iff; exists u'; auto|]. apply in_map_iff. exists v'. split; [congruence|]. apply in_sub_variables. exists n', s'. auto.
      * intros [H1 H2]. split; [apply variables_nodup|]. split; [exact H1|]. intros x Hx Hy. apply in_map_iff in Hx. apply in_map_iff in Hy. destruct Hx as (u & Eu & Hu), Hy as (v & Ev & Hv).
        apply in_sub_variables in Hv. destruct Hv as (n' & s' & Hn & Hv). eapply (H2 s n' s' u v eq_refl Hn); [apply variables_reach; exact Hu|apply variables_reach; exact Hv|congruence].
    + split; [intros (_ & H & _); split; [exact H|intros s n' s' u v E; discriminate]|]. intros [H _]. split; [constructor|]. split; [exact H|intros x []].
Qed.

(** A configured model can be saved exactly if it shares no variable with its
    sub models, and these none with each other. *)
Theorem C176_configured own c subs : unchanged false (Module own c subs) = true <-> Unshared own c subs.
Proof.
  assert (HV : variables (Module own c subs) = unique (unique (own ++ [c]) ++ sub_variables subs)) by (rewrite variables_module, app_assoc; apply unique_app).
  assert (HN : unchanged false (Module own c subs) = true <-> NoDup (ids (unique (own ++ [c]) ++ sub_variables subs))).
  { split.
    - intros H. apply unchanged_length in H. rewrite HV in H. cbn [recorded] in H. apply unique_full. exact H.
    - intros H. apply unchanged_same. rewrite HV. cbn [recorded]. apply unique_nodup. exact H. }
  rewrite HN. unfold ids. rewrite map_app. rewrite nodup_join. fold (ids (sub_variables subs)). rewrite nodup_subs. fold (ids (unique (own ++ [c]))). unfold Unshared. fold (Apart subs).
  assert (HO : forall u, In u own \/ u = c <-> In u (own ++ [c])) by (intros u; rewrite in_app_iff; cbn; split; [intros [H| -> ]; auto|intros [H|[<-|[]]]; auto]). split.
  - intros (_ & H1 & H2). split; [|exact H1]. intros n s u v Hn Hu Hv E. apply HO in Hu. apply unique_in in Hu. destruct Hu as (u' & Hu & Eu). apply reach_variables in Hv. destruct Hv as (v' & Hv & Ev).
    apply (H2 (v_id u)); [apply in_map_iff; exists u'; auto|]. apply in_map_iff. exists v'. split; [congruence|]. apply in_sub_variables. exists n, s. auto.
  - intros [H1 H2]. split; [apply nodup_unique|]. split; [exact H2|]. intros x Hx Hy. apply in_map_iff in Hx. apply in_map_iff in Hy. destruct Hx as (u & Eu & Hu), Hy as (v & Ev & Hv).
    apply in_unique in Hu. apply HO in Hu. apply in_sub_variables in Hv. destruct Hv as (n & s & Hn & Hv). apply (H1 n s u v Hn Hu (variables_reach s v Hv)). congruence.
Qed.

(** After loading its weights it can be saved exactly if it has no sub models. *)
Theorem C176_loaded own c subs : unchanged true (Module own c subs) = true <-> forall n s, ~ In (n, Some s) subs.
Proof.
  split.
  - intros H n s Hn. apply unchanged_length in H. cbn [recorded] in H. rewrite app_length in H. assert (E : length (sub_variables subs) = 0) by lia. apply length_zero_iff_nil in E.
    destruct s as [own' c' subs']. destruct (reach_variables (Module own' c' subs') c') as (u & Hu & _); [apply reach_counter|]. assert (HX : In u (sub_variables subs)) by (apply in_sub_variables; exists n, (Module own' c' subs'); auto).
    rewrite E in HX. destruct HX.
  - intros H. apply unchanged_same. cbn [recorded]. assert (E : sub_variables subs = []); [|rewrite E, app_nil_r; reflexivity].
    destruct (sub_variables subs) as [|u l] eqn:E; [reflexivity|]. exfalso. assert (HX : In u (sub_variables subs)) by (rewrite E; left; reflexivity). apply in_sub_variables in HX. destruct HX as (n & s & Hn & _). exact (H n s Hn).
Qed.


(** ** Examples *)

Definition ex_first : nat -> bool := fun _ => true.
Definition ex_root : path := ["exported"; "manager"].
Definition ex_manager (v : nat) : manager nat :=
  [("models_0000", Source true v 1); ("models_0001", Multi 1 [("cascade", Source true (10 + v) 1); ("pulses", Other); ("track", Source true (20 + v) 1)])].
Definition ex_args (p : bool) (st : option nat) : args := {| a_keep := 3; a_prot := p; a_desc := None; a_steps := st |}.
Definition ex_settings : training := Some [("loss_module", None)].
Definition disk_of (o : outcome nat) (d : disk nat) : disk nat := play (fst o) d.
Definition ex_d0 : disk nat := fun _ => empty_dir.
Definition ex_d1 : disk nat := disk_of (manager_save ex_first ex_root (ex_args true None) ex_settings (ex_manager 1) ex_d0) ex_d0.
Definition ex_d2 : disk nat := disk_of (manager_save_weights ex_first ex_root (ex_args true (Some 500)) (ex_manager 2) ex_d1) ex_d1.
Definition ex_s1 : snapshot nat := {| s_manager := ex_manager 1; s_args := ex_args true None; s_training := ex_settings |}.
Definition ex_s2 : snapshot nat := {| s_manager := ex_manager 2; s_args := ex_args true (Some 500); s_training := None |}.

Lemma ex_alike v w : Alike (ex_manager v) (ex_manager w).
Proof. repeat (constructor; try reflexivity). Qed.

Example weights_keys v : splitext_path ex_root = ex_root /\ Keys (ex_manager v) /\ PlainNames (ex_manager v).
Proof.
  split; [reflexivity|]. split; [split|].
  - repeat constructor; cbn; intuition discriminate.
  - intros n c [E|[E|[]]]; injection E as <- <-; constructor; [repeat constructor; cbn; intuition discriminate|].
    intros n c [E|[E|[E|[]]]]; injection E as <- <-; constructor.
  - intros n c [E|[E|[]]]; injection E as <- <-; (split; [vm_compute; reflexivity|]); constructor.
    intros n c [E|[E|[E|[]]]]; injection E as <- <-; (split; [vm_compute; reflexivity|constructor]).
Qed.

Example weights_run : Run ex_first ex_root [ex_s1; ex_s2] (ex_manager 2) ex_d2.
Proof.
  assert (H1 : Run ex_first ex_root ([] ++ [ex_s1]) (ex_manager 1) ex_d1).
  { unfold ex_d1, disk_of. eapply run_save; [apply run_start|]. vm_compute. reflexivity. }
  change [ex_s1; ex_s2] with (([] ++ [ex_s1]) ++ [ex_s2]). unfold ex_d2, disk_of. eapply run_weights; [eapply run_change; [exact H1|apply ex_alike]|]. vm_compute. reflexivity.
Qed.

Example weights_loaded : manager_load_weights ex_root (Some 1) (ex_manager 7) ex_d2 = (ex_manager 1, None) /\
  manager_load_weights ex_root None (ex_manager 7) ex_d2 = (ex_manager 2, None) /\
  manager_load_weights ex_root (Some 3) (ex_manager 7) ex_d2 = (ex_manager 7, Some KeyError) /\
  There [ex_s1; ex_s2] 0 /\ Restored ex_s1 (ex_manager 1).
Proof.
  do 3 (split; [vm_compute; reflexivity|]). split; [exists ex_s1; split; [reflexivity|left; reflexivity]|]. intros q ok v st H. exists ok. exact H.
Qed.

(** A crash after the first model of a third save. *)
Definition ex_trace : trace nat := fst (manager_save_weights ex_first ex_root (ex_args true None) (ex_manager 3) ex_d2).
Definition ex_d3 : disk nat := play (firstn 4 ex_trace) ex_d2.

Example weights_halfway : Halfway ex_first ex_root (ex_args true None) (ex_manager 3) ex_d2 ex_d3 [["models_0000"]] [["models_0001"; "cascade"]; ["models_0001"; "track"]].
Proof.
  split; [|split].
  - apply (in_order_cons nat "models_0000" _ _ [[]] [["models_0001"; "cascade"]; ["models_0001"; "track"]]); [constructor|].
    apply (in_order_cons nat "models_0001" _ _ [["cascade"]; ["track"]] []); [|constructor]. constructor.
    apply (in_order_cons nat "cascade" _ _ [[]] [["track"]]); [constructor|]. apply (in_order_cons nat "pulses" _ _ [] [["track"]]); [constructor|].
    apply (in_order_cons nat "track" _ _ [[]] []); constructor.
  - intros q [<-|[]]. eexists. split; [exists true, 3, 1; split; [|vm_compute; reflexivity]|vm_compute; reflexivity].
    exists "models_0000", (Source true 3 1), []. split; [reflexivity|]. split; [left; reflexivity|constructor].
  - intros q [<-|[<-|[]]]; vm_compute; reflexivity.
Qed.

Lemma ex_leaf_first v (m : manager nat) : In ("models_0000", Source true v 1) m -> Holds m ["models_0000"] true v 1.
Proof. intros H. exists "models_0000", (Source true v 1), []. split; [reflexivity|]. split; [exact H|constructor]. Qed.
Lemma ex_leaf_track v : Holds (ex_manager v) ["models_0001"; "track"] true (20 + v) 1.
Proof. exists "models_0001". eexists. exists ["track"]. split; [reflexivity|]. split; [right; left; reflexivity|]. econstructor; [right; right; left; reflexivity|constructor]. Qed.
Lemma ex_only_first v ok w st : Holds (ex_manager v) ["models_0000"] ok w st -> w = v.
Proof. intros H. apply in_flatm in H. cbn in H. destruct H as [H|[H|[H|[]]]]; try discriminate. injection H as _ <- _. reflexivity. Qed.
Lemma ex_only_track v ok w st : Holds (ex_manager v) ["models_0001"; "track"] ok w st -> w = 20 + v.
Proof. intros H. apply in_flatm in H. cbn in H. destruct H as [H|[H|[H|[]]]]; try discriminate. injection H as _ <- _. reflexivity. Qed.

(** What one may expect of the newest checkpoint does not hold: it need not be
    the weights of one time. *)
Definition ex_mixture : manager nat :=
  [("models_0000", Source true 3 1); ("models_0001", Multi 1 [("cascade", Source true 12 1); ("pulses", Other); ("track", Source true 22 1)])].

Theorem C172_one_save_refuted : exists root h m d a t1 t2 m',
  Run (V := nat) ex_first root h m d /\ manager_save_weights ex_first root a m d = (t1 ++ t2, None) /\
  manager_load_weights root None m (play t1 d) = (m', None) /\ ~ Restored {| s_manager := m; s_args := a; s_training := None |} m' /\
  forall s, In s h -> ~ Restored s m'.
Proof.
  exists ex_root, [ex_s1; ex_s2], (ex_manager 3), ex_d2, (ex_args true None), (firstn 4 ex_trace), (skipn 4 ex_trace), ex_mixture.
  split; [eapply run_change; [exact weights_run|apply ex_alike]|]. split; [rewrite firstn_skipn; vm_compute; reflexivity|]. split; [vm_compute; reflexivity|]. split.
  - intros H. destruct (H ["models_0001"; "track"] true 22 1) as (ok & HX).
    + exists "models_0001". eexists. exists ["track"]. split; [reflexivity|]. split; [right; left; reflexivity|]. econstructor; [right; right; left; reflexivity|constructor].
    + apply ex_only_track in HX. discriminate.
  - intros s [<-|[<-|[]]] H; destruct (H ["models_0000"] true 3 1) as (ok & HX); try (apply ex_leaf_first; left; reflexivity); apply ex_only_first in HX; discriminate.
Qed.

(** Loading is not all or nothing. *)
Theorem C173_atomic_refuted : exists root m d m' ex q ok v st,
  manager_load_weights (V := nat) root (Some 3) m d = (m', Some ex) /\ Holds m' q ok v st /\ forall ok st, ~ Holds m q ok v st.
Proof.
  exists ex_root, (ex_manager 7), ex_d3. eexists. exists KeyError, ["models_0000"], true, 3, 1. split; [vm_compute; reflexivity|]. split; [apply ex_leaf_first; left; reflexivity|].
  intros ok st H. apply ex_only_first in H. discriminate.
Qed.

(** The counter of a model made of others does not go on after loading. *)
Definition ex_updates : list (path -> nat -> nat) := [fun _ v => v + 1; fun _ v => 2 * v].

Theorem C174_step_refuted : exists root us m d m' q st,
  manager_load (V := nat) root None m (play (fst (manager_save ex_first root (ex_args true None) None (train nat us m) d)) d) = Ok m' /\
  snd (manager_save ex_first root (ex_args true None) None (train nat us m) d) = None /\
  HoldsMulti (train nat us m) q st /\ ~ HoldsMulti m' q st.
Proof.
  exists ex_root, ex_updates, (ex_manager 2), ex_d2. eexists. exists ["models_0001"], 3. split; [vm_compute; reflexivity|]. split; [vm_compute; reflexivity|]. split.
  - exists "models_0001". eexists. exists []. split; [reflexivity|]. split; [right; left; reflexivity|]. constructor.
  - intros (n & c & q' & E & [Hn|[Hn|[]]] & HI); injection Hn as <- <-; inversion HI; subst; discriminate.
Qed.

Example weights_trained : train nat ex_updates (ex_manager 2) =
  [("models_0000", Source true 6 3); ("models_0001", Multi 3 [("cascade", Source true 26 1); ("pulses", Other); ("track", Source true 46 1)])].
Proof. reflexivity. Qed.

(** Settings saved without weights; a number of steps; a name with a dot. *)
Example weights_inside :
  let d := disk_of (manager_save_training ex_root [("loss_module", None)] (ex_manager 1) ex_d0) ex_d0 in
  snd (manager_save_training ex_root [("loss_module", None)] (ex_manager 1) ex_d0) = None /\
  snd (manager_save_weights ex_first ex_root (ex_args false (Some 5)) (ex_manager 1) d) = Some IOError /\
  M_Checkpoint.load_weights (disk_of (manager_save_weights ex_first ex_root (ex_args false (Some 5)) (ex_manager 1) d) d (ex_root ++ ["models_0000"])) None = Ok (1, 1).
Proof. vm_compute. auto. Qed.

Definition ex_dotted (v : nat) : manager nat := within nat "models_0000" "cascade.v1" 1 v 1.

Theorem C175_saved_loaded_refuted : exists root m m' d d' a t, Keys m /\ Alike m m' /\
  d = play (fst (manager_save (V := nat) ex_first root a None m ex_d0)) ex_d0 /\ snd (manager_save ex_first root a None m ex_d0) = None /\
  manager_save_weights ex_first root a m' d = (t, None) /\ d' = play t d /\
  manager_load root None m' d' = Ok m /\ m <> m'.
Proof.
  exists ex_root, (ex_dotted 1), (ex_dotted 2). do 2 eexists. exists (ex_args false None). eexists. split.
  { split; [repeat constructor; intros []|]. intros n c [E|[]]. injection E as <- <-. constructor; [repeat constructor; intros []|]. intros n c [E|[]]. injection E as <- <-. constructor. }
  split; [repeat (constructor; try reflexivity)|]. split; [reflexivity|]. split; [vm_compute; reflexivity|]. split; [vm_compute; reflexivity|]. split; [reflexivity|]. split; [vm_compute; reflexivity|discriminate].
Qed.

(** A model with another one inside: saved when new, refused when loaded. *)
Definition ex_inner : module := Module [{| v_id := 2; v_name := "weights:0" |}] {| v_id := 3; v_name := "step:0" |} [].
Definition ex_outer : module := Module [{| v_id := 0; v_name := "weights:0" |}] {| v_id := 1; v_name := "step:0" |} [("decoder", Some ex_inner); ("scaler", None)].

Theorem C176_saved_again_refuted : exists m, unchanged false m = true /\ unchanged true m = false.
Proof. exists ex_outer. vm_compute. auto. Qed.

Example weights_shared : unchanged false (Module [{| v_id := 2; v_name := "weights:0" |}] {| v_id := 1; v_name := "step:0" |} [("decoder", Some ex_inner)]) = false /\
  unchanged true ex_inner = true.
Proof. vm_compute. auto. Qed.
Print Assumptions C171_each.
Print Assumptions C171_number.
Print Assumptions C171_latest.
Print Assumptions C171_next.
Print Assumptions C172_stopped.
Print Assumptions C172_raised.
Print Assumptions C172_crash_points.
Print Assumptions C172_mixed.
Print Assumptions C172_apart.
Print Assumptions C172_numbers.
Print Assumptions C172_newest.
Print Assumptions C173_parts.
Print Assumptions C173_counters.
Print Assumptions C173_half_loaded.
Print Assumptions C174_counted.
Print Assumptions C174_counted_multi.
Print Assumptions C174_lost.
Print Assumptions C174_resumed.
Print Assumptions C175_steps.
Print Assumptions C175_no_steps.
Print Assumptions C175_inside.
Print Assumptions C175_inside_raises.
Print Assumptions C175_extension.
Print Assumptions C175_extension_steps.
Print Assumptions C175_extension_old.
Print Assumptions C176_configured.
Print Assumptions C176_loaded.
Print Assumptions C172_one_save_refuted.
Print Assumptions C173_atomic_refuted.
Print Assumptions C174_step_refuted.
Print Assumptions C175_saved_loaded_refuted.
Print Assumptions C176_saved_again_refuted.
