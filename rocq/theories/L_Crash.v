(** Lemmas for interrupted saves. *)
From Verif Require Import Py M_Checkpoint S_Checkpoint L_Checkpoint.

Section Crash.
Variable W : Type.
Variable df : nat -> bool.

Lemma app_cut {A} (p q a b : list A) : p ++ q = a ++ b ->
  (exists a', a = p ++ a' /\ q = a' ++ b) \/ (exists p', p = a ++ p' /\ b = p' ++ q).
Proof. clear df.
  revert a. induction p as [|x p IH]; intros a H; [left; exists a; auto|].
  destruct a as [|y a]; [right; exists (x :: p); auto|]. cbn [app] in H. injection H as -> H.
  destruct (IH a H) as [(a' & -> & ->)|(p' & -> & ->)]; [left; exists a'; auto|right; exists p'; auto].
Qed.

(** The stages at which a save can be interrupted. *)
Lemma stages (t rm p q : list (op W)) i w m :
  p ++ q = t ++ ([WriteData i w; WriteIndex i] ++ rm) ++ [TruncYaml; DumpYaml m] ->
  (exists t', t = p ++ t') \/ p = t ++ [WriteData i w] \/
  (exists r r', rm = r ++ r' /\ p = t ++ [WriteData i w; WriteIndex i] ++ r) \/
  p = t ++ [WriteData i w; WriteIndex i] ++ rm ++ [TruncYaml] \/
  q = [] /\ p = t ++ [WriteData i w; WriteIndex i] ++ rm ++ [TruncYaml; DumpYaml m].
Proof. clear df.
  intros H. apply app_cut in H. destruct H as [(t' & -> & _)|(p1 & -> & H)]; [left; exists t'; reflexivity|].
  rewrite <- app_assoc in H. symmetry in H. apply app_cut in H. destruct H as [(a & Ha & Hb)|(p2 & -> & H)].
  - destruct p1 as [|x p1]; [left; exists []; rewrite !app_nil_r; reflexivity|]. cbn in Ha. injection Ha as <- Ha.
    destruct p1 as [|y p1]; [right; left; reflexivity|]. cbn in Ha. injection Ha as <- Ha. destruct p1; [|discriminate].
    right. right. left. exists [], rm. split; [reflexivity|]. reflexivity.
  - symmetry in H. apply app_cut in H. destruct H as [(a & Ha & Hb)|(p3 & -> & H)].
    + right. right. left. exists p2, a. split; [exact Ha|]. reflexivity.
    + destruct p3 as [|x p3]; [right; right; left; exists rm, []; rewrite !app_nil_r; auto|]. cbn in H. injection H as <- H.
      destruct p3 as [|y p3]; [right; right; right; left; reflexivity|]. cbn in H. injection H as <- H.
      destruct p3; [|discriminate]. cbn in H. subst q. right. right. right. right. auto.
Qed.

Lemma forall_app_l {A} (P : A -> Prop) a b : Forall P (a ++ b) -> Forall P a.
Proof. clear df. intros H. apply Forall_app in H. apply H. Qed.

(** Before the index file is written nothing visible has changed. *)
Lemma inv_early h d l t p e i : Inv W h d l -> i = S (length h) -> Forall (fun o => training_op W o = true) t ->
  (exists t', t = p ++ t') \/ p = t ++ [WriteData i (e_w e)] -> Inv W h (run p d) l.
Proof. clear df.
  intros HI -> HT [(t' & ->)| ->].
  - eapply inv_same; [apply run_training; eapply forall_app_l; exact HT|exact HI].
  - rewrite run_app. pose proof (inv_same W h d _ l (run_training W t d HT) HI) as [A B C D E].
    pose proof (kept_range W h l A) as [_ HR]. rewrite Forall_forall in HR.
    split; cbn [run fold_left apply d_yaml d_index d_data]; fold (run t d); [exact A|exact B| |exact D|].
    + intros n Hn. destruct (Nat.eqb_spec n (S (length h))) as [->|_]; [|apply C; exact Hn].
      apply in_app_iff in Hn. destruct Hn as [Hn|Hn]; [apply HR in Hn|apply prots_range in Hn]; lia.
    + intros n Hn Hne. destruct (Nat.eqb_spec n (S (length h))) as [->|_]; [contradiction|]. apply E; assumption.
Qed.

Lemma load_early h d l t p e i n : Inv W h d l -> i = S (length h) -> Forall (fun o => training_op W o = true) t ->
  (exists t', t = p ++ t') \/ p = t ++ [WriteData i (e_w e)] -> load_weights (run p d) n = load_weights d n.
Proof. clear df.
  intros HI Hi HT HP. pose proof (inv_early h d l t p e i HI Hi HT HP) as HI'.
  destruct h as [|e0 h0] eqn:Eh.
  - pose proof (i_yaml _ _ _ _ HI) as H1. pose proof (i_yaml _ _ _ _ HI') as H2. unfold load_weights. rewrite H1, H2. reflexivity.
  - assert (HS : forall k, load_weights (run p d) (Some k) = load_weights d (Some k)).
    { intros k. destruct (inv_load W _ _ _ k HI) as [A B]; [discriminate|]. destruct (inv_load W _ _ _ k HI') as [A' B']; [discriminate|].
      destruct (in_dec Nat.eq_dec k (l ++ prots W (e0 :: h0))) as [Hk|Hk].
      - destruct (A Hk) as (x & (j & -> & Hx) & -> & _). destruct (A' Hk) as (y & (j' & E & Hy) & -> & _). injection E as <-. congruence.
      - rewrite (B Hk), (B' Hk). reflexivity. }
    destruct n as [k|]; [apply HS|]. rewrite (load_none W _ _ _ HI), (load_none W _ _ _ HI'). apply HS.
Qed.

(** Directories on which every save fails. *)
Definition Stuck (d : dir W) : Prop :=
  d_yaml d = Some None \/
  exists m, (match d_yaml d with None => Some {| m_latest := 0; m_unprot := []; m_prot := [] |} | Some m => m end) = Some m /\
    d_index d (S (m_latest m)) = true.

Definition stuck_error (d : dir W) : exn :=
  match d_yaml d with Some None => TypeError | _ => IOError end.

Lemma stuck_save d k p de s w : Stuck d -> save_weights df d true k p de s w = ([], Some (stuck_error d)).
Proof.
  intros [H|(m & H & HX)]; unfold save_weights, stuck_error; cbn [negb].
  - rewrite H. reflexivity.
  - destruct (d_yaml d) as [[m'|]|]; [|discriminate|]; injection H as <-; rewrite HX; reflexivity.
Qed.

Lemma stuck_same d d' : same_ck W d d' -> Stuck d -> Stuck d' /\ stuck_error d' = stuck_error d.
Proof. clear df. intros (H1 & H2 & H3) H. unfold Stuck, stuck_error. rewrite H1, H3. split; [exact H|reflexivity]. Qed.

Lemma stuck_ops d ok e ops ex : Stuck d ->
  save df d ok (e_keep e) (e_prot e) (e_desc e) (e_training e) (e_steps e) (e_w e) = (ops, ex) ->
  Forall (fun o => training_op W o = true) ops /\ ex <> None.
Proof.
  intros HS H. unfold save in H. fold (training_part W d (e_training e)) in H. pose proof (training_part_ops W d (e_training e)) as HT.
  destruct (training_part W d (e_training e)) as [t x]. cbn [fst] in HT. destruct x as [x|]; [injection H as <- <-; split; [exact HT|discriminate]|].
  destruct (stuck_same d _ (run_training W t d HT) HS) as [HS' _]. destruct ok.
  - rewrite (stuck_save _ _ _ _ _ _ HS') in H. injection H as <- <-. rewrite app_nil_r. split; [exact HT|discriminate].
  - cbn in H. injection H as <- <-. rewrite app_nil_r. split; [exact HT|discriminate].
Qed.

Lemma stuck_later d d' : Later df d d' -> Stuck d -> same_ck W d d' /\ Stuck d'.
Proof.
  induction 1 as [|d' e ok p q ex H IH HS]; intros Hd; [split; [repeat split|exact Hd]|].
  destruct (IH Hd) as [HC HK]. destruct (stuck_ops _ _ _ _ _ HK HS) as [HT _]. apply forall_app_l in HT.
  pose proof (run_training W p d' HT) as HR. split; [|apply (stuck_same _ _ HR HK)].
  destruct HC as (A1 & A2 & A3), HR as (B1 & B2 & B3). unfold same_ck. rewrite B1, B2, B3. auto.
Qed.

(** After the index file was written, before the records are opened. *)
Definition removals (l : list nat) (h : list (entry W)) (e : entry W) (d : dir W) : list (op W) :=
  concat (map (remove_files df (run [WriteData (S (length h)) (e_w e); WriteIndex (S (length h))] d)) (removed W l h e)).

Lemma save_ops h d l e ops : Inv W h d l ->
  save df d true (e_keep e) (e_prot e) (e_desc e) (e_training e) (e_steps e) (e_w e) = (ops, None) ->
  exists t, Forall (fun o => training_op W o = true) t /\
    ops = t ++ ([WriteData (S (length h)) (e_w e); WriteIndex (S (length h))] ++ removals l h e (run t d)) ++
          [TruncYaml; DumpYaml (next_meta W l h e)].
Proof.
  intros HI HS. destruct (save_ok W df h d l e ops HI HS) as (t & HT & ->). exists t. split; [exact HT|].
  rewrite next_ops_eq. unfold removals. reflexivity.
Qed.

Lemma removals_mid h d l e t r r' : Inv W h d l -> Forall (fun o => training_op W o = true) t ->
  removals l h e (run t d) = r ++ r' ->
  let d' := run (t ++ [WriteData (S (length h)) (e_w e); WriteIndex (S (length h))] ++ r) d in
  d_yaml d' = d_yaml d /\
  (~ In (RemoveIndex (S (length h))) r -> d_index d' (S (length h)) = true) /\
  forall n, n <> S (length h) ->
    (In (RemoveIndex n) r -> d_index d' n = false) /\ (~ In (RemoveIndex n) r -> d_index d' n = d_index d n) /\
    (In (RemoveData n) r -> d_data d' n = None) /\ (~ In (RemoveData n) r -> d_data d' n = d_data d n).
Proof.
  intros HI HT HR d'. set (i := S (length h)) in *.
  assert (HRM : forall o, In o r -> exists n, removal W o n).
  { intros o Ho. assert (H : In o (removals l h e (run t d))) by (rewrite HR; apply in_or_app; left; exact Ho).
    apply removals_of in H. destruct H as (k & _ & H). exists k. exact H. }
  unfold d'. rewrite !run_app. destruct (run_removals W r (run [WriteData i (e_w e); WriteIndex i] (run t d)) HRM) as (A & _ & _ & B).
  destruct (run_training W t d HT) as (T1 & T2 & T3).
  split; [rewrite A; cbn [run fold_left apply d_yaml]; exact T1|]. split.
  - intros H. destruct (B i) as (_ & _ & B3 & _). rewrite (B3 H). cbn [run fold_left apply d_index]. rewrite Nat.eqb_refl. reflexivity.
  - intros n Hn. destruct (B n) as (B1 & B2 & B3 & B4). split; [exact B4|]. split; [|split; [exact B2|]].
    + intros H. rewrite (B3 H). cbn [run fold_left apply d_index]. fold (run t d). rewrite T3. destruct (Nat.eqb_spec n i); [contradiction|reflexivity].
    + intros H. rewrite (B1 H). cbn [run fold_left apply d_data]. fold (run t d). rewrite T2. destruct (Nat.eqb_spec n i); [contradiction|reflexivity].
Qed.

Lemma training_not t o : Forall (fun o => training_op W o = true) t -> training_op W o = false -> ~ In o t.
Proof. clear df. intros H Ho HI. rewrite Forall_forall in H. specialize (H _ HI). congruence. Qed.

(** ** Training settings *)

Definition TStuck (d : dir W) : Prop :=
  d_train d = Some None \/
  exists t, (match d_train d with None => Some {| t_latest := 0; t_steps := [] |} | Some t => t end) = Some t /\
    d_step d (S (t_latest t)) = true.

Lemma tstuck_save d cs : TStuck d -> exists ex, save_training_settings d cs = ([], Some ex) /\ (ex = IOError \/ ex = TypeError).
Proof. clear df.
  intros [H|(t & H & HX)]; unfold save_training_settings.
  - rewrite H. exists TypeError. auto.
  - rewrite H, HX. exists IOError. auto.
Qed.

Definition weights_op (o : op W) : bool := negb (training_op W o).

Lemma run_weights ops d : Forall (fun o => weights_op o = true) ops ->
  d_train (run ops d) = d_train d /\ d_step (run ops d) = d_step d.
Proof. clear df.
  intros H. revert d. induction H as [|o ops Ho H IH]; intros d; [split; reflexivity|]. cbn [run fold_left].
  destruct (IH (apply d o)) as (H1 & H2). destruct o; cbn in Ho; try discriminate; cbn in *; split; assumption.
Qed.

Lemma prune_ops d : forall ns u u' ops, prune (W := W) df d ns u = Ok (u', ops) -> Forall (fun o => weights_op o = true) ops.
Proof.
  induction ns as [|n ns IH]; intros u u' ops H; cbn [prune] in H; [injection H as _ <-; constructor|].
  destruct (nget n u) as [x|]; [|discriminate]. destruct (prune df d ns (ndel n u)) as [[a b]|] eqn:E; [|discriminate].
  injection H as _ <-. apply Forall_app. split; [|exact (IH _ _ _ E)].
  unfold remove_files. destruct (df _), (d_data d _), (d_index d _); repeat constructor.
Qed.

(** A save of weights first updates the number of steps, the rest leaves the
    training records alone. *)
Lemma save_weights_parts d ok k p de s w ops ex : save_weights (W := W) df d ok k p de s w = (ops, ex) ->
  exists a b, ops = a ++ b /\ Forall (fun o => weights_op o = true) b /\
    (a = [] \/ exists n x, s = Some n /\ update_num_training_steps d n = (a, x)).
Proof.
  unfold save_weights. destruct ok; [|cbn; intros H; injection H as <- _; exists [], []; auto]. cbn [negb].
  destruct (match d_yaml d with None => _ | Some m => m end) as [m|]; [|intros H; injection H as <- _; exists [], []; auto].
  destruct (d_index d _); [intros H; injection H as <- _; exists [], []; auto|].
  destruct (has_key _ _ || has_key _ _); [intros H; injection H as <- _; exists [], []; auto|].
  assert (HA : forall a x, (match s with None => ([], None) | Some n => update_num_training_steps d n end) = (a, x) ->
    a = [] \/ exists n y, s = Some n /\ update_num_training_steps d n = (a, y)).
  { intros a x. destruct s as [n|]; [|intros H; injection H as <- _; auto]. intros H. right. exists n, x. auto. }
  destruct (match s with None => _ | Some n => _ end) as [a x]. specialize (HA a x eq_refl).
  destruct x as [x|]; [intros H; injection H as <- _; exists a, []; rewrite app_nil_r; auto|].
  match goal with |- context [match ?z with Ok _ => _ | Err _ => _ end = _] => destruct z as [[u o2]|y] eqn:E end.
  - intros H. injection H as <- _. exists a, ([WriteData (S (m_latest m)) w; WriteIndex (S (m_latest m))] ++ o2 ++
      [TruncYaml; DumpYaml {| m_latest := S (m_latest m); m_unprot := u; m_prot := if p then nset (S (m_latest m)) (S (m_latest m), de) (m_prot m) else m_prot m |}]).
    split; [rewrite <- !app_assoc; reflexivity|]. split; [|exact HA]. apply Forall_app. split; [repeat constructor|].
    apply Forall_app. split; [|repeat constructor]. destruct p; [injection E as _ <-; constructor|].
    destruct (_ <? _)%Z; [exact (prune_ops _ _ _ _ _ E)|injection E as _ <-; constructor].
  - intros H. injection H as <- _. exists a, [WriteData (S (m_latest m)) w; WriteIndex (S (m_latest m))].
    split; [reflexivity|]. split; [repeat constructor|exact HA].
Qed.

Lemma tstuck_weights ops d : Forall (fun o => weights_op o = true) ops -> TStuck d -> TStuck (run ops d).
Proof. clear df. intros H. destruct (run_weights ops d H) as [H1 H2]. unfold TStuck. rewrite H1, H2. auto. Qed.

Lemma tstuck_update d n a x p q : update_num_training_steps (W := W) d n = (a, x) -> a = p ++ q -> TStuck d -> TStuck (run p d).
Proof. clear df.
  unfold update_num_training_steps. intros H -> HT. destruct (d_train d) as [[t|]|] eqn:E.
  - destruct (nget _ _).
    + injection H as H _. destruct p as [|o p]; [exact HT|]. cbn in H. injection H as <- H. destruct p as [|o p]; [left; reflexivity|].
      cbn in H. injection H as <- H. destruct p; [|discriminate]. destruct HT as [HT|(t' & HT & HX)]; [congruence|].
      rewrite E in HT. injection HT as <-. right. eexists. cbn. split; [reflexivity|exact HX].
    + injection H as H _. symmetry in H. apply app_eq_nil in H. destruct H as [-> ->]. exact HT.
  - injection H as H _. symmetry in H. apply app_eq_nil in H. destruct H as [-> ->]. exact HT.
  - injection H as H _. symmetry in H. apply app_eq_nil in H. destruct H as [-> ->]. exact HT.
Qed.

Lemma tstuck_later d d' : Later df d d' -> TStuck d -> TStuck d'.
Proof.
  induction 1 as [|d' e ok p q ex H IH HS]; intros Hd; [exact Hd|]. specialize (IH Hd). clear H. unfold save in HS.
  destruct (e_training e) as [cs|].
  - destruct (tstuck_save d' cs IH) as (x & E & _). rewrite E in HS. injection HS as HS _. symmetry in HS. apply app_eq_nil in HS. destruct HS as [-> _]. exact IH.
  - cbn [run fold_left] in HS. destruct (save_weights _ _ _ _ _ _ _ _) as [ops x] eqn:E. cbn [app] in HS. injection HS as HS _.
    destruct (save_weights_parts _ _ _ _ _ _ _ _ _ E) as (a & b & -> & Hb & Ha).
    symmetry in HS. apply app_cut in HS. destruct HS as [(a' & -> & _)|(p' & -> & ->)].
    + destruct Ha as [Ha|(n & y & _ & Ha)]; [apply app_eq_nil in Ha; destruct Ha as [-> _]; exact IH|].
      eapply tstuck_update; [exact Ha|reflexivity|exact IH].
    + rewrite run_app. apply tstuck_weights; [eapply forall_app_l; exact Hb|].
      destruct Ha as [->|(n & y & _ & Ha)]; [exact IH|]. eapply tstuck_update; [exact Ha|symmetry; apply app_nil_r|exact IH].
Qed.

(** Histories without failing components. *)
Definition TInv (k : nat) (d : dir W) : Prop :=
  (forall n, d_step d n = true <-> 1 <= n <= k) /\
  match d_train d with
  | None => k = 0
  | Some None => False
  | Some (Some t) => t_latest t = k /\ forall n, has_key n (t_steps t) = true <-> 1 <= n <= k
  end.

Lemma nget_nset {A} k (v : A) l n : nget n (nset k v l) = if Nat.eqb n k then Some v else nget n l.
Proof. clear df.
  unfold nget. induction l as [|[k' v'] l IH]; cbn [nset find fst].
  - rewrite (Nat.eqb_sym n k). destruct (Nat.eqb k n); reflexivity.
  - destruct (Nat.eqb_spec k' k) as [->|Hk]; cbn [find fst].
    + rewrite (Nat.eqb_sym n k). destruct (Nat.eqb_spec k n); reflexivity.
    + destruct (Nat.eqb_spec k' n) as [->|Hn]; [|exact IH]. cbn. destruct (Nat.eqb_spec n k); [congruence|reflexivity].
Qed.

Lemma has_key_nset {A} k (v : A) l n : has_key n (nset k v l) = Nat.eqb n k || has_key n l.
Proof. clear df. unfold has_key. rewrite nget_nset. destruct (Nat.eqb n k); reflexivity. Qed.

Lemma components_ok n cs : (forall c : string * option exn, In c cs -> snd c = None) ->
  save_components (W := W) n cs = (map (fun c => StepFile n (fst c)) cs, None).
Proof. clear df.
  intros H. induction cs as [|[name x] cs IH]; [reflexivity|]. cbn [save_components map fst].
  pose proof (H (name, x) (or_introl eq_refl)) as Hx. cbn in Hx. subst x.
  rewrite IH by (intros c Hc; apply H; right; exact Hc). reflexivity.
Qed.

Lemma stepfiles n names d : d_step (run (map (fun c : string * option exn => StepFile (W := W) n (fst c)) names) d) = d_step d /\
  d_train (run (map (fun c : string * option exn => StepFile (W := W) n (fst c)) names) d) = d_train d.
Proof. clear df. revert d. induction names as [|c names IH]; intros d; [split; reflexivity|]. apply (IH d). Qed.

Lemma tinv_training k d cs : TInv k d -> (forall c, In c cs -> snd c = None) ->
  exists ops, save_training_settings (W := W) d cs = (ops, None) /\ TInv (S k) (run ops d).
Proof. clear df.
  intros [HS HT] HC. unfold save_training_settings.
  assert (HM : exists t, (match d_train d with None => Some {| t_latest := 0; t_steps := [] |} | Some t => t end) = Some t /\ t_latest t = k /\
    forall n, has_key n (t_steps t) = true <-> 1 <= n <= k).
  { destruct (d_train d) as [[t|]|]; [exists t; tauto|destruct HT|]. subst k. eexists. split; [reflexivity|]. cbn. split; [reflexivity|].
    intros n. split; [discriminate|lia]. }
  destruct HM as (t & -> & Hl & Hk). rewrite Hl.
  assert (E1 : d_step d (S k) = false) by (destruct (d_step d (S k)) eqn:E; [apply HS in E; lia|reflexivity]).
  assert (E2 : has_key (S k) (t_steps t) = false) by (destruct (has_key (S k) (t_steps t)) eqn:E; [apply Hk in E; lia|reflexivity]).
  rewrite E1, E2, (components_ok _ _ HC). eexists. split; [reflexivity|].
  cbn [app]. set (m := map _ cs). change (run (MakeStep (S k) :: StepFile (S k) "training_config.yaml" :: m ++ [TruncTrain; DumpTrain {| t_latest := S k; t_steps := nset (S k) 0 (t_steps t) |}]) d)
    with (run (m ++ [TruncTrain; DumpTrain {| t_latest := S k; t_steps := nset (S k) 0 (t_steps t) |}]) (apply d (MakeStep (S k)))).
  rewrite run_app. destruct (stepfiles (S k) cs (apply d (MakeStep (S k)))) as [A B]. fold m in A, B. split.
  - intros n. change (d_step (run m (apply d (MakeStep (S k)))) n = true <-> 1 <= n <= S k). rewrite A. cbn [apply d_step].
    destruct (Nat.eqb_spec n (S k)) as [->|Hn]; [split; intros; [lia|reflexivity]|]. rewrite HS. lia.
  - cbn [run fold_left apply d_train]. split; [reflexivity|]. cbn [t_steps]. intros n. rewrite has_key_nset, orb_true_iff, Hk, Nat.eqb_eq. lia.
Qed.

Lemma tinv_weights k d ok kp p de s w ops ex : TInv k d -> save_weights (W := W) df d ok kp p de s w = (ops, ex) -> TInv k (run ops d).
Proof.
  intros HI H. destruct (save_weights_parts _ _ _ _ _ _ _ _ _ H) as (a & b & -> & Hb & Ha). rewrite run_app.
  destruct (run_weights b (run a d) Hb) as [E1 E2]. unfold TInv. rewrite E1, E2. clear E1 E2.
  destruct Ha as [->|(n & y & _ & Ha)]; [exact HI|]. unfold update_num_training_steps in Ha. destruct HI as [HS HT].
  destruct (d_train d) as [[t|]|] eqn:E; [|destruct HT|].
  - destruct HT as [Hl Hk]. destruct (nget (t_latest t) (t_steps t)) eqn:EN; injection Ha as <- _.
    + cbn. split; [exact HS|]. split; [exact Hl|]. intros j. rewrite has_key_nset, orb_true_iff, Hk, Nat.eqb_eq.
      assert (HX : has_key (t_latest t) (t_steps t) = true) by (unfold has_key; rewrite EN; reflexivity). apply Hk in HX. lia.
    + cbn. rewrite E. auto.
  - injection Ha as <- _. cbn. rewrite E. auto.
Qed.

Lemma thist_inv k d : THist df k d -> TInv k d.
Proof.
  induction 1 as [|k d e ok ops ex cs H IH ET HC HS|k d e ok ops ex H IH ET HS].
  - split; [|reflexivity]. intros n. split; [discriminate|lia].
  - unfold save in HS. rewrite ET in HS. destruct (tinv_training k d cs IH HC) as (o1 & E & HT). rewrite E in HS.
    destruct (save_weights _ _ _ _ _ _ _ _) as [o2 x] eqn:EW. injection HS as <- _. rewrite run_app. eapply tinv_weights; [exact HT|exact EW].
  - unfold save in HS. rewrite ET in HS. cbn [run fold_left] in HS. destruct (save_weights _ _ _ _ _ _ _ _) as [o2 x] eqn:EW. injection HS as <- _.
    eapply tinv_weights; [exact IH|exact EW].
Qed.

End Crash.
