(** Lemmas for checkpoints. *)
From Coq Require Import Sorting.Sorted.
From Verif Require Import Py M_Checkpoint S_Checkpoint.

(** ** Dictionaries and sorting *)

Lemma filter_length_le {A} (f : A -> bool) l : length (filter f l) <= length l.
Proof. induction l as [|x l IH]; cbn; [lia|]. destruct (f x); cbn; lia. Qed.

Definition Asc := StronglySorted lt.

Lemma nsort_asc l : Asc l -> nsort l = l.
Proof.
  induction 1 as [|x l H IH HF]; [reflexivity|]. unfold nsort in *. cbn [fold_right]. rewrite IH.
  destruct l as [|y l]; [reflexivity|]. cbn [insert]. inversion HF; subst.
  destruct (Nat.leb_spec x y); [reflexivity|lia].
Qed.

Lemma asc_snoc l x : Asc l -> Forall (fun y => y < x) l -> Asc (l ++ [x]).
Proof.
  induction 1 as [|y l H IH HF]; intros HX; [repeat constructor|]. inversion HX; subst. cbn [app]. constructor; [apply IH; assumption|].
  apply Forall_app. split; [exact HF|]. repeat constructor. assumption.
Qed.

Lemma asc_skipn l n : Asc l -> Asc (skipn n l).
Proof. revert l. induction n; intros l H; [exact H|]. destruct l; [exact H|]. inversion H; subst. apply IHn. assumption. Qed.

Lemma asc_nodup l : Asc l -> NoDup l.
Proof.
  induction 1 as [|x l H IH HF]; constructor; [|assumption]. intros HI. rewrite Forall_forall in HF. specialize (HF _ HI). lia.
Qed.

(** In an ascending list the last [k] elements are those with fewer than [k]
    greater ones. *)
Lemma skipn_greater l k x : Asc l ->
  (In x (skipn (length l - k) l) <-> In x l /\ length (filter (fun y => Nat.ltb x y) l) < k).
Proof.
  induction 1 as [|a l H IH HF]; [simpl; split; [tauto|tauto]|].
  destruct (Nat.lt_ge_cases (length l) k) as [Hk|Hk].
  - replace (length (a :: l) - k) with 0 by (cbn [length]; lia). cbn [skipn]. split; [|tauto]. intros Hx. split; [exact Hx|].
    pose proof (filter_length_le (fun y => Nat.ltb x y) (a :: l)) as HL.
    assert (HC : length (filter (fun y => Nat.ltb x y) (a :: l)) <= length l).
    { cbn [filter]. destruct Hx as [<-|Hx]; [rewrite Nat.ltb_irrefl; apply filter_length_le|].
      rewrite Forall_forall in HF. specialize (HF _ Hx). destruct (Nat.ltb_spec x a); [lia|]. apply filter_length_le. }
    lia.
  - replace (length (a :: l) - k) with (S (length l - k)) by (cbn [length]; lia). cbn [skipn]. rewrite IH. cbn [filter In]. split.
    + intros [Hx HC]. split; [right; exact Hx|]. rewrite Forall_forall in HF. specialize (HF _ Hx). destruct (Nat.ltb_spec x a); [lia|exact HC].
    + intros [[<-|Hx] HC].
      * exfalso. rewrite Nat.ltb_irrefl in HC. assert (HA : filter (fun y => Nat.ltb a y) l = l).
        { clear - HF. induction HF as [|y l Hy HF IH]; [reflexivity|]. cbn [filter]. apply Nat.ltb_lt in Hy. rewrite Hy, IH. reflexivity. }
        rewrite HA in HC. lia.
      * split; [exact Hx|]. rewrite Forall_forall in HF. specialize (HF _ Hx). destruct (Nat.ltb_spec x a); [lia|exact HC].
Qed.

(** Records with increasing keys whose file name is the key. *)
Definition rec_of (f : nat -> option string) (l : list nat) : list (nat * info) := map (fun n => (n, (n, f n))) l.

Lemma nkeys_rec f l : nkeys (rec_of f l) = l.
Proof. unfold nkeys, rec_of. rewrite map_map. cbn. apply map_id. Qed.

Lemma nget_rec f l n : nget n (rec_of f l) = if existsb (Nat.eqb n) l then Some (n, f n) else None.
Proof.
  unfold nget, rec_of. induction l as [|x l IH]; [reflexivity|]. cbn [map find existsb fst].
  rewrite (Nat.eqb_sym n x). destruct (Nat.eqb_spec x n) as [->|]; [reflexivity|]. cbn [orb]. exact IH.
Qed.

Lemma existsb_in n l : existsb (Nat.eqb n) l = true <-> In n l.
Proof.
  rewrite existsb_exists. split; [intros (x & Hx & E); apply Nat.eqb_eq in E; subst; exact Hx|intros H; exists n; split; [exact H|apply Nat.eqb_refl]].
Qed.

Lemma nset_rec f l n v : ~ In n l -> nset n v (rec_of f l) = rec_of f l ++ [(n, v)].
Proof.
  intros H. induction l as [|x l IH]; [reflexivity|]. cbn [rec_of map nset app]. destruct (Nat.eqb_spec x n) as [->|]; [destruct H; left; reflexivity|].
  f_equal. apply IH. intros HI. apply H. right. exact HI.
Qed.

Lemma ndel_rec f l n : ndel n (rec_of f l) = rec_of f (filter (fun k => negb (Nat.eqb k n)) l).
Proof.
  unfold ndel, rec_of. induction l as [|x l IH]; [reflexivity|]. cbn [map filter fst]. destruct (Nat.eqb x n); cbn [negb map]; rewrite IH; reflexivity.
Qed.

Lemma rec_of_ext f g l : (forall n, In n l -> f n = g n) -> rec_of f l = rec_of g l.
Proof. intros H. apply map_ext_in. intros n Hn. rewrite (H n Hn). reflexivity. Qed.

Lemma rec_of_app f l l' : rec_of f (l ++ l') = rec_of f l ++ rec_of f l'.
Proof. apply map_app. Qed.

Section Lemmas.
Variable W : Type.
Variable df : nat -> bool.

(** ** Running operations *)

Lemma run_app (a b : list (op W)) d : run (a ++ b) d = run b (run a d).
Proof. clear df. apply fold_left_app. Qed.

Lemma prune_rec f d : forall ns l, NoDup ns -> incl ns l ->
  prune (W := W) df d ns (rec_of f l) =
  Ok (rec_of f (filter (fun k => negb (existsb (Nat.eqb k) ns)) l), concat (map (remove_files df d) ns)).
Proof.
  induction ns as [|n ns IH]; intros l HN HI; cbn [prune].
  - cbn [map concat existsb negb]. f_equal. f_equal. f_equal. clear. induction l as [|x l IH]; [reflexivity|]. cbn [filter]. rewrite <- IH. reflexivity.
  - rewrite nget_rec. assert (E : existsb (Nat.eqb n) l = true) by (apply existsb_in; apply HI; left; reflexivity). rewrite E.
    inversion HN as [|? ? Hn HN']; subst. rewrite ndel_rec, IH.
    + cbn [fst map concat]. f_equal. f_equal. f_equal. clear. induction l as [|x l IH]; [reflexivity|]. cbn [filter existsb].
      destruct (Nat.eqb x n); cbn [negb orb filter]; [exact IH|]. destruct (existsb (Nat.eqb x) ns); cbn [negb]; rewrite IH; reflexivity.
    + exact HN'.
    + intros k Hk. apply filter_In. split; [apply HI; right; exact Hk|]. destruct (Nat.eqb_spec k n) as [->|]; [contradiction|reflexivity].
Qed.

(** Effect of operations which only remove files. *)
Inductive removal : op W -> nat -> Prop :=
  | rm_d n : removal (RemoveData n) n
  | rm_i n : removal (RemoveIndex n) n.

Lemma removals_of d ns o : In o (concat (map (remove_files (W := W) df d) ns)) -> exists n, In n ns /\ removal o n.
Proof.
  intros H. apply in_concat in H. destruct H as (l & Hl & Ho). apply in_map_iff in Hl. destruct Hl as (n & <- & Hn). exists n. split; [exact Hn|].
  unfold remove_files in Ho. destruct (df n), (d_data d n), (d_index d n); cbn in Ho; intuition (subst; constructor).
Qed.

Lemma run_removals ops d : (forall o, In o ops -> exists n, removal o n) ->
  d_yaml (run ops d) = d_yaml d /\ d_train (run ops d) = d_train d /\
  (forall k, d_step (run ops d) k = d_step d k) /\
  forall k, (~ In (RemoveData k) ops -> d_data (run ops d) k = d_data d k) /\
            (In (RemoveData k) ops -> d_data (run ops d) k = None) /\
            (~ In (RemoveIndex k) ops -> d_index (run ops d) k = d_index d k) /\
            (In (RemoveIndex k) ops -> d_index (run ops d) k = false).
Proof. clear df.
  revert d. induction ops as [|o ops IH] using rev_ind; intros d H; [cbn; intuition|].
  destruct (IH d) as (H1 & H2 & H3 & H4); [intros o' Ho; apply H; apply in_or_app; left; exact Ho|].
  rewrite run_app. cbn [run fold_left]. fold (run (W := W) ops d).
  destruct (H o) as (n & Hr); [apply in_or_app; right; left; reflexivity|].
  destruct Hr as [n|n]; cbn [apply d_yaml d_train d_data d_index d_step]; (split; [exact H1|split; [exact H2|split; [exact H3|]]]); intros k;
    destruct (H4 k) as (A1 & A2 & A3 & A4); rewrite !in_app_iff; cbn [In]; destruct (Nat.eqb_spec k n) as [->|Hn].
  - split; [tauto|]. split; [reflexivity|]. split; intros; [apply A3; tauto|apply A4]. destruct H0 as [H0|[H0|[]]]; [exact H0|discriminate].
  - split; [intros; apply A1; tauto|]. split; [intros [H0|[H0|[]]]; [apply A2; exact H0|congruence]|]. split; [intros; apply A3; tauto|].
    intros [H0|[H0|[]]]; [apply A4; exact H0|discriminate].
  - split; [intros; apply A1; tauto|]. split; [intros [H0|[H0|[]]]; [apply A2; exact H0|discriminate]|]. split; [tauto|]. reflexivity.
  - split; [intros; apply A1; tauto|]. split; [intros [H0|[H0|[]]]; [apply A2; exact H0|discriminate]|]. split; [intros; apply A3; tauto|].
    intros [H0|[H0|[]]]; [apply A4; exact H0|congruence].
Qed.

Lemma in_remove_files d n k : d_index d n = true -> d_data d n <> None ->
  (In (RemoveData k) (remove_files (W := W) df d n) <-> k = n) /\ (In (RemoveIndex k) (remove_files (W := W) df d n) <-> k = n).
Proof.
  intros H1 H2. unfold remove_files. rewrite H1. destruct (d_data d n); [|congruence].
  destruct (df n); cbn; split; split; intros H; try (subst; tauto); intuition congruence.
Qed.

(** ** Training records do not touch checkpoints *)

Definition same_ck (d d' : dir W) : Prop := d_yaml d' = d_yaml d /\ d_data d' = d_data d /\ d_index d' = d_index d.

Definition training_op (o : op W) : bool :=
  match o with TruncTrain => true | DumpTrain _ => true | MakeStep _ => true | StepFile _ _ => true | _ => false end.

Lemma run_training ops d : Forall (fun o => training_op o = true) ops -> same_ck d (run ops d).
Proof. clear df.
  intros H. revert d. induction H as [|o ops Ho H IH]; intros d; [repeat split|]. cbn [run fold_left].
  destruct (IH (apply d o)) as (H1 & H2 & H3). destruct o; cbn in Ho; try discriminate; cbn in *; repeat split; assumption.
Qed.

Lemma save_components_ops n cs : Forall (fun o => training_op o = true) (fst (save_components (W := W) n cs)).
Proof. clear df.
  induction cs as [|[name e] cs IH]; [constructor|]. cbn [save_components]. destruct e; [repeat constructor|].
  destruct (save_components n cs) as [ops e']. cbn [fst] in *. constructor; [reflexivity|exact IH].
Qed.

Lemma save_training_ops d cs : Forall (fun o => training_op o = true) (fst (save_training_settings (W := W) d cs)).
Proof. clear df.
  unfold save_training_settings. destruct (match d_train d with None => _ | Some t => t end) as [t|]; [|constructor].
  destruct (d_step d _); [constructor|]. destruct (has_key _ _); [repeat constructor|].
  pose proof (save_components_ops (S (t_latest t)) cs) as H. destruct (save_components _ cs) as [ops e]. cbn [fst] in H.
  destruct e; cbn [fst]; (constructor; [reflexivity|constructor; [reflexivity|]]); [exact H|].
  apply Forall_app. split; [exact H|]. repeat constructor.
Qed.

Lemma update_steps_ops d s : Forall (fun o => training_op o = true) (fst (update_num_training_steps (W := W) d s)).
Proof. clear df.
  unfold update_num_training_steps. destruct (d_train d) as [[t|]|]; try constructor. destruct (nget _ _); repeat constructor.
Qed.

(** ** Invariant *)

Definition desc_of (h : list (entry W)) (n : nat) : option string :=
  match n with O => None | S k => match nth_error h k with Some e => e_desc e | None => None end end.

(** Numbers kept in the unprotected records. *)
Definition cut (k : Z) (l : list nat) : list nat :=
  if (k <? Z.of_nat (length l))%Z then skipn (length (drop_last k l)) l else l.

Inductive Kept : list (entry W) -> list nat -> Prop :=
  | k_nil : Kept [] []
  | k_prot h l e : Kept h l -> e_prot e = true -> Kept (h ++ [e]) l
  | k_unprot h l e : Kept h l -> e_prot e = false -> Kept (h ++ [e]) (cut (e_keep e) (l ++ [S (length h)])).

(** Numbers of protected checkpoints. *)
Definition prots (h : list (entry W)) : list nat :=
  filter (fun n => match n with O => false | S k => match nth_error h k with Some e => e_prot e | None => false end end)
         (seq 1 (length h)).

Definition weight (h : list (entry W)) (n : nat) : option W :=
  match n with O => None | S k => match nth_error h k with Some e => Some (e_w e) | None => None end end.

Record Inv (h : list (entry W)) (d : dir W) (l : list nat) : Prop := {
  i_kept : Kept h l;
  i_yaml : d_yaml d = match h with [] => None | _ => Some (Some {| m_latest := length h;
             m_unprot := rec_of (desc_of h) l; m_prot := rec_of (desc_of h) (prots h) |}) end;
  i_stored : forall n, In n (l ++ prots h) -> d_index d n = true /\ d_data d n = weight h n /\ d_data d n <> None;
  i_index : forall n, ~ In n (l ++ prots h) -> d_index d n = false;
  i_data : forall n, ~ In n (l ++ prots h) -> n <> S (length h) -> d_data d n = None
}.

Lemma drop_last_prefix {A} k (l : list A) : (k < Z.of_nat (length l))%Z -> drop_last k l = firstn (length (drop_last k l)) l.
Proof. clear df.
  intros H. unfold drop_last. destruct (k <? 0)%Z; [rewrite firstn_length; destruct (Nat.min_spec (Z.to_nat (- k)) (length l)) as [[_ ->]|[Hl ->]]; [reflexivity|rewrite !firstn_all2; auto]|].
  destruct (k =? 0)%Z; [reflexivity|]. rewrite firstn_length, Nat.min_l by lia. reflexivity.
Qed.

Lemma cut_incl k l : incl (cut k l) l.
Proof. clear df.
  unfold cut. destruct (_ <? _)%Z; [|apply incl_refl]. intros x Hx.
  rewrite <- (firstn_skipn (length (drop_last k l)) l). apply in_or_app. right. exact Hx.
Qed.

Lemma kept_range h l : Kept h l -> Asc l /\ Forall (fun n => 1 <= n <= length h /\ unprotected h n = true) l.
Proof. clear df.
  induction 1 as [|h l e H [IH1 IH2] He|h l e H [IH1 IH2] He]; [split; constructor| |].
  - split; [exact IH1|]. eapply Forall_impl; [|exact IH2]. cbn. intros n [Hn Hu]. rewrite app_length. split; [cbn; lia|].
    destruct n; [lia|]. cbn [unprotected] in *. rewrite nth_error_app1 by lia. exact Hu.
  - assert (HA : Asc (l ++ [S (length h)])).
    { apply asc_snoc; [exact IH1|]. eapply Forall_impl; [|exact IH2]. cbn. intros n [Hn _]. lia. }
    assert (HF : Forall (fun n => 1 <= n <= length (h ++ [e]) /\ unprotected (h ++ [e]) n = true) (l ++ [S (length h)])).
    { apply Forall_app. rewrite app_length. split.
      - eapply Forall_impl; [|exact IH2]. cbn. intros n [Hn Hu]. split; [lia|]. destruct n; [lia|]. cbn [unprotected] in *.
        rewrite nth_error_app1 by lia. exact Hu.
      - constructor; [|constructor]. cbn [length]. split; [lia|]. cbn [unprotected]. rewrite nth_error_app2, Nat.sub_diag by lia. cbn. rewrite He. reflexivity. }
    split.
    + unfold cut. destruct (_ <? _)%Z; [apply asc_skipn|]; exact HA.
    + rewrite Forall_forall in *. intros n Hn. apply HF. apply (cut_incl _ _ _ Hn).
Qed.

Lemma kept_unique h l l' : Kept h l -> Kept h l' -> l = l'.
Proof. clear df.
  intros H. revert l'. induction H as [|h l e H IH He|h l e H IH He]; intros l' H'.
  - inversion H'; [reflexivity| |]; destruct h; discriminate.
  - inversion H' as [|h0 l0 e0 H0 He0 E|h0 l0 e0 H0 He0 E]; [destruct h; discriminate| |];
      apply app_inj_tail in E; destruct E as [-> ->]; [apply IH; exact H0|congruence].
  - inversion H' as [|h0 l0 e0 H0 He0 E|h0 l0 e0 H0 He0 E]; [destruct h; discriminate| |];
      apply app_inj_tail in E; destruct E as [-> ->]; [congruence|]. rewrite (IH _ H0). reflexivity.
Qed.

Lemma prots_spec h n : In n (prots h) <-> exists e, number h n e /\ e_prot e = true.
Proof. clear df.
  unfold prots, number. rewrite filter_In, in_seq. split.
  - intros [Hn H]. destruct n; [discriminate|]. destruct (nth_error h n) as [e|] eqn:E; [|discriminate]. exists e. split; [exists n; auto|exact H].
  - intros (e & (k & -> & Hk) & He). rewrite Hk. split; [|exact He]. assert (k < length h) by (apply nth_error_Some; congruence). lia.
Qed.

Lemma prots_snoc h e : prots (h ++ [e]) = prots h ++ (if e_prot e then [S (length h)] else []).
Proof. clear df.
  unfold prots. rewrite app_length. cbn [length]. replace (length h + 1) with (S (length h)) by lia. rewrite seq_S, filter_app. f_equal.
  - apply filter_ext_in. intros n Hn. apply in_seq in Hn. destruct n; [reflexivity|]. rewrite nth_error_app1 by lia. reflexivity.
  - cbn [filter Nat.add]. rewrite nth_error_app2, Nat.sub_diag by lia. cbn. destruct (e_prot e); reflexivity.
Qed.

Lemma unprot_not_prot h n : unprotected h n = true -> ~ In n (prots h).
Proof. clear df.
  intros H HI. apply prots_spec in HI. destruct HI as (e & (k & -> & Hk) & He). cbn in H. rewrite Hk, He in H. discriminate.
Qed.

Lemma prots_range h n : In n (prots h) -> 1 <= n <= length h.
Proof. clear df. unfold prots. rewrite filter_In, in_seq. lia. Qed.

(** What a save of weights does on a directory satisfying the invariant. *)
Definition next_ops (d : dir W) (l : list nat) (h : list (entry W)) (e : entry W) : list (op W) :=
  let i := S (length h) in
  [WriteData i (e_w e); WriteIndex i] ++
  (if e_prot e then [] else
     let old := l ++ [i] in
     if (e_keep e <? Z.of_nat (length old))%Z
     then concat (map (remove_files df (run [WriteData i (e_w e); WriteIndex i] d)) (drop_last (e_keep e) old))
     else []).

Definition next_meta (l : list nat) (h : list (entry W)) (e : entry W) : meta :=
  {| m_latest := S (length h);
     m_unprot := rec_of (desc_of (h ++ [e])) (if e_prot e then l else cut (e_keep e) (l ++ [S (length h)]));
     m_prot := rec_of (desc_of (h ++ [e])) (prots (h ++ [e])) |}.

Lemma desc_snoc h e n : n <= length h -> desc_of (h ++ [e]) n = desc_of h n.
Proof. clear df. intros H. destruct n; [reflexivity|]. cbn [desc_of]. rewrite nth_error_app1 by lia. reflexivity. Qed.

Lemma desc_last h e : desc_of (h ++ [e]) (S (length h)) = e_desc e.
Proof. clear df. cbn [desc_of]. rewrite nth_error_app2, Nat.sub_diag by lia. reflexivity. Qed.

Lemma has_key_rec f l n : has_key n (rec_of f l) = existsb (Nat.eqb n) l.
Proof. clear df. unfold has_key. rewrite nget_rec. destruct (existsb _ l); reflexivity. Qed.

Lemma filter_not_firstn l n : NoDup l -> filter (fun k => negb (existsb (Nat.eqb k) (firstn n l))) l = skipn n l.
Proof. clear df.
  revert n. induction l as [|x l IH]; intros n HN; [destruct n; reflexivity|]. inversion HN as [|? ? Hx HN']; subst. destruct n as [|n].
  - cbn [firstn existsb negb skipn]. clear. induction (x :: l) as [|y m IHm]; [reflexivity|]. cbn [filter]. rewrite IHm. reflexivity.
  - cbn [firstn skipn filter existsb]. rewrite Nat.eqb_refl. cbn [orb negb]. rewrite <- (IH n HN').
    apply filter_ext_in. intros k Hk. destruct (Nat.eqb_spec k x) as [->|]; [contradiction|]. reflexivity.
Qed.

Lemma save_weights_inv h d l e : Inv h d l ->
  (exists ops ex, save_weights df d true (e_keep e) (e_prot e) (e_desc e) (e_steps e) (e_w e) = (ops, Some ex) /\
     exists s, e_steps e = Some s /\ update_num_training_steps d s = (ops, Some ex)) \/
  exists ops0, (ops0, None) = (match e_steps e with None => ([], None) | Some s => update_num_training_steps d s end) /\
    save_weights df d true (e_keep e) (e_prot e) (e_desc e) (e_steps e) (e_w e) =
    (ops0 ++ next_ops (run ops0 d) l h e ++ [TruncYaml; DumpYaml (next_meta l h e)], None).
Proof.
  intros [IK IY IS IA IB]. pose proof (kept_range h l IK) as [HA HR]. rewrite Forall_forall in HR. unfold save_weights. cbn [negb].
  set (i := S (length h)).
  assert (Hi1 : ~ In i l) by (intros H; specialize (HR _ H); unfold i in HR; lia).
  assert (Hi2 : ~ In i (prots h)) by (intros H; apply prots_range in H; unfold i in H; lia).
  assert (HM : (match d_yaml d with None => Some {| m_latest := 0; m_unprot := []; m_prot := [] |} | Some m => m end) =
    Some {| m_latest := length h; m_unprot := rec_of (desc_of h) l; m_prot := rec_of (desc_of h) (prots h) |}).
  { rewrite IY. destruct h; [|reflexivity]. inversion IK; [reflexivity| |]; destruct h; discriminate. }
  rewrite HM. cbn [m_latest m_unprot m_prot]. fold i.
  assert (HX : d_index d i = false) by (apply IA; rewrite in_app_iff; tauto). rewrite HX.
  rewrite !has_key_rec.
  assert (E1 : existsb (Nat.eqb i) l = false) by (destruct (existsb _ l) eqn:E; [apply existsb_in in E; contradiction|reflexivity]).
  assert (E2 : existsb (Nat.eqb i) (prots h) = false) by (destruct (existsb _ (prots h)) eqn:E; [apply existsb_in in E; contradiction|reflexivity]).
  rewrite E1, E2. cbn [orb].
  destruct (match e_steps e with None => ([], None) | Some s => update_num_training_steps d s end) as [ops0 ex] eqn:E0.
  destruct ex as [ex|].
  - left. exists ops0, ex. split; [reflexivity|]. destruct (e_steps e) as [s|]; [|discriminate]. exists s. auto.
  - right. exists ops0. split; [symmetry; exact E0|]. unfold next_ops, next_meta. fold i.
    assert (HT : Forall (fun o => training_op o = true) ops0).
    { destruct (e_steps e) as [s|]; [|injection E0 as <-; constructor]. pose proof (update_steps_ops d s) as H. rewrite E0 in H. exact H. }
    assert (HL : rec_of (desc_of (h ++ [e])) l = rec_of (desc_of h) l).
    { apply rec_of_ext. intros n Hn. apply desc_snoc. apply HR. exact Hn. }
    assert (HP : rec_of (desc_of (h ++ [e])) (prots h) = rec_of (desc_of h) (prots h)).
    { apply rec_of_ext. intros n Hn. apply desc_snoc. apply prots_range in Hn. lia. }
    assert (HDi : desc_of (h ++ [e]) i = e_desc e) by apply desc_last.
    assert (HN : nset (A := info) i (i, e_desc e) (rec_of (desc_of h) l) = rec_of (desc_of (h ++ [e])) (l ++ [i])).
    { rewrite nset_rec by exact Hi1. rewrite rec_of_app, HL. f_equal. cbn [rec_of map]. rewrite HDi. reflexivity. }
    rewrite prots_snoc. destruct (e_prot e).
    + rewrite nset_rec by exact Hi2. rewrite HL, rec_of_app, HP. cbn [rec_of map]. fold i. rewrite HDi, <- !app_assoc. reflexivity.
    +
      rewrite app_nil_r, HP, HN, nkeys_rec.
      assert (HA2 : Asc (l ++ [i])).
      { apply asc_snoc; [exact HA|]. apply Forall_forall. intros n Hn. specialize (HR _ Hn). unfold i. lia. }
      rewrite (nsort_asc _ HA2). unfold cut. destruct (e_keep e <? Z.of_nat (length (l ++ [i])))%Z eqn:EK.
      * apply Z.ltb_lt in EK. pose proof (drop_last_prefix (e_keep e) (l ++ [i]) EK) as HD.
        assert (HF : filter (fun k => negb (existsb (Nat.eqb k) (drop_last (e_keep e) (l ++ [i])))) (l ++ [i]) =
          skipn (length (drop_last (e_keep e) (l ++ [i]))) (l ++ [i])).
        { rewrite <- filter_not_firstn by (apply asc_nodup; exact HA2). rewrite <- HD. reflexivity. }
        rewrite prune_rec.
        { rewrite run_app. rewrite HF. rewrite <- !app_assoc. reflexivity. }
        { rewrite HD. apply (asc_nodup _) in HA2. rewrite <- (firstn_skipn (length (drop_last (e_keep e) (l ++ [i]))) (l ++ [i])) in HA2.
          clear - HA2. induction (firstn _ _) as [|x m IH]; [constructor|]. cbn [app] in HA2. inversion HA2; subst. constructor; [|apply IH; assumption].
          intros H. apply H1. apply in_or_app. left. exact H. }
        { intros x Hx. rewrite HD in Hx. rewrite <- (firstn_skipn (length (drop_last (e_keep e) (l ++ [i]))) (l ++ [i])).
          apply in_or_app. left. exact Hx. }
      * rewrite <- !app_assoc. reflexivity.
Qed.

Lemma inv_same h d d' l : same_ck d d' -> Inv h d l -> Inv h d' l.
Proof. clear df.
  intros (H1 & H2 & H3) [A B C D E]. split; [exact A|rewrite H1; exact B| | |].
  - intros n Hn. rewrite H2, H3. apply C. exact Hn.
  - intros n Hn. rewrite H3. apply D. exact Hn.
  - intros n Hn. rewrite H2. apply E. exact Hn.
Qed.

Definition next_list (l : list nat) (h : list (entry W)) (e : entry W) : list nat :=
  if e_prot e then l else cut (e_keep e) (l ++ [S (length h)]).

(** The numbers whose files are removed. *)
Definition removed (l : list nat) (h : list (entry W)) (e : entry W) : list nat :=
  if e_prot e then [] else
  let old := l ++ [S (length h)] in
  if (e_keep e <? Z.of_nat (length old))%Z then drop_last (e_keep e) old else [].

Lemma next_ops_eq d l h e :
  next_ops d l h e = [WriteData (S (length h)) (e_w e); WriteIndex (S (length h))] ++
    concat (map (remove_files df (run [WriteData (S (length h)) (e_w e); WriteIndex (S (length h))] d)) (removed l h e)).
Proof.
  unfold next_ops, removed. cbv zeta. destruct (e_prot e); [reflexivity|]. destruct (e_keep e <? _)%Z; reflexivity.
Qed.

Lemma nodup_app_disj {A} (a b : list A) x : NoDup (a ++ b) -> In x a -> In x b -> False.
Proof. clear df.
  induction a as [|y a IH]; [intros _ []|]. cbn [app]. intros H. inversion H; subst. intros [->|Ha] Hb.
  - apply H2. apply in_or_app. right. exact Hb.
  - apply IH; assumption.
Qed.

Lemma removed_split h d l e : Inv h d l ->
  (forall n, In n (removed l h e) -> In n l \/ n = S (length h) /\ e_prot e = false) /\
  (forall n, In n (next_list l h e) <-> (In n l \/ n = S (length h) /\ e_prot e = false) /\ ~ In n (removed l h e)).
Proof. clear df.
  intros HI. pose proof (kept_range h l (i_kept _ _ _ HI)) as [HA HR]. unfold removed, next_list.
  destruct (e_prot e); [split; [intros n []|intros n; split; [intros H; split; [tauto|intros []]|intros [[H|[_ H]] _]; [exact H|discriminate]]]|].
  cbv zeta. unfold cut. set (old := l ++ [S (length h)]).
  assert (HO : forall n, In n old <-> In n l \/ n = S (length h) /\ false = false).
  { intros n. unfold old. rewrite in_app_iff. cbn. intuition. }
  assert (HN : NoDup old).
  { apply asc_nodup. apply asc_snoc; [exact HA|]. eapply Forall_impl; [|exact HR]. cbn. intros n [Hn _]. lia. }
  destruct (Z.ltb_spec (e_keep e) (Z.of_nat (length old))) as [HK|HK].
  - pose proof (drop_last_prefix _ _ HK) as HD. set (k := length (drop_last (e_keep e) old)) in *.
    assert (HS : forall n, In n old <-> In n (firstn k old) \/ In n (skipn k old)).
    { intros n. rewrite <- in_app_iff, firstn_skipn. reflexivity. }
    split.
    + intros n Hn. rewrite HD in Hn. apply HO. apply HS. left. exact Hn.
    + intros n. rewrite <- HO, HS, HD. split; [|tauto]. intros Hn. split; [right; exact Hn|]. intros Hf.
      rewrite <- (firstn_skipn k old) in HN. exact (nodup_app_disj _ _ _ HN Hf Hn).
  - split; [intros n []|]. intros n. rewrite HO. tauto.
Qed.

Lemma inv_next h d l e : Inv h d l ->
  let d' := run (next_ops d l h e ++ [TruncYaml; DumpYaml (next_meta l h e)]) d in
  Inv (h ++ [e]) d' (next_list l h e) /\ d_data d' (S (length (h ++ [e]))) = None.
Proof.
  intros HI. cbv zeta. destruct (removed_split h d l e HI) as [HR1 HR2]. destruct HI as [IK IY IS IA IB].
  pose proof (kept_range h l IK) as [HA HR]. rewrite Forall_forall in HR.
  set (i := S (length h)) in *.
  rewrite next_ops_eq, <- app_assoc, !run_app. fold i.
  set (d1 := run [WriteData i (e_w e); WriteIndex i] d).
  set (rm := concat (map (remove_files df d1) (removed l h e))).
  assert (HD1 : forall n, In n (l ++ prots h) \/ n = i -> d_index d1 n = true /\ d_data d1 n = weight (h ++ [e]) n /\ d_data d1 n <> None).
  { intros n Hn. cbn [d1 run fold_left apply d_index d_data]. destruct (Nat.eqb_spec n i) as [->|Hni].
    - split; [reflexivity|]. unfold i. cbn [weight]. rewrite nth_error_app2, Nat.sub_diag by lia. cbn. split; [reflexivity|discriminate].
    - destruct Hn as [Hn|Hn]; [|contradiction]. destruct (IS _ Hn) as (A & B & C). split; [exact A|]. split; [|exact C]. rewrite B.
      apply in_app_iff in Hn. assert (HL : 1 <= n <= length h) by (destruct Hn as [Hn|Hn]; [apply HR; exact Hn|apply prots_range; exact Hn]).
      destruct n; [lia|]. cbn [weight]. rewrite nth_error_app1 by lia. reflexivity. }
  assert (HD2 : forall n, ~ (In n (l ++ prots h) \/ n = i) -> d_index d1 n = false /\ d_data d1 n = None).
  { intros n Hn. cbn [d1 run fold_left apply d_index d_data]. destruct (Nat.eqb_spec n i) as [->|Hni]; [tauto|]. split; [apply IA; tauto|apply IB; tauto]. }
  assert (HRM : forall o, In o rm -> exists n, removal o n).
  { intros o Ho. apply removals_of in Ho. destruct Ho as (n & _ & Ho). exists n. exact Ho. }
  destruct (run_removals rm d1 HRM) as (_ & _ & _ & HX).
  assert (HC : forall n, (In (RemoveData n) rm <-> In n (removed l h e)) /\ (In (RemoveIndex n) rm <-> In n (removed l h e))).
  { intros n. assert (HS : forall k, In k (removed l h e) -> d_index d1 k = true /\ d_data d1 k <> None).
    { intros k Hk. destruct (HD1 k) as (A & _ & C); [|split; assumption]. rewrite in_app_iff. destruct (HR1 k Hk) as [|[]]; tauto. }
    split; split; intros H.
    - unfold rm in H. apply in_concat in H. destruct H as (x & Hx & Ho). apply in_map_iff in Hx. destruct Hx as (k & <- & Hk).
      destruct (HS k Hk) as [A B]. apply (in_remove_files d1 k n A B) in Ho. subst k. exact Hk.
    - unfold rm. apply in_concat. exists (remove_files df d1 n). split; [apply in_map; exact H|].
      destruct (HS n H) as [A B]. apply (in_remove_files d1 n n A B). reflexivity.
    - unfold rm in H. apply in_concat in H. destruct H as (x & Hx & Ho). apply in_map_iff in Hx. destruct Hx as (k & <- & Hk).
      destruct (HS k Hk) as [A B]. apply (in_remove_files d1 k n A B) in Ho. subst k. exact Hk.
    - unfold rm. apply in_concat. exists (remove_files df d1 n). split; [apply in_map; exact H|].
      destruct (HS n H) as [A B]. apply (in_remove_files d1 n n A B). reflexivity. }
  assert (HP : forall n, In n (removed l h e) -> ~ In n (prots (h ++ [e]))).
  { intros n Hn. rewrite prots_snoc, in_app_iff. destruct (HR1 n Hn) as [H|[-> H]].
    - destruct (HR n H) as [Hl Hu]. intros [Hp|Hp]; [exact (unprot_not_prot _ _ Hu Hp)|]. destruct (e_prot e); [|destruct Hp].
      destruct Hp as [Hp|[]]. lia.
    - rewrite H. intros [Hp|[]]. apply prots_range in Hp. unfold i in Hp. lia. }
  assert (HM : forall n, In n (next_list l h e ++ prots (h ++ [e])) <-> (In n (l ++ prots h) \/ n = i) /\ ~ In n (removed l h e)).
  { intros n. rewrite in_app_iff, HR2. split.
    - intros [[[H|[-> H]] HN]|H].
      + split; [left; apply in_or_app; left; exact H|exact HN].
      + split; [right; reflexivity|exact HN].
      + split; [|intros HN; exact (HP _ HN H)]. rewrite prots_snoc, in_app_iff in H. rewrite in_app_iff. destruct H as [H|H]; [tauto|].
        destruct (e_prot e); [|destruct H]. destruct H as [<-|[]]. right. reflexivity.
    - intros [H HN]. rewrite prots_snoc, !in_app_iff in *. destruct H as [[H|H]| ->]; [tauto|tauto|].
      destruct (e_prot e) eqn:EP; [right; right; left; reflexivity|left; split; [right; split; reflexivity|exact HN]]. }
  assert (HAB : forall n, ~ In n (next_list l h e ++ prots (h ++ [e])) ->
    Absent (run [TruncYaml; DumpYaml (next_meta l h e)] (run rm d1)) n).
  { intros n Hn. rewrite HM in Hn. unfold Absent. cbn [run fold_left apply d_index d_data]. fold (run rm d1).
    destruct (HX n) as (A1 & A2 & A3 & A4). destruct (in_dec Nat.eq_dec n (removed l h e)) as [HN|HN].
    + rewrite A2, A4 by (apply HC; exact HN). split; reflexivity.
    + rewrite A1, A3 by (rewrite (proj1 (HC n)) || rewrite (proj2 (HC n)); exact HN). apply HD2. tauto. }
  split.
  { split.
  - unfold next_list. destruct (e_prot e) eqn:EP; [apply k_prot; assumption|apply k_unprot; assumption].
  - cbn [run fold_left apply d_yaml]. destruct (h ++ [e]) eqn:E; [destruct h; discriminate|]. rewrite <- E.
    unfold next_meta, next_list. rewrite app_length. cbn [length]. rewrite Nat.add_1_r. reflexivity.
  - intros n Hn. apply HM in Hn. destruct Hn as [Hn HN]. cbn [run fold_left apply d_index d_data]. fold (run rm d1).
    destruct (HX n) as (A1 & _ & A3 & _). rewrite A1, A3 by (rewrite (proj1 (HC n)) || rewrite (proj2 (HC n)); exact HN). apply HD1. exact Hn.
  - intros n Hn. apply HAB. exact Hn.
  - intros n Hn _. apply HAB. exact Hn. }
  apply HAB. rewrite app_length. cbn [length]. intros HH. apply HM in HH. destruct HH as [[HH|HH] _]; [|unfold i in HH; lia].
  apply in_app_iff in HH. destruct HH as [HH|HH]; [apply HR in HH|apply prots_range in HH]; lia.
Qed.

(** ** The invariant holds along every history *)

Lemma save_weights_fail_ops d ok k p de s w ops ex h l : Inv h d l ->
  save_weights (W := W) df d ok k p de s w = (ops, Some ex) -> Forall (fun o => training_op o = true) ops.
Proof.
  intros HI HS. destruct ok; [|cbn in HS; injection HS as <- _; constructor].
  pose proof (save_weights_inv h d l {| e_prot := p; e_keep := k; e_desc := de; e_training := None; e_steps := s; e_w := w |} HI) as H.
  cbn [e_prot e_keep e_desc e_steps e_w] in H. destruct H as [(ops' & ex' & E & s' & _ & Eu)|(ops0 & _ & E)]; rewrite E in HS; [|discriminate].
  injection HS as -> ->. pose proof (update_steps_ops d s') as H. rewrite Eu in H. exact H.
Qed.

(** A save is the training part followed by the weights. *)
Definition training_part (d : dir W) (t : option (list (string * option exn))) : effect W :=
  match t with None => ([], None) | Some cs => save_training_settings d cs end.

Lemma training_part_ops d t : Forall (fun o => training_op o = true) (fst (training_part d t)).
Proof. clear df. destruct t; [apply save_training_ops|constructor]. Qed.

Lemma save_fail h d l e ok ops ex : Inv h d l ->
  save df d ok (e_keep e) (e_prot e) (e_desc e) (e_training e) (e_steps e) (e_w e) = (ops, Some ex) ->
  Forall (fun o => training_op o = true) ops.
Proof.
  intros HI HS. unfold save in HS. fold (training_part d (e_training e)) in HS. pose proof (training_part_ops d (e_training e)) as HT.
  destruct (training_part d (e_training e)) as [ops1 e1]. cbn [fst] in HT.
  destruct e1 as [x|]; [injection HS as <- _; exact HT|].
  destruct (save_weights df (run ops1 d) ok (e_keep e) (e_prot e) (e_desc e) (e_steps e) (e_w e)) as [ops2 e2] eqn:E2.
  injection HS as <- ->. apply Forall_app. split; [exact HT|].
  eapply save_weights_fail_ops; [|exact E2]. eapply inv_same; [apply run_training; exact HT|exact HI].
Qed.

Lemma save_ok h d l e ops : Inv h d l ->
  save df d true (e_keep e) (e_prot e) (e_desc e) (e_training e) (e_steps e) (e_w e) = (ops, None) ->
  exists t, Forall (fun o => training_op o = true) t /\
    ops = t ++ next_ops (run t d) l h e ++ [TruncYaml; DumpYaml (next_meta l h e)].
Proof.
  intros HI HS. unfold save in HS. fold (training_part d (e_training e)) in HS. pose proof (training_part_ops d (e_training e)) as HT.
  destruct (training_part d (e_training e)) as [ops1 e1]. cbn [fst] in HT.
  destruct e1 as [x|]; [discriminate|].
  assert (HI' : Inv h (run ops1 d) l) by (eapply inv_same; [apply run_training; exact HT|exact HI]).
  destruct (save_weights_inv h (run ops1 d) l e HI') as [(ops' & ex' & E & _)|(ops0 & E0 & E)]; rewrite E in HS; [discriminate|].
  injection HS as <-. exists (ops1 ++ ops0). split.
  - apply Forall_app. split; [exact HT|]. destruct (e_steps e) as [s|]; [|injection E0 as ->; constructor].
    pose proof (update_steps_ops (run ops1 d) s) as H. rewrite <- E0 in H. exact H.
  - rewrite run_app, <- !app_assoc. reflexivity.
Qed.

Lemma inv_empty : Inv [] empty_dir [].
Proof. clear df. split; [constructor|reflexivity|intros n []|reflexivity|reflexivity]. Qed.

Lemma hist_inv h d : Hist df h d -> exists l, Inv h d l /\ d_data d (S (length h)) = None.
Proof.
  induction 1 as [|h d e ops H (l & IH & IH0) HS|h d e ok ops ex H (l & IH & IH0) HS].
  - exists []. split; [apply inv_empty|reflexivity].
  - destruct (save_ok _ _ _ _ _ IH HS) as (t & HT & ->). exists (next_list l h e). rewrite run_app. apply inv_next.
    eapply inv_same; [apply run_training; exact HT|exact IH].
  - exists l. pose proof (save_fail _ _ _ _ _ _ _ IH HS) as HT. pose proof (run_training ops d HT) as HE. split.
    + eapply inv_same; [exact HE|exact IH].
    + destruct HE as (_ & -> & _). exact IH0.
Qed.

(** ** Which unprotected checkpoints survive *)

Lemma unprotected_snoc h e n : n <= length h -> unprotected (W := W) (h ++ [e]) n = unprotected h n.
Proof. clear df. intros H. destruct n; [reflexivity|]. cbn [unprotected]. rewrite nth_error_app1 by lia. reflexivity. Qed.

Lemma unprotected_range h n : unprotected (W := W) h n = true -> 1 <= n <= length h.
Proof. clear df.
  destruct n; [discriminate|]. cbn [unprotected]. destruct (nth_error h n) eqn:E; [|discriminate].
  intros _. assert (n < length h) by (apply nth_error_Some; congruence). lia.
Qed.

Lemma unprotected_last h e : unprotected (W := W) (h ++ [e]) (S (length h)) = negb (e_prot e).
Proof. clear df. cbn [unprotected]. rewrite nth_error_app2, Nat.sub_diag by lia. reflexivity. Qed.

Lemma snoc_split {A} (h : list A) e h1 e1 h2 : h ++ [e] = h1 ++ e1 :: h2 ->
  (h1 = h /\ e1 = e /\ h2 = []) \/ exists h2', h2 = h2' ++ [e] /\ h = h1 ++ e1 :: h2'.
Proof. clear df.
  intros H. destruct h2 as [|x h2] using rev_ind.
  - left. apply app_inj_tail in H. destruct H as [-> ->]. auto.
  - right. exists h2. clear IHh2. replace (h1 ++ e1 :: h2 ++ [x]) with ((h1 ++ e1 :: h2) ++ [x]) in H by (rewrite <- app_assoc; reflexivity).
    apply app_inj_tail in H. destruct H as [-> ->]. auto.
Qed.

Lemma survives_snoc h e n : n <= length h ->
  (Survives (h ++ [e]) n <-> Survives h n /\ (e_prot e = false -> (0 < e_keep e)%Z -> (Z.of_nat (later (W := W) (h ++ [e]) n) < e_keep e)%Z)).
Proof. clear df.
  intros Hn. unfold Survives. rewrite unprotected_snoc by exact Hn. split.
  - intros [Hu H]. split; [split; [exact Hu|]|].
    + intros h1 e1 h2 -> HL He Hk. apply (H h1 e1 (h2 ++ [e])); [rewrite <- app_assoc; reflexivity|exact HL|exact He|exact Hk].
    + intros He Hk. apply (H h e []); [reflexivity|lia|exact He|exact Hk].
  - intros [[Hu H] H']. split; [exact Hu|]. intros h1 e1 h2 E HL He Hk. apply snoc_split in E. destruct E as [(-> & -> & ->)|(h2' & -> & ->)].
    + apply H'; assumption.
    + apply (H h1 e1 h2'); auto.
Qed.

Lemma survives_last h e :
  (Survives (W := W) (h ++ [e]) (S (length h)) <-> e_prot e = false).
Proof. clear df.
  unfold Survives. rewrite unprotected_last. split.
  - intros [H _]. destruct (e_prot e); [discriminate|reflexivity].
  - intros He. rewrite He. split; [reflexivity|]. intros h1 e1 h2 E HL He1 Hk. apply snoc_split in E.
    destruct E as [(-> & -> & ->)|(h2' & -> & ->)].
    + replace (later (h ++ [e]) (S (length h))) with 0; [lia|]. unfold later. symmetry.
      rewrite (filter_ext_in _ (fun _ => false)).
      * induction (seq 1 _); [reflexivity|assumption].
      * intros k Hk'. apply in_seq in Hk'. rewrite app_length in Hk'. cbn [length] in Hk'.
        destruct (Nat.ltb_spec (S (length h)) k); [lia|]. apply andb_false_r.
    + exfalso. rewrite app_length in HL. cbn [length] in HL. lia.
Qed.

Lemma nodup_length {A} (a b : list A) : NoDup a -> NoDup b -> (forall x, In x a <-> In x b) -> length a = length b.
Proof. clear df.
  intros Ha Hb H. apply Nat.le_antisymm; apply NoDup_incl_length; try assumption; intros x Hx; apply H; exact Hx.
Qed.

Definition Upward (h : list (entry W)) (l : list nat) : Prop :=
  forall n m, In n l -> n < m -> unprotected h m = true -> In m l.

Lemma later_filter h l n : Asc l -> (forall m, In m l -> unprotected (W := W) h m = true) -> Upward h l -> In n l ->
  later h n = length (filter (fun y => Nat.ltb n y) l).
Proof. clear df.
  intros HA HU HW Hn. unfold later. apply nodup_length.
  - apply NoDup_filter. apply seq_NoDup.
  - apply NoDup_filter. apply asc_nodup. exact HA.
  - intros x. rewrite !filter_In, andb_true_iff, in_seq. split.
    + intros (_ & Hu & Hx). apply Nat.ltb_lt in Hx as Hx'. split; [apply (HW n x Hn Hx' Hu)|exact Hx].
    + intros [Hx HL]. pose proof (HU _ Hx) as Hu. pose proof (unprotected_range _ _ Hu). repeat split; try lia; assumption.
Qed.

Definition Nonneg (h : list (entry W)) : Prop := Forall (fun e => (0 <= e_keep e)%Z) h.

Lemma cut_upward h k l : Asc l -> Upward h l -> (0 <= k)%Z ->
  Upward h (cut k l) /\ forall n, In n (cut k l) <-> In n l /\ ((0 < k)%Z -> (Z.of_nat (length (filter (fun y => Nat.ltb n y) l)) < k)%Z).
Proof. clear df.
  intros HA HU Hk.
  assert (HM : forall n, In n (cut k l) <-> In n l /\ ((0 < k)%Z -> (Z.of_nat (length (filter (fun y => Nat.ltb n y) l)) < k)%Z)).
  { intros n. unfold cut, drop_last. destruct (Z.ltb_spec k (Z.of_nat (length l))) as [HL|HL].
    - destruct (Z.ltb_spec k 0); [lia|]. destruct (Z.eqb_spec k 0) as [->|Hk0].
      + cbn [length skipn]. intuition lia.
      + rewrite firstn_length, Nat.min_l by lia. rewrite (skipn_greater l (Z.to_nat k) n HA). intuition lia.
    - split; [|tauto]. intros Hn. split; [exact Hn|]. intros _.
      pose proof (proj1 (skipn_greater l (length l) n HA)) as H. rewrite Nat.sub_diag in H. cbn [skipn] in H. specialize (H Hn). lia. }
  split; [|exact HM]. intros n m Hn Hm Hu. apply HM in Hn. apply HM. destruct Hn as [Hn HC]. split; [exact (HU n m Hn Hm Hu)|].
  intros Hk0. specialize (HC Hk0). assert (HL : length (filter (fun y => Nat.ltb m y) l) <= length (filter (fun y => Nat.ltb n y) l)); [|lia].
  apply NoDup_incl_length; [apply NoDup_filter; apply asc_nodup; exact HA|]. intros x. rewrite !filter_In, !Nat.ltb_lt. intuition lia.
Qed.

Lemma kept_survives h l : Kept h l -> Nonneg h -> Upward h l /\ forall n, In n l <-> Survives h n.
Proof. clear df.
  induction 1 as [|h l e H IH He|h l e H IH He]; intros HN.
  - split; [intros n m []|]. intros n. split; [intros []|]. intros [Hu _]. apply unprotected_range in Hu. cbn in Hu. lia.
  - apply Forall_app in HN. destruct HN as [HN _]. destruct (IH HN) as [HU HS]. pose proof (kept_range _ _ H) as [_ HR]. rewrite Forall_forall in HR. split.
    + intros n m Hn Hm Hu. apply (HU n m Hn Hm). pose proof (unprotected_range _ _ Hu) as HL. rewrite app_length in HL. cbn [length] in HL.
      destruct (Nat.eq_dec m (S (length h))) as [->|]; [rewrite unprotected_last, He in Hu; discriminate|].
      rewrite unprotected_snoc in Hu by lia. exact Hu.
    + intros n. rewrite HS. split.
      * intros Hn. apply survives_snoc; [apply HR; apply HS; exact Hn|]. split; [exact Hn|congruence].
      * intros Hn. assert (HL := unprotected_range _ _ (proj1 Hn)). rewrite app_length in HL. cbn [length] in HL.
        destruct (Nat.eq_dec n (S (length h))) as [->|]; [apply survives_last in Hn; congruence|].
        apply survives_snoc in Hn; [|lia]. apply Hn.
  - apply Forall_app in HN. destruct HN as [HN HK]. inversion HK as [|? ? HK' _]; subst. destruct (IH HN) as [HU HS].
    pose proof (kept_range _ _ H) as [HA HR]. rewrite Forall_forall in HR. set (i := S (length h)) in *.
    assert (HA2 : Asc (l ++ [i])).
    { apply asc_snoc; [exact HA|]. apply Forall_forall. intros n Hn. specialize (HR _ Hn). unfold i. lia. }
    assert (HUN : forall m, In m (l ++ [i]) -> unprotected (h ++ [e]) m = true).
    { intros m Hm. apply in_app_iff in Hm. destruct Hm as [Hm|[<-|[]]].
      - rewrite unprotected_snoc by (apply HR; exact Hm). apply HR. exact Hm.
      - unfold i. rewrite unprotected_last, He. reflexivity. }
    assert (HU2 : Upward (h ++ [e]) (l ++ [i])).
    { intros n m Hn Hm Hu. pose proof (unprotected_range _ _ Hu) as HL. rewrite app_length in HL. cbn [length] in HL. rewrite in_app_iff in *.
      destruct (Nat.eq_dec m i) as [->|Hmi]; [right; left; reflexivity|]. left. unfold i in *. rewrite unprotected_snoc in Hu by lia.
      destruct Hn as [Hn|[<-|[]]]; [exact (HU n m Hn Hm Hu)|lia]. }
    destruct (cut_upward (h ++ [e]) (e_keep e) (l ++ [i]) HA2 HU2 HK') as [HC1 HC2]. split; [exact HC1|].
    intros n. rewrite HC2. split.
    + intros [Hn HL]. rewrite <- (later_filter (h ++ [e]) (l ++ [i]) n HA2 HUN HU2 Hn) in HL.
      apply in_app_iff in Hn. destruct Hn as [Hn|[<-|[]]]; [|apply survives_last; exact He].
      apply survives_snoc; [apply HR; exact Hn|]. split; [apply HS; exact Hn|]. auto.
    + intros Hn. assert (HL := unprotected_range _ _ (proj1 Hn)). rewrite app_length in HL. cbn [length] in HL.
      assert (HI : In n (l ++ [i]) /\ ((0 < e_keep e)%Z -> (Z.of_nat (later (h ++ [e]) n) < e_keep e)%Z)).
      { destruct (Nat.eq_dec n i) as [->|Hni].
        - split; [apply in_app_iff; right; left; reflexivity|]. intros Hk. destruct Hn as [_ Hn]. apply (Hn h e []); [reflexivity|unfold i; lia|exact He|exact Hk].
        - unfold i in Hni. apply survives_snoc in Hn; [|lia]. destruct Hn as [Hn HX]. split; [apply in_app_iff; left; apply HS; exact Hn|]. intros Hk. apply HX; assumption. }
      destruct HI as [HI1 HI2]. split; [exact HI1|]. intros Hk. rewrite <- (later_filter (h ++ [e]) (l ++ [i]) n HA2 HUN HU2 HI1). apply HI2. exact Hk.
Qed.

(** ** Reading *)

Lemma inv_load h d l n : Inv h d l -> h <> [] ->
  (In n (l ++ prots h) -> exists e, number h n e /\ load_weights d (Some n) = Ok (e_w e) /\ Stored d n (e_w e)) /\
  (~ In n (l ++ prots h) -> load_weights d (Some n) = Err KeyError).
Proof. clear df.
  intros [IK IY IS IA IB] Hh. pose proof (kept_range h l IK) as [HA HR]. rewrite Forall_forall in HR.
  assert (EY : d_yaml d = Some (Some {| m_latest := length h; m_unprot := rec_of (desc_of h) l; m_prot := rec_of (desc_of h) (prots h) |})).
  { rewrite IY. destruct h; [congruence|reflexivity]. }
  assert (HL : load_weights d (Some n) = if existsb (Nat.eqb n) (l ++ prots h) then restore d n else Err KeyError).
  { unfold load_weights. rewrite EY. cbn [m_unprot m_prot]. rewrite !nget_rec, existsb_app.
    destruct (existsb (Nat.eqb n) l); [reflexivity|]. cbn [orb]. destruct (existsb (Nat.eqb n) (prots h)); reflexivity. }
  split.
  - intros Hn. rewrite HL. rewrite (proj2 (existsb_in _ _) Hn). destruct (IS _ Hn) as (A & B & C).
    unfold restore, Stored. rewrite A. destruct n; [cbn in B; congruence|]. cbn [weight] in B.
    destruct (nth_error h n) as [e|] eqn:E; [|congruence]. exists e. split; [exists n; auto|]. rewrite B. auto.
  - intros Hn. rewrite HL. destruct (existsb _ _) eqn:E; [apply existsb_in in E; contradiction|reflexivity].
Qed.

Lemma load_none h d l : Inv h d l -> load_weights d None = match h with [] => Err IOError | _ => load_weights d (Some (length h)) end.
Proof. clear df.
  intros [_ IY _ _ _]. unfold load_weights. rewrite IY. destruct h; reflexivity.
Qed.

End Lemmas.
