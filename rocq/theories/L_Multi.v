(** Lemmas about sources made of several sources. *)
From Coq Require Import Lia.
From Verif Require Import Py PyFacts PyStr PyStrFacts M_Config M_Component L_Component M_Build L_Build M_Multi S_Multi.
From Verif Require M_Train L_Train L_Source.

(** ** Names *)

Lemma nth_error_ext' {A} (l m : list A) : (forall i, nth_error l i = nth_error m i) -> l = m.
Proof.
  revert m. induction l as [| x l IH]; intros [| y m] H; [reflexivity | specialize (H 0); discriminate | specialize (H 0); discriminate |].
  f_equal; [specialize (H 0); cbn in H; congruence | apply IH; intros i; exact (H (S i))].
Qed.

(** Both dictionaries are folds of the same kind. *)
Lemma fold_last {A} (names : list string) : forall (vals : list A) d n, length vals = length names ->
  (forall i, Last names n i -> dget n (fold_left (fun d nv => dset (fst nv) (snd nv) d) (combine names vals) d) = nth_error vals i) /\
  (~ In n names -> dget n (fold_left (fun d nv => dset (fst nv) (snd nv) d) (combine names vals) d) = dget n d).
Proof.
  induction names as [| m names IH]; intros vals d n HL.
  - split; [intros i [H _]; destruct i; discriminate | reflexivity].
  - destruct vals as [| v vals]; [discriminate |]. cbn [length] in HL. cbn [combine fold_left fst snd].
    assert (HL' : length vals = length names) by lia. destruct (IH vals (dset m v d) n HL') as [I1 I2]. split.
    + intros i [H1 H2]. destruct i as [| i].
      * cbn in H1. injection H1 as ->. rewrite I2; [apply dget_dset_same |].
        intros HI. apply In_nth_error in HI. destruct HI as [j Hj]. exact (H2 (S j) ltac:(lia) Hj).
      * cbn [nth_error]. apply I1. split; [exact H1 |]. intros j Hj. exact (H2 (S j) ltac:(lia)).
    + intros HI. rewrite I2; [| intros H; apply HI; right; exact H]. apply dget_dset_other. intros ->. apply HI. left. reflexivity.
Qed.

Lemma last_exists names n : In n names -> exists i, Last names n i.
Proof.
  induction names as [| m names IH]; intros H; [destruct H |].
  destruct (in_dec string_dec n names) as [Y | N].
  - destruct (IH Y) as (i & H1 & H2). exists (S i). split; [exact H1 |]. intros [| j] Hj; [lia | exact (H2 j ltac:(lia))].
  - destruct H as [-> | H]; [| contradiction]. exists 0. split; [reflexivity |].
    intros [| j] Hj E; [lia |]. apply N. cbn [nth_error] in E. exact (nth_error_In _ _ E).
Qed.

Lemma last_unique names n i j : Last names n i -> Last names n j -> i = j.
Proof.
  intros [A1 A2] [B1 B2]. destruct (Nat.lt_trichotomy i j) as [H | [H | H]]; [| exact H |].
  - exfalso. exact (A2 j H B1).
  - exfalso. exact (B2 i H A1).
Qed.

Lemma combine_swap {A} (d0 : dict A) : forall (l : list (A * string)),
  forall d, fold_left (fun d iv => dset (snd iv) (fst iv) d) l d
    = fold_left (fun d nv => dset (fst nv) (snd nv) d) (map (fun iv => (snd iv, fst iv)) l) d.
Proof. induction l as [| x l IH]; intros d; [reflexivity |]. cbn. apply IH. Qed.

Lemma map_swap_combine {A B} (l : list A) : forall (m : list B), map (fun iv => (snd iv, fst iv)) (combine l m) = combine m l.
Proof. induction l as [| x l IH]; intros [| y m]; try reflexivity. cbn. f_equal. apply IH. Qed.

Lemma name_dict_fold names : name_dict names = fold_left (fun d nv => dset (fst nv) (snd nv) d) (combine names (seq 0 (length names))) [].
Proof. unfold name_dict, enumerate. rewrite (combine_swap []). rewrite map_swap_combine. reflexivity. Qed.

Lemma nth_error_seq0 n i : i < n -> nth_error (seq 0 n) i = Some i.
Proof.
  intros H. rewrite nth_error_nth' with (d := 0) by (rewrite seq_length; exact H). rewrite seq_nth by exact H. reflexivity.
Qed.

Lemma name_dict_get names n :
  (forall i, Last names n i -> dget n (name_dict names) = Some i) /\ (~ In n names -> dget n (name_dict names) = None).
Proof.
  rewrite name_dict_fold. destruct (fold_last names (seq 0 (length names)) [] n (seq_length _ _)) as [A B]. split.
  - intros i H. rewrite (A i H). apply nth_error_seq0. destruct H as [H _]. apply nth_error_Some. congruence.
  - exact B.
Qed.

Lemma index_dict_get names : forall k z,
  zlookup z (map (fun iv => (Z.of_nat (fst iv), snd iv)) (combine (seq k (length names)) names))
  = match (if (z <? Z.of_nat k)%Z then None else nth_error names (Z.to_nat z - k)) with Some n => Ok n | None => Err KeyError end.
Proof.
  induction names as [| m names IH]; intros k z.
  - cbn. destruct (z <? Z.of_nat k)%Z; [reflexivity |]. destruct (Z.to_nat z - k); reflexivity.
  - cbn [length seq combine map]. unfold zlookup. cbn [find fst snd]. destruct (Z.eqb_spec (Z.of_nat k) z) as [<- | N].
    + rewrite Z.ltb_irrefl. rewrite Nat2Z.id, Nat.sub_diag. reflexivity.
    + fold (zlookup z (map (fun iv => (Z.of_nat (fst iv), snd iv)) (combine (seq (S k) (length names)) names))). rewrite IH.
      destruct (Z.ltb_spec z (Z.of_nat (S k))) as [A | A]; destruct (Z.ltb_spec z (Z.of_nat k)) as [B | B]; try reflexivity; try lia.
      replace (Z.to_nat z - k) with (S (Z.to_nat z - S k)) by lia. reflexivity.
Qed.

(** ** The check of the parameters *)

Section NodeInd.
  Variable P : node -> Prop.
  Hypothesis H : forall name op l, Forall P l -> P (Node name op l).
  Fixpoint node_ind' (n : node) : P n :=
    match n with
    | Node name op l => H name op l ((fix go (l : list node) : Forall P l :=
        match l with [] => Forall_nil P | x :: l' => Forall_cons x (node_ind' x) (go l') end) l)
    end.
End NodeInd.

Definition tops input (l : list node) : list string := flat_map (top_nodes input) l.

Lemma top_nodes_eq input name op l : top_nodes input (Node name op l) =
  match l with [] => if String.eqb op "Const" && String.eqb name input then [name] else [] | _ => tops input l end.
Proof.
  destruct l as [| x l]; reflexivity.
Qed.

Lemma top_all input n : forall s, In s (top_nodes input n) -> s = input.
Proof.
  induction n as [name op l IH] using node_ind'. intros s. rewrite top_nodes_eq. destruct l as [| x l].
  - destruct (String.eqb op "Const" && String.eqb name input) eqn:E; [| intros []].
    apply andb_true_iff in E. destruct E as [_ E]. apply String.eqb_eq in E. intros [<- | []]. exact E.
  - unfold tops. intros HI. apply in_flat_map in HI. destruct HI as (y & Hy & HI). rewrite Forall_forall in IH. exact (IH y Hy s HI).
Qed.

Lemma depends_inv input name op l : Depends input (Node name op l) ->
  (l = [] /\ op = "Const"%string /\ name = input) \/ exists x, In x l /\ Depends input x.
Proof. intros H. inversion H; subst; [left; auto | right; eauto]. Qed.

Lemma top_depends input n : In input (top_nodes input n) <-> Depends input n.
Proof.
  induction n as [name op l IH] using node_ind'. rewrite Forall_forall in IH. rewrite top_nodes_eq. destruct l as [| x l].
  - split.
    + destruct (String.eqb op "Const" && String.eqb name input) eqn:E; [| intros []].
      apply andb_true_iff in E. destruct E as [E1 E]. apply String.eqb_eq in E, E1. subst. constructor.
    + intros H. apply depends_inv in H. destruct H as [(_ & -> & ->) | (y & [] & _)]. rewrite (eqb_spec_refl "Const"), (eqb_spec_refl input). left. reflexivity.
  - unfold tops. rewrite in_flat_map. split.
    + intros (y & Hy & HI). apply (dep_input _ _ _ _ y Hy). apply IH; assumption.
    + intros H. apply depends_inv in H. destruct H as [(E & _) | (y & HI & HD)]; [discriminate |]. exists y. split; [exact HI |]. apply IH; assumption.
Qed.

Lemma singleton_iff input n : is_singleton input (top_nodes input n) = true <-> Depends input n.
Proof.
  rewrite <- top_depends. unfold is_singleton. rewrite andb_true_iff, forallb_forall, negb_true_iff, Nat.eqb_neq. split.
  - intros [H1 H2]. destruct (top_nodes input n) as [| s l] eqn:E; [exfalso; apply H1; reflexivity |].
    rewrite (top_all input n s) by (rewrite E; left; reflexivity). left. reflexivity.
  - intros H. split; [intros E; destruct (top_nodes input n); [destruct H | discriminate] |].
    intros s HS. apply String.eqb_eq. symmetry. exact (top_all input n s HS).
Qed.

Section Check.
  Variables (consts : nat -> list node) (input : string).
  Hypothesis Hconsts : forall i x, In x (consts i) -> ~ Depends input x.

  Lemma check_columns_none t is : ~ Depends input t -> check_columns consts input t is = match is with [] => None | _ => Some ValueError end.
  Proof.
    intros HD. destruct is as [| i is]; [reflexivity |]. cbn [check_columns].
    destruct (smem input (top_nodes input (slice (consts i) t))) eqn:E; [| reflexivity]. exfalso.
    apply smem_In in E. rewrite top_depends in E. apply depends_inv in E. destruct E as [(E & _) | (x & HI & HX)]; [discriminate |]. destruct HI as [<- | HI]; [exact (HD HX) | exact (Hconsts i x HI HX)].
  Qed.

  Lemma check_one eager subs params name base rest :
    (Fine eager input subs params (name, base) /\
       check_sources eager consts input subs params ((name, base) :: rest) = check_sources eager consts input subs params rest) \/
    (exists e, Wrong eager input subs params (name, base) e /\ check_sources eager consts input subs params ((name, base) :: rest) = Some e).
  Proof.
    cbn [check_sources]. unfold Fine, Wrong. cbn [fst snd].
    destruct (dget base subs) as [num |] eqn:EB; [| right; exists KeyError; split; [left; auto | reflexivity]].
    destruct (dget name params) as [[k t] |] eqn:EP; [| right; exists KeyError; split; [right; left; split; [discriminate | auto] | reflexivity]].
    destruct (Nat.eqb_spec k num) as [-> | N]; cbn [negb].
    2:{ right. exists ValueError. split; [| reflexivity]. right; right. exists num, k, t. repeat split. left. exact N. }
    destruct eager.
    { left. split; [exists num, t; auto | reflexivity]. }
    destruct (is_singleton input (top_nodes input t)) eqn:ES.
    - apply singleton_iff in ES. left. split; [exists num, t; auto | reflexivity].
    - assert (HN : ~ Depends input t) by (intros H; apply singleton_iff in H; congruence).
      rewrite (check_columns_none t _ HN). destruct num as [| num]; cbn [seq].
      + left. split; [exists 0, t; auto | reflexivity].
      + right. exists ValueError. split; [| reflexivity]. right; right. exists (S num), (S num), t. repeat split. right. auto.
  Qed.
End Check.

Lemma fine_not_wrong eager input subs params s e : Fine eager input subs params s -> ~ Wrong eager input subs params s e.
Proof.
  intros (n & t & H1 & H2 & H3) [[A _] | [[_ [A _]] | (n' & k & t' & A1 & A2 & _ & A3)]]; [congruence | congruence |].
  rewrite H1 in A1. rewrite H2 in A2. injection A1 as <-. injection A2 as <- <-.
  destruct A3 as [A3 | (E & N & D)]; [congruence |]. destruct H3 as [-> | [-> | H3]]; [discriminate | congruence | exact (D H3)].
Qed.

(** ** Configuring *)

Lemma collect_items_vals (l : list (string * value)) params :
  collect_items (map (fun kv => (fst kv, IVal (snd kv))) l) params = Ok (match l with [] => true | _ => false end, params).
Proof. induction l as [| [k v] l IH]; [reflexivity |]. cbn [map collect_items fst snd]. rewrite IH. reflexivity. Qed.

Lemma collect_seq_vals (l : list value) : forall key i params,
  collect_items (seq_names key i (map IVal l)) params = Ok (match l with [] => true | _ => false end, params).
Proof. induction l as [| v l IH]; intros key i params; [reflexivity |]. cbn [map seq_names collect_items]. rewrite IH. reflexivity. Qed.

(** A plain setting is either remembered or an empty container. *)
Lemma collect_setting key v rest missing params : exists b : bool,
  collect ((key, arg_of v) :: rest) missing params = collect rest (if b then missing else dset key (arg_of v) missing) params /\
  (b = true -> v <> VNone).
Proof.
  destruct v as [| | | | l | l | d]; cbn [arg_of collect]; try (exists false; split; [reflexivity | discriminate]).
  - rewrite collect_seq_vals. exists (match l with [] => true | _ => false end). split; [reflexivity | discriminate].
  - rewrite collect_seq_vals. exists (match l with [] => true | _ => false end). split; [reflexivity | discriminate].
  - rewrite collect_items_vals. exists (match d with [] => true | _ => false end). split; [reflexivity | discriminate].
Qed.

Lemma collect_items_comps (l : dict component) : forall params,
  collect_items (map (fun kv => (fst kv, IComp (snd kv))) l) params
  = if forallb (fun kv => k_configured (snd kv)) l then Ok (true, dupdate params l) else Err ValueError.
Proof.
  induction l as [| [k c] l IH]; intros params; [reflexivity |]. cbn [map collect_items fst snd forallb].
  destruct (k_configured c); [| reflexivity]. cbn [andb]. rewrite IH. reflexivity.
Qed.

Lemma add_subs_ready (l : dict component) : forall cf, NoDup (dkeys l) -> (forall k c, In (k, c) l -> Ready c) ->
  (forall k, In k (dkeys l) -> dget k (c_subs (co_dict cf)) = None) ->
  exists cf', add_sub_components l cf = (cf', None) /\ co_config cf' = co_config cf /\
    c_mut_subs (co_dict cf') = c_mut_subs (co_dict cf) /\ c_dep (co_dict cf') = c_dep (co_dict cf) /\
    forall k, dget k (c_subs (co_dict cf')) = match dget k l with Some c => config_of c | None => dget k (c_subs (co_dict cf)) end.
Proof.
  induction l as [| [k c] l IH]; intros cf HN HR HF.
  - exists cf. repeat split.
  - cbn [dkeys map] in HN. inversion HN as [| ? ? H1 H2]; subst. destruct (HR k c (or_introl eq_refl)) as [HC HK].
    cbn [add_sub_components]. destruct (dmem k (c_subs (co_dict cf))) eqn:EM.
    { apply dmem_In in EM. apply In_keys_dget in EM. destruct EM as [v EM]. rewrite (HF k (or_introl eq_refl)) in EM. discriminate. }
    rewrite HC. cbn [negb]. unfold conf_dict. destruct (k_conf c) as [kc |] eqn:EK; [| congruence].
    set (cf1 := mkConf (set_subs (dset k (co_dict kc) (c_subs (co_dict cf))) (co_dict cf)) (co_config cf)).
    destruct (IH cf1 H2 (fun k' c' H => HR k' c' (or_intror H))) as (cf' & E1 & E2 & E3 & E4 & E5).
    { intros k' HI. cbn [cf1 co_dict set_subs c_subs]. rewrite dget_dset_other; [apply HF; right; exact HI |]. intros ->. contradiction. }
    exists cf'. split; [exact E1 |]. split; [exact E2 |]. split; [exact E3 |]. split; [exact E4 |].
    intros k'. rewrite E5. cbn [cf1 co_dict set_subs c_subs dget]. destruct (String.eqb_spec k' k) as [-> | N].
    + rewrite dget_dset_same. assert (EN : dget k l = None) by (apply dget_None_iff; exact H1). rewrite EN. unfold config_of. rewrite EK. reflexivity.
    + rewrite dget_dset_other by exact N. reflexivity.
Qed.

Lemma In_dset {A} k (v : A) d k' v' : In (k', v') (dset k v d) -> (k', v') = (k, v) \/ In (k', v') d.
Proof.
  induction d as [| [k0 v0] d IH]; cbn [dset]; [intros [H | []]; left; symmetry; exact H |].
  destruct (String.eqb k k0) eqn:E; cbn [In].
  - intros [H | H]; [| right; right; exact H]. apply String.eqb_eq in E. subst. left. congruence.
  - intros [H | H]; [right; left; exact H |]. destruct (IH H) as [H' | H']; [left; exact H' | right; right; exact H'].
Qed.

Lemma In_dupdate {A} (e : dict A) : forall d k v, In (k, v) (dupdate d e) -> In (k, v) d \/ In (k, v) e.
Proof.
  induction e as [| [k0 v0] e IH]; intros d k v H; [left; exact H |]. cbn in H.
  apply IH in H. destruct H as [H | H]; [| right; right; exact H]. apply In_dset in H. destruct H as [H | H]; [| left; exact H].
  right. left. symmetry. exact H.
Qed.

Definition start (t : targ) : dict component := match t with Given t => [("data_trafo"%string, t)] | _ => [] end.

(** The settings that are remembered: all of them plain. *)
Definition plain_missing (c : call) (missing : dict arg) : Prop :=
  forall k a, In (k, a) missing ->
    (k = "config"%string /\ a = arg_of (a_config c)) \/
    (exists v, a_name c = Some v /\ k = "name"%string /\ a = arg_of v).

Lemma collect_kwargs c bases : UsableCall c ->
  if forallb (fun kv => k_configured (snd kv)) bases
  then exists missing, collect (kwargs_of c bases) [] [] = Ok (missing, dupdate (start (a_trafo c)) bases) /\ plain_missing c missing
  else collect (kwargs_of c bases) [] [] = Err ValueError.
Proof.
  intros (HC & HN & HT). unfold kwargs_of. cbn [app].
  match goal with |- context [collect ((?k, arg_of ?v) :: ?r) ?m ?p] => destruct (collect_setting k v r m p) as (b & E & _) end.
  assert (HP : plain_missing c (if b then [] else dset "config" (arg_of (a_config c)) [])).
  { destruct b; intros k a HI; [destruct HI |]. cbn in HI. destruct HI as [HI | []]. injection HI as <- <-. left. auto. }
  set (missing := if b then [] else dset "config" (arg_of (a_config c)) []) in *.
  assert (H2 : forall p, p = start (a_trafo c) ->
    if forallb (fun kv => k_configured (snd kv)) bases
    then exists missing', collect ([("base_sources", ADict (map (fun kv => (fst kv, IComp (snd kv))) bases))] ++
            match a_name c with None => [] | Some v => [("name", arg_of v)] end) missing p = Ok (missing', dupdate p bases) /\ plain_missing c missing'
    else collect ([("base_sources", ADict (map (fun kv => (fst kv, IComp (snd kv))) bases))] ++
            match a_name c with None => [] | Some v => [("name", arg_of v)] end) missing p = Err ValueError).
  { intros p _. cbn [app collect]. rewrite collect_items_comps. destruct (forallb _ bases); [| reflexivity].
    destruct (a_name c) as [v |] eqn:EN; [| exists missing; split; [reflexivity | exact HP]].
    destruct (collect_setting "name" v [] missing (dupdate p bases)) as (b' & E' & _). rewrite E'.
    exists (if b' then missing else dset "name" (arg_of v) missing). split; [reflexivity |].
    destruct b'; [exact HP |]. intros k a HI. apply In_dset in HI. destruct HI as [HI | HI]; [| apply HP; exact HI].
    injection HI as -> ->. right. exists v. auto. }
  destruct (a_trafo c) as [| | t] eqn:ET; [| contradiction |].
  - cbn [app start] in *. specialize (H2 [] eq_refl). cbn [app] in H2. rewrite E. exact H2.
  - cbn [app start] in *. specialize (H2 [("data_trafo"%string, t)] eq_refl). cbn [app] in H2. rewrite E. cbn [collect].
    destruct HT as [HT _]. rewrite HT. exact H2.
Qed.

Lemma settings_checked c missing cfg : UsableCall c -> plain_missing c missing ->
  dget "config" cfg = Some (a_config c) -> dget "name" cfg = Some (name_given (a_name c)) -> check_settings missing cfg = None.
Proof.
  intros (HC & HN & _) HP H1 H2. induction missing as [| [k a] missing IH]; [reflexivity |]. cbn [check_settings].
  assert (IH' : check_settings missing cfg = None) by (apply IH; intros k' a' HI; apply HP; right; exact HI).
  destruct (HP k a (or_introl eq_refl)) as [[-> ->] | (v & E & -> & ->)].
  - rewrite H1, arg_value_of, veqb_refl by exact HC. exact IH'.
  - rewrite H2, arg_value_of, E. rewrite E in HN. destruct HN as [HN HW].
    assert (EG : name_given (Some v) = v) by (destruct v; try reflexivity; congruence). rewrite EG, veqb_refl by exact HW. exact IH'.
Qed.

(** The general outcome of collecting the arguments. *)
Definition trafo_ready (t : targ) : bool := match t with Given t => k_configured t | _ => true end.

Lemma collect_all c bases :
  if trafo_ready (a_trafo c) && forallb (fun kv => k_configured (snd kv)) bases
  then exists missing, collect (kwargs_of c bases) [] [] = Ok (missing, dupdate (start (a_trafo c)) bases) /\
    (a_trafo c = GivenNone -> dget "data_trafo" missing = Some (AScalar VNone)) /\
    (a_name c = Some VNone -> dget "name" missing = Some (AScalar VNone))
  else collect (kwargs_of c bases) [] [] = Err ValueError.
Proof.
  unfold kwargs_of. cbn [app].
  match goal with |- context [collect ((?k, arg_of ?v) :: ?r) ?m ?p] => destruct (collect_setting k v r m p) as (b & E & _) end.
  rewrite E. clear E. set (missing := if b then [] else dset "config" (arg_of (a_config c)) []).
  assert (H2 : forall (missing : dict arg) p, (a_trafo c = GivenNone -> dget "data_trafo" missing = Some (AScalar VNone)) ->
    if forallb (fun kv => k_configured (snd kv)) bases
    then exists missing', collect ([("base_sources", ADict (map (fun kv => (fst kv, IComp (snd kv))) bases))] ++
            match a_name c with None => [] | Some v => [("name", arg_of v)] end) missing p = Ok (missing', dupdate p bases) /\
            (a_trafo c = GivenNone -> dget "data_trafo" missing' = Some (AScalar VNone)) /\
            (a_name c = Some VNone -> dget "name" missing' = Some (AScalar VNone))
    else collect ([("base_sources", ADict (map (fun kv => (fst kv, IComp (snd kv))) bases))] ++
            match a_name c with None => [] | Some v => [("name", arg_of v)] end) missing p = Err ValueError).
  { clear missing. intros missing p HM. cbn [app collect]. rewrite collect_items_comps. destruct (forallb _ bases); [| reflexivity].
    destruct (a_name c) as [v |] eqn:EN; [| exists missing; split; [reflexivity |]; split; [exact HM | discriminate]].
    destruct (collect_setting "name" v [] missing (dupdate p bases)) as (b' & E' & HB). rewrite E'.
    exists (if b' then missing else dset "name" (arg_of v) missing). split; [reflexivity |]. split.
    - intros HG. specialize (HM HG). destruct b'; [exact HM |]. rewrite dget_dset_other by discriminate. exact HM.
    - intros EV. injection EV as ->. destruct b'; [exfalso; apply HB; reflexivity |]. cbn [arg_of]. apply dget_dset_same. }
  destruct (a_trafo c) as [| | t]; cbn [trafo_ready andb app start].
  - apply (H2 missing []). discriminate.
  - cbn [collect]. apply H2. intros _. apply dget_dset_same.
  - cbn [collect]. destruct (k_configured t); [| reflexivity]. cbn [andb]. apply (H2 missing). discriminate.
Qed.

Lemma check_settings_value missing cfg e : check_settings missing cfg = Some e -> e = ValueError.
Proof.
  induction missing as [| [k a] missing IH]; [discriminate |]. cbn [check_settings].
  destruct (dget k cfg); [| congruence]. destruct (arg_value a); [| congruence]. destruct (veqb _ _); [exact IH | congruence].
Qed.

Lemma check_settings_get missing cfg k a : check_settings missing cfg = None -> dget k missing = Some a ->
  exists w v, arg_value a = Some w /\ dget k cfg = Some v /\ veqb w v = true.
Proof.
  induction missing as [| [k' a'] missing IH]; [discriminate |]. cbn [check_settings dget].
  destruct (String.eqb_spec k k') as [<- | N].
  - intros H E. injection E as ->. destruct (dget k cfg) as [v |]; [| discriminate]. destruct (arg_value a) as [w |]; [| discriminate].
    destruct (veqb w v) eqn:EV; [| discriminate]. exists w, v. auto.
  - intros H E. destruct (dget k' cfg) as [v |]; [| discriminate]. destruct (arg_value a') as [w |]; [| discriminate].
    destruct (veqb w v); [| discriminate]. exact (IH H E).
Qed.

(** ** Names of independent sources *)

Lemma joined c : forall d v w, (c ++ "_" ++ v)%string = (d ++ "_" ++ w)%string ->
  c = d \/ (exists s, d = (c ++ "_" ++ s)%string) \/ (exists s, c = (d ++ "_" ++ s)%string).
Proof.
  induction c as [| a c IH]; intros [| b d] v w H; cbn in H.
  - left. reflexivity.
  - injection H as <- H. right. left. exists d. reflexivity.
  - injection H as -> H. right. right. exists c. reflexivity.
  - injection H as <- H. destruct (IH d v w H) as [-> | [(s & ->) | (s & ->)]]; [left; reflexivity | right; left; exists s; reflexivity | right; right; exists s; reflexivity].
Qed.

Lemma NoDup_flat_map {A B} (f : A -> list B) l : NoDup l -> (forall x, In x l -> NoDup (f x)) ->
  (forall x y z, In x l -> In y l -> In z (f x) -> In z (f y) -> x = y) -> NoDup (flat_map f l).
Proof.
  induction l as [| x l IH]; intros HN HF HD; [constructor |]. inversion HN as [| ? ? H1 H2]; subst. cbn [flat_map].
  assert (HX : NoDup (f x)) by (apply HF; left; reflexivity).
  assert (HL : NoDup (flat_map f l)).
  { apply IH; [exact H2 | intros y Hy; apply HF; right; exact Hy |]. intros y z u Hy Hz. apply HD; right; assumption. }
  assert (HJ : forall z, In z (f x) -> ~ In z (flat_map f l)).
  { intros z Hz HI. apply in_flat_map in HI. destruct HI as (y & Hy & HI). apply H1.
    rewrite (HD x y z (or_introl eq_refl) (or_intror Hy) Hz HI). exact Hy. }
  revert HX HJ. generalize (f x) as m. induction m as [| z m IHm]; intros HX HJ; [exact HL |].
  inversion HX as [| ? ? K1 K2]; subst. cbn [app]. constructor.
  - rewrite in_app_iff. intros [H | H]; [exact (K1 H) | exact (HJ z (or_introl eq_refl) H)].
  - apply IHm; [exact K2 |]. intros u Hu. apply HJ. right. exact Hu.
Qed.

Lemma nodup_last names n i : NoDup names -> nth_error names i = Some n -> Last names n i.
Proof.
  intros HN H. split; [exact H |]. intros j Hj E.
  assert (HI : i < length names) by (apply nth_error_Some; congruence).
  rewrite NoDup_nth_error in HN. specialize (HN i j HI ltac:(congruence)). lia.
Qed.

Lemma nth_error_firstn {A} (l : list A) : forall n i, i < n -> nth_error (firstn n l) i = nth_error l i.
Proof. induction l as [| x l IH]; intros [| n] [| i] H; try reflexivity; try lia. cbn. apply IH. lia. Qed.

Lemma nth_error_skipn {A} (l : list A) : forall n i, nth_error (skipn n l) i = nth_error l (n + i).
Proof. induction l as [| x l IH]; intros [| n] i; try reflexivity; [destruct i; reflexivity | apply IH]. Qed.

Section Independent.
  Variable names_of : component -> list string.
  Variables (bases : dict component) (sources : dict string).

  Definition base_names (s : string) : list string :=
    match dget s sources with Some b => match dget b bases with Some x => names_of x | None => [] end | None => [] end.
  Definition full (s : string) : list string := map (fun v => (s ++ "_" ++ v)%string) (base_names s).

  Lemma names_flat l names : independent_names names_of bases sources l = Ok names ->
    names = flat_map full l /\ forall s, In s l -> exists b x, dget s sources = Some b /\ dget b bases = Some x.
  Proof.
    revert names. induction l as [| s l IH]; intros names H; cbn [independent_names] in H.
    - injection H as <-. split; [reflexivity | intros s []].
    - unfold lookup in H. destruct (dget s sources) as [b |] eqn:E1; [| discriminate]. cbn [bind] in H.
      destruct (dget b bases) as [x |] eqn:E2; [| discriminate]. cbn [bind] in H.
      destruct (independent_names names_of bases sources l) as [n |] eqn:E3; [| discriminate]. cbn [bind] in H. injection H as <-.
      destruct (IH n eq_refl) as [-> H]. split.
      + cbn [flat_map]. unfold full at 2, base_names. rewrite E1, E2. reflexivity.
      + intros s' [<- | HI]; [exists b, x; auto | exact (H s' HI)].
  Qed.

  Lemma full_length s : length (full s) = length (base_names s).
  Proof. apply map_length. Qed.

  Lemma blocks_get {A} subs (columns : list A) : forall l k d,
    (forall s, In s l -> exists b x, dget s sources = Some b /\ dget b bases = Some x /\ dget b subs = Some x) -> NoDup l ->
    exists d', independent_blocks names_of subs sources columns k l d = Ok d' /\
      (forall s, ~ In s l -> dget s d' = dget s d) /\
      forall l1 s l2, l = l1 ++ s :: l2 ->
        dget s d' = Some (firstn (length (base_names s)) (skipn (k + length (flat_map full l1)) columns)).
  Proof.
    induction l as [| s l IH]; intros k d HB HN.
    - exists d. split; [reflexivity |]. split; [reflexivity |]. intros [| ? ?] ? ? H; discriminate.
    - inversion HN as [| ? ? H1 H2]; subst. destruct (HB s (or_introl eq_refl)) as (b & x & E1 & E2 & E3).
      assert (EN : base_names s = names_of x) by (unfold base_names; rewrite E1, E2; reflexivity).
      cbn [independent_blocks]. unfold lookup. rewrite E1. cbn [bind]. rewrite E3. cbn [bind].
      destruct (IH (k + length (names_of x)) (dset s (firstn (length (names_of x)) (skipn k columns)) d) (fun s' H => HB s' (or_intror H)) H2) as (d' & F1 & F2 & F3).
      exists d'. split; [exact F1 |]. split.
      + intros s' HI. rewrite F2; [| intros H; apply HI; right; exact H]. apply dget_dset_other. intros ->. apply HI. left. reflexivity.
      + intros l1 s' l2 EL. destruct l1 as [| s1 l1]; injection EL as -> EL.
        * cbn [flat_map length]. rewrite F2 by exact H1. rewrite dget_dset_same, EN, Nat.add_0_r. reflexivity.
        * rewrite (F3 l1 s' l2 EL). cbn [flat_map]. rewrite app_length, full_length, EN, Nat.add_assoc. reflexivity.
  Qed.
End Independent.
