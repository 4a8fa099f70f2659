(** Lemmas for the reconstruction of test data. *)
From Coq Require Import Reals Lra Lia.
From Verif Require Import Py PyFacts PyStr RList M_Source L_Source M_Tray M_TestReco S_TestReco L_Tray.
From Verif Require M_Reco T_Reco M_Cascade L_Cascade L_Simulation M_Trafo.
Open Scope R_scope.

(** ** Running modules one after the other *)
Section Run.
  Variables V D : Type.
  Variable clock : nat -> V.
  Notation run := (M_Tray.run V D clock).
  Notation module := (M_Tray.module V D).

  Lemma run_app l1 : forall k l2 d res, run k (l1 ++ l2) d res = bind (run k l1 d res) (fun res' => run (k + length l1) l2 d res').
  Proof.
    induction l1 as [| (n, m) l1 IH]; intros k l2 d res; cbn [app M_Tray.run length].
    - rewrite Nat.add_0_r. reflexivity.
    - destruct (m d res) as [r | e]; cbn [bind]; [| reflexivity]. destruct (dmem "runtime" r); [reflexivity |].
      rewrite IH, Nat.add_succ_r. reflexivity.
  Qed.

  Lemma run_other l : forall k d res res' n, run k l d res = Ok res' -> ~ In n (map fst l) -> dget n res' = dget n res.
  Proof.
    induction l as [| (n0, m) l IH]; intros k d res res' n R NI; cbn [M_Tray.run] in R; [injection R as <-; reflexivity |].
    destruct (m d res) as [r | e]; cbn [bind] in R; [| discriminate]. destruct (dmem "runtime" r); [discriminate |].
    rewrite (IH _ _ _ _ n R) by (intros I; apply NI; right; exact I).
    apply dget_dset_other. intros ->. apply NI. left. reflexivity.
  Qed.

  (** The result of a module, computed from those before it *)
  Lemma run_get l1 n m l2 k d res res' : run k (l1 ++ (n, m) :: l2) d res = Ok res' -> NoDup (map fst (l1 ++ (n, m) :: l2)) ->
    exists res1 r, run k l1 d res = Ok res1 /\ m d res1 = Ok r /\
      dget n res' = Some (dset "runtime" (clock (k + length l1)) r) /\
      forall n', In n' (map fst l1) -> dget n' res1 = dget n' res'.
  Proof.
    intros R ND. rewrite run_app in R. destruct (run k l1 d res) as [res1 | e] eqn:E1; cbn [bind] in R; [| discriminate].
    cbn [M_Tray.run] in R. destruct (m d res1) as [r | e] eqn:EM; cbn [bind] in R; [| discriminate].
    destruct (dmem "runtime" r) eqn:EQ; [discriminate |]. exists res1, r. split; [reflexivity |]. split; [exact EM |].
    rewrite map_app in ND. cbn [map fst] in ND. apply NoDup_remove in ND as (ND & NI).
    split.
    - rewrite (run_other _ _ _ _ _ n R) by (intros I; apply NI, in_or_app; right; exact I). apply dget_dset_same.
    - intros n' I. rewrite (run_other _ _ _ _ _ n' R).
      + symmetry. apply dget_dset_other. intros ->. apply NI, in_or_app. left. exact I.
      + intros I2. clear - ND I I2. induction (map fst l1) as [| x l IH]; [destruct I |].
        inversion ND; subst. destruct I as [-> | I]; [apply H1, in_or_app; right; exact I2 | exact (IH H2 I)].
  Qed.
End Run.

Lemma reshape_row n (r : row) : length r = n -> n <> 0%nat -> exists a, M_Reco.reshape n r = Ok a /\ M_Trafo.ar_rows a = [r].
Proof.
  intros L N. unfold M_Reco.reshape. rewrite (proj2 (Nat.eqb_neq n 0) N), L.
  rewrite Nat.mod_same by exact N. cbn [Nat.eqb]. rewrite Nat.div_same by exact N. eexists. split; [reflexivity |].
  cbn [M_Reco.table M_Trafo.ar_rows M_Reco.chunks]. rewrite firstn_all2 by lia. reflexivity.
Qed.

Lemma set_tensor_length v : forall b i, length (set_tensor i v b) = length b.
Proof. induction b as [| x b IH]; intros [| i]; cbn; auto. Qed.
Lemma set_tensor_same v : forall b i, (i < length b)%nat -> nth_error (set_tensor i v b) i = Some v.
Proof. induction b as [| x b IH]; intros [| i] L; cbn in *; try lia; [reflexivity | apply IH; lia]. Qed.
Lemma set_tensor_other v : forall b i j, j <> i -> nth_error (set_tensor i v b) j = nth_error b j.
Proof.
  induction b as [| x b IH]; intros [| i] [| j] N; cbn; try reflexivity; try congruence. apply IH. congruence.
Qed.

Lemma nth_error_eq {A} : forall l l' : list A, (forall i, nth_error l i = nth_error l' i) -> l = l'.
Proof.
  induction l as [| x l IH]; intros [| y l'] H; [reflexivity | specialize (H 0%nat); discriminate | specialize (H 0%nat); discriminate |].
  f_equal; [specialize (H 0%nat); cbn in H; congruence |]. apply IH. intros i. exact (H (S i)).
Qed.

Lemma replaced_unique i rows b b' : (i < length b)%nat -> Replaced i rows b b' -> b' = set_tensor i (TRows rows) b.
Proof.
  intros L (LB & S & O). apply nth_error_eq. intros j. destruct (Nat.eq_dec j i) as [-> | N].
  - rewrite S. symmetry. apply set_tensor_same. exact L.
  - rewrite (O j N). symmetry. apply set_tensor_other. exact N.
Qed.
Lemma replaced_exists i rows b : (i < length b)%nat -> Replaced i rows b (set_tensor i (TRows rows) b).
Proof.
  intros L. split; [apply set_tensor_length |]. split; [apply set_tensor_same; exact L |].
  intros j N. apply set_tensor_other. exact N.
Qed.

(** Flags *)
Lemma set_flag_length v : forall l i, length (set_flag i v l) = length l.
Proof. induction l as [| x l IH]; intros [| i]; cbn; auto. Qed.
Lemma set_flag_same v : forall l i, (i < length l)%nat -> nth_error (set_flag i v l) i = Some v.
Proof. induction l as [| x l IH]; intros [| i] L; cbn in *; try lia; [reflexivity | apply IH; lia]. Qed.
Lemma set_flag_other v : forall l i j, j <> i -> nth_error (set_flag i v l) j = nth_error l j.
Proof.
  induction l as [| x l IH]; intros [| i] [| j] N; cbn; try reflexivity; try congruence. apply IH. congruence.
Qed.

Lemma fit_flags_spec names d : forall l flags, NoDup names -> dwf d -> length l = length names ->
  fit_flags names d l = Ok flags ->
  length flags = length names /\
  forall j name, nth_error names j = Some name ->
    nth_error flags j = match dget name d with Some v => Some v | None => nth_error l j end.
Proof.
  induction d as [| (k, v) d IH]; intros l flags N W L F; cbn [fit_flags] in F.
  - injection F as <-. split; [exact L |]. reflexivity.
  - destruct (M_Cascade.name_index names k) as [i | e] eqn:NI; cbn [bind] in F; [| discriminate].
    pose proof (L_Cascade.name_index_nth _ _ _ NI) as EI.
    assert (IL : (i < length names)%nat) by (apply nth_error_Some; congruence).
    unfold dwf in W. cbn in W. inversion W as [| ? ? W1 W2]; subst.
    destruct (IH (set_flag i v l) flags N W2) as (LF & H); [rewrite set_flag_length; exact L | exact F |].
    split; [exact LF |]. intros j name E. rewrite (H j name E). cbn [dget].
    destruct (String.eqb_spec name k) as [-> | NK].
    + rewrite (proj2 (dget_None_iff k d) W1).
      assert (j = i) as -> by (apply (proj1 (NoDup_nth_error names) N); [apply nth_error_Some; congruence | congruence]).
      apply set_flag_same. lia.
    + destruct (dget name d); [reflexivity |]. apply set_flag_other. intros ->. congruence.
Qed.

Lemma fit_flags_error names d : forall l e, fit_flags names d l = Err e -> e = KeyError.
Proof.
  induction d as [| (k, v) d IH]; intros l e F; cbn [fit_flags] in F; [discriminate |].
  destruct (M_Cascade.name_index names k) as [i | e'] eqn:NI; cbn [bind] in F; [exact (IH _ _ F) |].
  injection F as <-. exact (L_Simulation.index_error _ _ _ NI).
Qed.

(** ** Stacks and columns *)
Lemma stack_ok {A} (rows : list (list A)) s : stack rows = Ok s -> s = rows /\ rows <> [].
Proof.
  unfold stack. destruct rows as [| r rows]; [discriminate |]. destruct (forallb _ _); [| discriminate].
  intros [= <-]. split; [reflexivity | discriminate].
Qed.

Lemma col_ok {A} (rows : list (list A)) j v : col rows j = Ok v ->
  length v = length rows /\ forall i r, nth_error rows i = Some r -> exists x, nth_error r j = Some x /\ nth_error v i = Some x.
Proof.
  revert v. induction rows as [| r rows IH]; intros v C; cbn in C.
  - injection C as <-. split; [reflexivity |]. intros [| i] r E; discriminate.
  - fold (col rows j) in C. destruct (col rows j) as [l | e]; cbn [bind] in C; [| discriminate].
    destruct (nth_error r j) as [x |] eqn:E; [| discriminate]. injection C as <-.
    destruct (IH l eq_refl) as (L & H). split; [cbn; congruence |].
    intros [| i] r' E'; cbn in E' |- *; [injection E' as <-; exists x; auto | exact (H i r' E')].
Qed.

Lemma columns_ok suffixes l cols : columns suffixes l = Ok cols ->
  map fst cols = flat_map (fun jn => map (fun s => (snd jn ++ fst s)%string) suffixes) l /\
  forall j name s rows, In (j, name) l -> In (s, rows) suffixes ->
    exists v : list (option R), col rows j = Ok v /\ In ((name ++ s)%string, v) cols.
Proof.
  unfold column in *. revert cols. induction l as [| (j0, n0) l IH]; intros cols C; cbn [columns] in C; unfold column in *.
  - injection C as <-. split; [reflexivity |]. intros ? ? ? ? [].
  - assert (HH : forall (ss : list (string * list (list (option R)))) h, fold_right (fun s acc => bind (col (snd s) j0) (fun v => bind acc (fun l =>
                Ok (((n0 ++ fst s)%string, v) :: l)))) (Ok []) ss = Ok h ->
              map fst h = map (fun s => (n0 ++ fst s)%string) ss /\
              forall s rows, In (s, rows) ss -> exists v, col rows j0 = Ok v /\ In ((n0 ++ s)%string, v) h).
    { clear. induction ss as [| (s, rows) ss IH]; intros h H; cbn [fold_right fst snd] in H.
      - injection H as <-. split; [reflexivity |]. intros ? ? [].
      - destruct (col rows j0) as [v | e] eqn:CE; cbn [bind] in H; [| discriminate].
        match type of H with bind ?f _ = _ => destruct f as [h' | e] eqn:F end; cbn [bind] in H; [| discriminate].
        injection H as <-. destruct (IH h' eq_refl) as (M & I). split; [cbn; rewrite M; reflexivity |].
        intros s' rows' [[= <- <-] | IS]; [exists v; split; [exact CE | left; reflexivity] |].
        destruct (I _ _ IS) as (v' & CV & IV). exists v'. split; [exact CV | right; exact IV]. }
    match type of C with bind ?f _ = _ => destruct f as [h | e] eqn:EH end; cbn [bind] in C; [| discriminate].
    destruct (columns suffixes l) as [later | e]; cbn [bind] in C; [| discriminate]. injection C as <-.
    destruct (HH _ _ EH) as (M & I). destruct (IH later eq_refl) as (M' & I').
    split; [rewrite map_app, M, M'; reflexivity |].
    intros j name s rows [[= <- <-] | IL] IS.
    + destruct (I _ _ IS) as (v & CV & IV). exists v. split; [exact CV | apply in_or_app; left; exact IV].
    + destruct (I' _ _ _ _ IL IS) as (v & CV & IV). exists v. split; [exact CV | apply in_or_app; right; exact IV].
Qed.

(** Assigned columns: all of the same length, the last of equal names *)
Lemma add_columns_app l1 : forall l2 df, add_columns (l1 ++ l2) df = bind (add_columns l1 df) (add_columns l2).
Proof.
  induction l1 as [| (n, v) l1 IH]; intros l2 df; cbn [app add_columns bind]; [reflexivity |].
  destruct (add_column n v df) as [df' | e]; cbn [bind]; [apply IH | reflexivity].
Qed.

Lemma dset_head {A} k (v : A) d : exists k0 v0 d0, dset k v d = (k0, v0) :: d0 /\ (d = [] -> v0 = v) /\
  (forall k1 v1 d1, d = (k1, v1) :: d1 -> v0 = v1 \/ v0 = v).
Proof.
  destruct d as [| (k1, v1) d]; cbn [dset]; [exists k, v, []; split; [reflexivity | split; [reflexivity | discriminate]] |].
  destruct (String.eqb k k1); [exists k1, v, d | exists k1, v1, (dset k v d)]; (split; [reflexivity | split; [discriminate |]]);
    intros ? ? ? [= <- <- <-]; auto.
Qed.

Lemma add_columns_ok l : forall df df', add_columns l df = Ok df' ->
  df' = fold_left (fun d nv => dset (fst nv) (snd nv) d) l df /\
  forall n, (forall k v d, df = (k, v) :: d -> length v = n) -> (df = [] -> forall k v, hd_error l = Some (k, v) -> length v = n) ->
    Forall (fun nv => length (snd nv) = n) l.
Proof.
  induction l as [| (k, v) l IH]; intros df df' A; cbn [add_columns] in A.
  - injection A as <-. split; [reflexivity |]. constructor.
  - destruct (add_column k v df) as [d1 | e] eqn:E; cbn [bind] in A; [| discriminate].
    destruct (IH d1 df' A) as (-> & LL).
    assert (E1 : d1 = dset k v df).
    { unfold add_column in E. destruct df as [| (k0, v0) df]; [injection E as <-; reflexivity |].
      destruct (Nat.eqb _ _); [injection E as <-; reflexivity | discriminate]. }
    split; [cbn [fold_left fst snd]; rewrite E1; reflexivity |].
    intros n HD HF.
    assert (LV : length v = n).
    { destruct df as [| (k0, v0) df]; [exact (HF eq_refl k v eq_refl) |].
      unfold add_column in E. destruct (Nat.eqb_spec (length v) (length v0)); [| discriminate].
      rewrite e. exact (HD _ _ _ eq_refl). }
    subst d1. destruct (dset_head k v df) as (k0 & v0 & d0 & X & H0 & H). rewrite X in LL.
    constructor; [exact LV |]. apply LL; [| discriminate].
    intros k1 v1 d1 [= <- <- <-]. destruct df as [| (k1, v1) df]; [rewrite (H0 eq_refl); exact LV |].
    destruct (H _ _ _ eq_refl) as [-> | ->]; [exact (HD _ _ _ eq_refl) | exact LV].
Qed.

Lemma fold_dset_other {A} k (l : list (string * A)) : forall d, ~ In k (map fst l) ->
  dget k (fold_left (fun d nv => dset (fst nv) (snd nv) d) l d) = dget k d.
Proof.
  induction l as [| (k0, v) l IH]; intros d NI; cbn [fold_left fst snd]; [reflexivity |].
  rewrite IH by (intros I; apply NI; right; exact I). apply dget_dset_other. intros ->. apply NI. left. reflexivity.
Qed.
Lemma fold_dset_get {A} k v (l : list (string * A)) : forall d, NoDup (map fst l) -> In (k, v) l ->
  dget k (fold_left (fun d nv => dset (fst nv) (snd nv) d) l d) = Some v.
Proof.
  induction l as [| (k0, v0) l IH]; intros d N I; [destruct I |]. cbn in N. inversion N; subst.
  destruct I as [[= -> ->] | I]; cbn [fold_left fst snd].
  - rewrite fold_dset_other by assumption. apply dget_dset_same.
  - apply IH; assumption.
Qed.
Lemma fold_dset_keys {A} (l : list (string * A)) : forall d, NoDup (dkeys d ++ map fst l) ->
  dkeys (fold_left (fun d nv => dset (fst nv) (snd nv) d) l d) = dkeys d ++ map fst l.
Proof.
  induction l as [| (k, v) l IH]; intros d N; cbn [fold_left fst snd map] in *; [symmetry; apply app_nil_r |].
  apply NoDup_remove in N as N'. destruct N' as (_ & NI).
  assert (E : dset k v d = d ++ [(k, v)]) by (apply dset_fresh; intros I; apply NI, in_or_app; left; exact I).
  rewrite IH; rewrite E; unfold dkeys; rewrite map_app, <- app_assoc; cbn [map fst app]; [reflexivity | exact N].
Qed.

Lemma add_columns_lengths l df : add_columns l [] = Ok df ->
  df = fold_left (fun d nv => dset (fst nv) (snd nv) d) l [] /\ exists n, Forall (fun nv => length (snd nv) = n) l.
Proof.
  intros A. destruct (add_columns_ok l [] df A) as (E & H). split; [exact E |].
  destruct l as [| (k, v) l]; [exists 0%nat; constructor |]. exists (length v).
  apply H; [discriminate |]. intros _ k0 v0 [= <- <-]. reflexivity.
Qed.

Lemma bind_ok {A B} (r : result A) (f : A -> result B) y : bind r f = Ok y -> exists x, r = Ok x /\ f x = Ok y.
Proof. destruct r as [x | e]; cbn; intros H; [exists x; auto | discriminate]. Qed.
Tactic Notation "obind" hyp(H) ident(x) ident(E) := apply bind_ok in H as (x & E & H).

Section TestReco.
  Variable names : list string.
  Variable mapping : option (dict string).
  Variable tensors : list string.
  Variable fit : list bool -> batch -> list row -> result fitted.
  Variable parameter_loss : batch -> list row -> result (option R).
  Variable get_loss : batch -> result (option R).
  Variable covariance : batch -> dict rvalue -> result covariances.
  Variable goodness_of_fit : batch -> dict (dict rvalue) -> result goodness.
  Variable circular : batch -> dict (dict rvalue) -> result (option R).
  Variable mcmc : batch -> list row -> result nat.
  Variable scan : batch -> dict (dict rvalue) -> result Datatypes.unit.
  Variable init_other : spec -> result Datatypes.unit.
  Variable clock : nat -> rvalue.
  Notation tray := (M_Tray.tray rvalue batch Datatypes.unit Datatypes.unit).
  Notation run := (M_Tray.run rvalue batch clock).
  Notation run_module := (run_module tensors fit parameter_loss covariance goodness_of_fit circular mcmc scan).
  Notation add_all := (add_all tensors fit parameter_loss covariance goodness_of_fit circular mcmc scan init_other).
  Notation init := (init tensors init_other).
  Notation execute := (M_Tray.execute rvalue batch Datatypes.unit Datatypes.unit clock).
  Notation batch_step := (batch_step names tensors get_loss clock).
  Notation batch_loop := (batch_loop names tensors get_loss clock).
  Notation table := (table names).

  (** ** The tray *)
  Lemma add_all_ok c flags l : forall t t', length (t_names _ _ _ _ t) = length (t_modules _ _ _ _ t) ->
    NoDup (t_names _ _ _ _ t) -> add_all c flags l t = Ok t' ->
    length (t_names _ _ _ _ t') = length (t_modules _ _ _ _ t') /\ NoDup (t_names _ _ _ _ t') /\
    t_names _ _ _ _ t' = t_names _ _ _ _ t ++ map fst l /\
    t_modules _ _ _ _ t' = t_modules _ _ _ _ t ++ map (fun ns => run_module c flags (snd ns)) l /\
    Forall (fun ns => init flags (snd ns) = Ok tt) l.
  Proof.
    induction l as [| (n, sp) l IH]; intros t t' L ND A; cbn [M_TestReco.add_all] in A.
    - injection A as <-. rewrite !app_nil_r. auto.
    - unfold add_module in A. destruct (existsb (String.eqb n) (t_names _ _ _ _ t)) eqn:X; [discriminate |].
      destruct (init flags sp) as [[] | e] eqn:I; cbn [bind] in A; [| discriminate].
      apply IH in A; cbn [t_names t_modules] in *.
      + destruct A as (L' & ND' & EN & EM & F). rewrite <- app_assoc in EN, EM.
        repeat (split; [assumption |]). constructor; assumption.
      + rewrite !app_length, L. reflexivity.
      + assert (NI : ~ In n (t_names _ _ _ _ t)).
        { intros IN. rewrite (proj2 (existsb_exists _ _)) in X; [discriminate |].
          exists n. split; [exact IN | apply String.eqb_refl]. }
        apply NoDup_rev in ND. rewrite in_rev in NI. rewrite <- (rev_involutive (t_names _ _ _ _ t)).
        change [n] with (rev [n]). rewrite <- rev_app_distr. apply NoDup_rev. cbn. constructor; assumption.
  Qed.

  Lemma new_tray_ok c flags l t : add_all c flags l (new_tray rvalue batch Datatypes.unit Datatypes.unit) = Ok t ->
    NoDup (map fst l) /\ Forall (fun ns => init flags (snd ns) = Ok tt) l /\
    forall b, execute t b = run 0 (map (fun ns => (fst ns, run_module c flags (snd ns))) l) b [].
  Proof.
    intros A. apply add_all_ok in A as (_ & ND & EN & EM & F); [| reflexivity | constructor].
    cbn in EN, EM. rewrite EN in ND. split; [exact ND |]. split; [exact F |]. intros b. unfold M_Tray.execute.
    f_equal. rewrite EN, EM. clear. induction l as [| (n, sp) l IH]; [reflexivity |]. cbn. f_equal. exact IH.
  Qed.

  (** ** The loop over events *)
  Lemma event_loop_ok b i l : (i < length b)%nat -> forall es, event_loop names get_loss b i l = Ok es ->
    length es = length l /\
    forall k e, nth_error es k = Some e ->
      nth_error l k = Some (e_reco e, e_seed e, e_true e) /\ get_loss b = Ok (e_loss_true e) /\
      (forall b', length (e_seed e) = length names -> Replaced i [e_seed e] b b' -> get_loss b' = Ok (e_loss_seed e)) /\
      (forall b', length (e_reco e) = length names -> Replaced i [e_reco e] b b' -> get_loss b' = Ok (e_loss_reco e)).
  Proof.
    intros LI. induction l as [| ((reco, seed), truth) l IH]; intros es E; cbn [event_loop] in E.
    - injection E as <-. split; [reflexivity |]. intros [| k] e H; discriminate.
    - obind E bs ES. obind E br ER. obind E loss1 LT. obind E loss2 LS. obind E loss3 LR. obind E es' EE. injection E as <-.
      destruct (IH es' EE) as (L & H). split; [cbn; congruence |].
      intros [| k] e HE; cbn in HE |- *; [| exact (H k e HE)]. injection HE as <-. cbn.
      assert (W : forall r br', with_parameters names b i r = Ok br' -> forall b', length r = length names -> Replaced i [r] b b' -> b' = br').
      { intros r br' W b' LR' RP. rewrite (replaced_unique _ _ _ _ LI RP). unfold with_parameters in W.
        obind W a EA. injection W as <-.
        assert (NZ : length names <> 0%nat) by (intros Z; unfold M_Reco.reshape in EA; rewrite Z in EA; discriminate).
        destruct (reshape_row _ r LR' NZ) as (a' & EA' & AR). rewrite EA in EA'. injection EA' as ->.
        rewrite AR. reflexivity. }
      repeat split; [exact LT | |].
      + intros b' LB RP. rewrite (W _ _ ES b' LB RP). exact LS.
      + intros b' LB RP. rewrite (W _ _ ER b' LB RP). exact LR.
  Qed.

  (** ** A batch *)
  Definition mods c flags l := map (fun ns : string * spec => (fst ns, run_module c flags (snd ns))) l.
  Lemma mods_names c flags l : map fst (mods c flags l) = map fst l.
  Proof. unfold mods. rewrite map_map. reflexivity. Qed.
  Lemma mods_app c flags l1 l2 : mods c flags (l1 ++ l2) = mods c flags l1 ++ mods c flags l2.
  Proof. apply map_app. Qed.

  (** The result of the module [n], which sees the results of those before *)
  Lemma mods_get c flags l1 n sp l2 b results : run 0 (mods c flags (l1 ++ (n, sp) :: l2)) b [] = Ok results ->
    NoDup (map fst (l1 ++ (n, sp) :: l2)) ->
    exists before r, run_module c flags sp b before = Ok r /\
      dget n results = Some (dset "runtime" (clock (length l1)) r) /\
      forall n', In n' (map fst l1) -> dget n' before = dget n' results.
  Proof.
    intros R ND. rewrite mods_app in R. cbn [mods map fst snd] in R.
    apply run_get in R as (before & r & _ & EM & EG & H).
    - exists before, r. split; [exact EM |]. unfold mods in EG. rewrite map_length in EG. split; [exact EG |].
      intros n' I. apply H. rewrite mods_names. exact I.
    - rewrite map_app, mods_names. cbn [map fst]. fold (mods c flags l2). rewrite mods_names.
      rewrite map_app in ND. exact ND.
  Qed.

  Definition seeds_of c := seed_names (r_seed c).
  Definition reco_name (s : string) := ("reco_" ++ s)%string.
  (** The plan without random seeds *)
  Definition extra (c : reco_settings) : list (string * spec) :=
    (if r_cov c then [("covariance"%string, SCov)] else [])
    ++ (if r_gof c then [("GoodnessOfFit"%string, SGof)] else [])
    ++ (if r_circ c then [("CircularizedAngularUncertainty"%string, SCirc)] else [])
    ++ (if r_mcmc c then [("mcmc"%string, SMcmc)] else [])
    ++ (if r_scan c then [("visualization"%string, SScan)] else []).
  Lemma plan_plain c : r_random c = None ->
    plan c = map (fun s => (reco_name s, SReco s false false)) (seeds_of c)
             ++ ("reco"%string, SSelect (map reco_name (seeds_of c))) :: extra c.
  Proof.
    intros N. unfold plan. rewrite N. cbv zeta. unfold seeds_of.
    assert (E1 : flat_map (seed_plan None) (seed_names (r_seed c))
                 = map (fun s => (reco_name s, SReco s false false)) (seed_names (r_seed c))).
    { induction (seed_names (r_seed c)) as [| s l IH]; [reflexivity |]. cbn [flat_map map]. rewrite IH. reflexivity. }
    assert (E2 : flat_map (seed_recos None) (seed_names (r_seed c)) = map reco_name (seed_names (r_seed c))).
    { clear. induction (seed_names (r_seed c)) as [| s l IH]; [reflexivity |]. cbn [flat_map map]. rewrite IH. reflexivity. }
    rewrite E1, E2. reflexivity.
  Qed.

  Lemma last_map {A B} (f : A -> B) l x y : l <> [] -> last (map f l) y = f (last l x).
  Proof.
    induction l as [| a l IH]; intros N; [congruence |]. destruct l as [| b l]; [reflexivity |].
    exact (IH ltac:(discriminate)).
  Qed.

  (** The entry "reco" of the results is that of the last seed. *)
  Lemma reco_entry c flags b results : r_random c = None -> NoDup (map fst (plan c)) ->
    run 0 (mods c flags (plan c)) b [] = Ok results ->
    seeds_of c <> [] /\
    exists si seeds f reco ls lr,
      tensor_index tensors (last (seeds_of c) "") = Ok si /\ nth_error b si = Some (TRows seeds) /\
      fit flags b seeds = Ok f /\ parameter_loss b seeds = Ok ls /\ parameter_loss b (f_result f) = Ok lr /\
      dget "reco" results = Some reco /\
      dget "result" reco = Some (RRows (f_result f)) /\ dget "result_trafo" reco = Some (RRows (f_trafo f)) /\
      dget "result_object" reco = Some (RObj (f_hess f)) /\
      dget "loss_seed" reco = Some (RNum ls) /\ dget "loss_reco" reco = Some (RNum lr) /\
      dget "seed_tensor_name" reco = Some (RText (last (seeds_of c) "")) /\
      dget "seed_from_previous_module" reco = Some (RFlag false).
  Proof.
    intros NR ND R. rewrite plan_plain in ND, R by exact NR.
    destruct (mods_get _ _ _ _ _ _ _ _ R ND) as (before & r & ER & EG & HB).
    cbn [M_TestReco.run_module] in ER.
    assert (NE : seeds_of c <> []).
    { intros Z. rewrite Z in ER. cbn [map] in ER. rewrite T_Reco.C48_no_names in ER. discriminate. }
    split; [exact NE |]. destruct (T_Reco.C48_last _ _ _ _ _ ER) as (m & EM & _ & _ & HM).
    rewrite (last_map reco_name _ "" "" NE) in EM. set (s := last (seeds_of c) "") in *.
    assert (SP : seeds_of c = removelast (seeds_of c) ++ [s]) by (apply app_removelast_last; exact NE).
    assert (EP : forall x, map (fun s => (reco_name s, SReco s false false)) (seeds_of c) ++ x =
      map (fun s => (reco_name s, SReco s false false)) (removelast (seeds_of c)) ++ (reco_name s, SReco s false false) :: x).
    { intros x. rewrite SP at 1. rewrite map_app, <- app_assoc. reflexivity. }
    rewrite EP in R, ND.
    destruct (mods_get _ _ _ _ _ _ _ _ R ND) as (before' & r' & ER' & EG' & _).
    assert (EM' : dget (reco_name s) results = Some m).
    { rewrite <- EM. symmetry. apply HB. rewrite map_map. apply in_map_iff. exists s. split; [reflexivity |].
      rewrite SP. apply in_or_app. right. left. reflexivity. }
    rewrite EG' in EM'. injection EM' as <-.
    cbn [M_TestReco.run_module] in ER'. unfold run_reco in ER'. cbn beta iota in ER'.
    obind ER' seeds ES. obind ES si EI. unfold batch_rows in ES.
    destruct (nth_error b si) as [[rows | ?] |] eqn:EB; try discriminate. injection ES as ->.
    obind ER' f EF. obind ER' ls EL. obind ER' lr ELR. injection ER' as <-.
    exists si, seeds, f. eexists. exists ls, lr. do 6 (split; [eassumption |]).
    rewrite !(dget_dset_other _ "runtime") by discriminate.
    rewrite !HM by discriminate. rewrite !(dget_dset_other _ "runtime") by discriminate. repeat split.
  Qed.

  Lemma extra_entry c flags b results n sp : r_random c = None -> NoDup (map fst (plan c)) ->
    run 0 (mods c flags (plan c)) b [] = Ok results -> In (n, sp) (extra c) ->
    exists before r k, run_module c flags sp b before = Ok r /\ dget n results = Some (dset "runtime" (clock k) r) /\
      dget "reco" before = dget "reco" results.
  Proof.
    intros NR ND R I. apply in_split in I as (e1 & e2 & E). rewrite plan_plain in ND, R by exact NR.
    rewrite E in ND, R. rewrite app_comm_cons, app_assoc in ND, R.
    destruct (mods_get _ _ _ _ _ _ _ _ R ND) as (before & r & ER & EG & HB). exists before, r. eexists.
    split; [exact ER |]. split; [exact EG |]. apply HB. rewrite map_app. apply in_or_app. right. left. reflexivity.
  Qed.

  (** What a batch contributes *)
  Record out := mk_out {
    u_fit : fitted; u_events : list event_row; u_cov : list cov_row; u_gof : list gof_row; u_circ : list (option R) }.
  (** [reco] is the result of the fit [f]. *)
  Definition FitEntry (f : fitted) (reco : dict rvalue) : Prop :=
    dget "result" reco = Some (RRows (f_result f)) /\ dget "result_trafo" reco = Some (RRows (f_trafo f)) /\
    dget "result_object" reco = Some (RObj (f_hess f)).
  Definition CovOf (c : reco_settings) (m : dict string) (b : batch) (f : fitted) (rows : list cov_row) : Prop :=
    if r_cov c then
      exists reco v zn zen an azi, FitEntry f reco /\ covariance b reco = Ok v /\ r_trafo c = true /\ f_hess f = true /\
        dget "zenith" m = Some zn /\ M_Cascade.name_index names zn = Ok zen /\
        dget "azimuth" m = Some an /\ M_Cascade.name_index names an = Ok azi /\
        rows = [mk_cov_row (v_cov v zen azi) (v_fit v zen azi) (std_dev names (v_cov v)) (std_dev names (v_fit v))
                  (std_dev names (v_sand v)) (std_dev names (v_sand_fit v))]
    else rows = [].
  Definition GofOf (c : reco_settings) (b : batch) (f : fitted) (rows : list gof_row) : Prop :=
    if r_gof c then
      exists results reco y, dget "reco" results = Some reco /\ FitEntry f reco /\ goodness_of_fit b results = Ok y /\
        rows = [mk_gof_row (y_p1 y) (y_p2 y)
                  (match y_samples y with Some (bias, cov) => Some (bias, std_dev names cov) | None => None end)]
    else rows = [].
  Definition CircOf (c : reco_settings) (b : batch) (f : fitted) (xs : list (option R)) : Prop :=
    if r_circ c then
      exists results reco x, dget "reco" results = Some reco /\ FitEntry f reco /\ circular b results = Ok x /\ xs = [x]
    else xs = [].
  Definition BatchResult (c : reco_settings) (m : dict string) (flags : list bool) (param si : nat) (bound : bool)
      (b : batch) (o : out) : Prop :=
    BatchOf names fit get_loss flags param si b (u_fit o) (u_events o) /\
    CovOf c m b (u_fit o) (u_cov o) /\ GofOf c b (u_fit o) (u_gof o) /\ CircOf c b (u_fit o) (u_circ o) /\
    (r_mcmc c = true -> length (f_result (u_fit o)) = 1%nat /\
       exists n, mcmc b (f_result (u_fit o)) = Ok n /\ (n = 0%nat \/ bound = true)) /\
    r_scan c = false.

  Definition plain_tray c flags (t : tray) := forall b, execute t b = run 0 (mods c flags (plan c)) b [].

  Lemma extra_in c : 
    (r_cov c = true -> In ("covariance"%string, SCov) (extra c)) /\
    (r_gof c = true -> In ("GoodnessOfFit"%string, SGof) (extra c)) /\
    (r_circ c = true -> In ("CircularizedAngularUncertainty"%string, SCirc) (extra c)) /\
    (r_mcmc c = true -> In ("mcmc"%string, SMcmc) (extra c)) /\
    (r_scan c = true -> In ("visualization"%string, SScan) (extra c)).
  Proof.
    unfold extra. repeat split; intros ->; repeat (apply in_or_app; (left; left; reflexivity) || right || idtac);
      repeat (apply in_or_app; right); try (left; reflexivity); apply in_or_app; left; left; reflexivity.
  Qed.

  Lemma lookup_ok {A} k (d : dict A) v : lookup k d = Ok v -> dget k d = Some v.
  Proof. unfold lookup. destruct (dget k d); [intros [= ->]; reflexivity | discriminate]. Qed.
  Lemma lookup_some {A} k (d : dict A) v : dget k d = Some v -> lookup k d = Ok v.
  Proof. unfold lookup. intros ->. reflexivity. Qed.

  Lemma nth_error_combine {A B} : forall (l : list A) (l' : list B) k x y,
    nth_error (combine l l') k = Some (x, y) <-> nth_error l k = Some x /\ nth_error l' k = Some y.
  Proof.
    induction l as [| a l IH]; intros [| b l'] [| k] x y; cbn; try (split; [discriminate | intros (H1 & H2); congruence]).
    - split; [intros [= -> ->]; auto | intros ([= ->] & [= ->]); reflexivity].
    - apply IH.
  Qed.

  Lemma batch_step_ok c m flags param t st b st' : r_random c = None -> NoDup (map fst (plan c)) -> plain_tray c flags t ->
    batch_step c m param t st b = Ok st' ->
    seeds_of c <> [] /\ exists si o, tensor_index tensors (last (seeds_of c) "") = Ok si /\
      BatchResult c m flags param si (st_bound st) b o /\
      st' = mk_state (st_events st ++ u_events o) (st_cov st ++ u_cov o) (st_gof st ++ u_gof o) (st_circ st ++ u_circ o)
              (match u_events o with [] => st_bound st | _ => true end).
  Proof.
    intros NR ND PT B. unfold M_TestReco.batch_step in B. rewrite PT in B.
    obind B results ER. destruct (reco_entry _ _ _ _ NR ND ER) as (NE & si & seeds & f & reco & ls & lr & EI & EB & EF & _ & _ & EG & FR & FT & FO & _ & _ & FN & FP).
    split; [exact NE |].
    rewrite (lookup_some _ _ _ EG) in B. cbn [bind] in B.
    unfold seed_index in B. rewrite (lookup_some _ _ _ FP), (lookup_some _ _ _ FN), (lookup_some _ _ _ FR) in B. cbn [bind] in B.
    rewrite EI in B. cbn [bind as_rows] in B.
    obind B truths ET. obind B seeds' ES. unfold batch_rows in ES, ET. rewrite EB in ES. injection ES as <-.
    destruct (nth_error b param) as [[rows | ?] |] eqn:EP; try discriminate. injection ET as ->.
    obind B covs EC. obind B gofs EY. obind B circs EX. obind B u EM. obind B es EE. injection B as <-.
    assert (LP : (param < length b)%nat) by (apply nth_error_Some; congruence).
    destruct (event_loop_ok _ _ _ LP _ EE) as (LE & HE).
    exists si, (mk_out f es covs gofs circs). split; [exact EI |]. split; [| reflexivity].
    assert (FE : FitEntry f reco) by (repeat split; assumption).
    destruct (extra_in c) as (I1 & I2 & I3 & I4 & I5).
    unfold BatchResult. cbn [u_fit u_events u_cov u_gof u_circ]. split; [| split; [| split; [| split; [| split]]]].
    - exists truths, seeds. repeat (split; [assumption |]). split.
      + rewrite LE, !combine_length. lia.
      + intros k e HK. destruct (HE k e HK) as (N & H1 & H2 & H3). apply nth_error_combine in N as (N & N3).
        apply nth_error_combine in N as (N1 & N2). auto 10.
    - unfold CovOf. destruct (r_cov c); [| injection EC as <-; reflexivity]. obind EC x EX1. injection EC as <-.
      destruct (extra_entry _ _ _ _ _ _ NR ND ER (I1 eq_refl)) as (before & r & k & RM & EG1 & HB).
      cbn [M_TestReco.run_module] in RM. unfold run_cov in RM. rewrite (lookup_some _ _ _ (eq_trans HB EG)) in RM. cbn [bind] in RM.
      obind RM v EV. destruct (r_trafo c) eqn:TF; cbn [negb] in RM; [| discriminate].
      rewrite (lookup_some _ _ _ FO) in RM. cbn [bind] in RM. injection RM as RM.
      unfold cov_step in EX1. rewrite (lookup_some _ _ _ EG1) in EX1. cbn [bind] in EX1.
      obind EX1 c1 E1. obind EX1 c2 E2. obind EX1 c3 E3. obind EX1 c4 E4. obind EX1 zen E5. obind EX1 azi E6. injection EX1 as <-.
      obind E5 zn Z1. obind E6 an Z2. apply lookup_ok in Z1, Z2.
      obind E1 v1 G1. obind E2 v2 G2. obind E3 v3 G3. obind E4 v4 G4. apply lookup_ok in G1, G2, G3, G4.
      rewrite dget_dset_other in G1, G2, G3, G4 by discriminate.
      destruct (f_hess f) eqn:FH; subst r; cbn in G1, G2, G3, G4; [| discriminate].
      injection G1 as <-. injection G2 as <-. injection G3 as <-. injection G4 as <-.
      injection E1 as <-. injection E2 as <-. injection E3 as <-. injection E4 as <-.
      exists reco, v, zn, zen, an, azi. repeat (split; [assumption || reflexivity |]). reflexivity.
    - unfold GofOf. destruct (r_gof c); [| injection EY as <-; reflexivity]. obind EY x EX1. injection EY as <-.
      destruct (extra_entry _ _ _ _ _ _ NR ND ER (I2 eq_refl)) as (before & r & k & RM & EG1 & HB).
      cbn [M_TestReco.run_module] in RM. unfold run_gof in RM. obind RM y EYY. injection RM as RM.
      exists before, reco, y. split; [congruence |]. split; [exact FE |]. split; [exact EYY |].
      unfold gof_step in EX1. rewrite (lookup_some _ _ _ EG1) in EX1. cbn [bind] in EX1.
      obind EX1 p1 E1. obind EX1 p2 E2. obind E1 v1 G1. obind E2 v2 G2. apply lookup_ok in G1, G2.
      rewrite dget_dset_other in G1, G2 by discriminate. rewrite dget_dset_other in EX1 by discriminate. subst r.
      cbn in G1, G2. injection G1 as <-. injection G2 as <-. injection E1 as <-. injection E2 as <-.
      destruct (y_samples y) as [(bias, cov) |]; cbn in EX1.
      + unfold lookup in EX1. cbn in EX1. injection EX1 as <-. reflexivity.
      + injection EX1 as <-. reflexivity.
    - unfold CircOf. destruct (r_circ c); [| injection EX as <-; reflexivity]. obind EX r1 E1. obind EX x E2. injection EX as <-.
      destruct (extra_entry _ _ _ _ _ _ NR ND ER (I3 eq_refl)) as (before & r & k & RM & EG1 & HB).
      cbn [M_TestReco.run_module] in RM. obind RM y EYY. injection RM as RM.
      exists before, reco, y. split; [congruence |]. split; [exact FE |]. split; [exact EYY |].
      apply lookup_ok in E1. rewrite EG1 in E1. injection E1 as <-. subst r. obind E2 v G. apply lookup_ok in G. cbn in G.
      injection G as <-. cbn in E2. congruence.
    - intros MC. rewrite MC in EM.
      destruct (extra_entry _ _ _ _ _ _ NR ND ER (I4 MC)) as (before & r & k & RM & EG1 & HB).
      cbn [M_TestReco.run_module] in RM. unfold run_mcmc in RM. rewrite (lookup_some _ _ _ (eq_trans HB EG)) in RM. cbn [bind] in RM.
      rewrite (lookup_some _ _ _ FR) in RM. cbn [bind as_rows] in RM.
      destruct (Nat.eqb_spec (length (f_result f)) 1) as [L1 | ?]; cbn [negb] in RM; [| discriminate]. split; [exact L1 |].
      obind RM n EN. injection RM as RM. exists n. split; [exact EN |].
      unfold mcmc_step in EM. rewrite (lookup_some _ _ _ EG1) in EM. cbn [bind] in EM. subst r. cbn in EM.
      destruct n; [left; reflexivity |]. destruct (st_bound st); [right; reflexivity | discriminate].
    - destruct (r_scan c) eqn:SC; [| reflexivity].
      destruct (extra_entry _ _ _ _ _ _ NR ND ER (I5 eq_refl)) as (before & r & k & RM & _).
      cbn [M_TestReco.run_module] in RM. obind RM y EYY. discriminate.
  Qed.

  Fixpoint Loop (c : reco_settings) (m : dict string) (flags : list bool) (param si : nat) (bound : bool)
      (bs : list batch) (os : list out) : Prop :=
    match bs, os with
    | [], [] => True
    | b :: bs, o :: os => BatchResult c m flags param si bound b o /\
        Loop c m flags param si (match u_events o with [] => bound | _ => true end) bs os
    | _, _ => False
    end.

  Lemma batch_loop_ok c m flags param t bs : r_random c = None -> NoDup (map fst (plan c)) -> plain_tray c flags t ->
    forall st st', batch_loop c m param t st bs = Ok st' ->
    (bs <> [] -> seeds_of c <> []) /\
    exists si os, (bs <> [] -> tensor_index tensors (last (seeds_of c) "") = Ok si) /\
      Loop c m flags param si (st_bound st) bs os /\
      st_events st' = st_events st ++ flat_map u_events os /\ st_cov st' = st_cov st ++ flat_map u_cov os /\
      st_gof st' = st_gof st ++ flat_map u_gof os /\ st_circ st' = st_circ st ++ flat_map u_circ os.
  Proof.
    intros NR ND PT. induction bs as [| b bs IH]; intros st st' B; cbn [M_TestReco.batch_loop] in B.
    - injection B as <-. split; [congruence |]. exists 0%nat, []. cbn. rewrite !app_nil_r. repeat split; congruence.
    - obind B st1 B1. destruct (batch_step_ok _ _ _ _ _ _ _ _ NR ND PT B1) as (NE & si & o & EI & BR & ->).
      split; [intros _; exact NE |]. destruct (IH _ _ B) as (_ & si' & os & EI' & LO & E1 & E2 & E3 & E4).
      cbn [st_events st_cov st_gof st_circ st_bound] in *.
      exists si, (o :: os). split; [intros _; exact EI |]. cbn [Loop flat_map].
      rewrite !app_assoc. repeat (split; [assumption |]).
      split; [split; [exact BR |] | auto]. destruct bs as [| b' bs]; [destruct os; [exact I | destruct LO] |].
      assert (si' = si) as -> by (specialize (EI' ltac:(discriminate)); congruence). exact LO.
  Qed.

  (** ** The table *)
  Lemma numbered_in j name : nth_error names j = Some name <-> In (j, name) (numbered names).
  Proof.
    unfold numbered. split.
    - intros E. apply (nth_error_In _ j). apply nth_error_combine. split; [| exact E].
      assert (L : (j < length names)%nat) by (apply nth_error_Some; congruence).
      rewrite (nth_error_nth' _ 0%nat) by (rewrite seq_length; exact L). rewrite seq_nth by exact L. reflexivity.
    - intros I. apply In_nth_error in I as (k & E). apply nth_error_combine in E as (E1 & E2).
      assert (L : (k < length names)%nat) by (apply nth_error_Some; congruence).
      rewrite (nth_error_nth' _ 0%nat) in E1 by (rewrite seq_length; exact L). rewrite seq_nth in E1 by exact L.
      injection E1 as <-. exact E2.
  Qed.

  Lemma flat_numbered (suffixes : list (string * list (list (option R)))) :
    flat_map (fun jn => map (fun s => (snd jn ++ fst s)%string) suffixes) (numbered names) =
    parameter_columns names (map fst suffixes).
  Proof.
    unfold parameter_columns, numbered. generalize 0%nat. induction names as [| n l IH]; intros k; [reflexivity |].
    cbn [length seq combine flat_map snd]. rewrite IH, map_map. reflexivity.
  Qed.

  (** The column of the elements [j] of rows *)
  Definition ColumnOf {E} (get : E -> list (option R)) (j : nat) (es : list E) (v : column) : Prop :=
    length v = length es /\ forall i e, nth_error es i = Some e -> exists x, nth_error (get e) j = Some x /\ nth_error v i = Some x.
  Lemma column_of {E} (get : E -> list (option R)) j es v : col (map get es) j = Ok v -> ColumnOf get j es v.
  Proof.
    intros C. apply col_ok in C as (L & H). rewrite map_length in L. split; [exact L |].
    intros i e E1. apply H. rewrite nth_error_map, E1. reflexivity.
  Qed.

  Lemma columns_of {E} suffixes (gets : list (string * (E -> list (option R)))) (es : list E) cols :
    suffixes = map (fun sg => (fst sg, map (snd sg) es)) gets -> columns suffixes (numbered names) = Ok cols ->
    map fst cols = parameter_columns names (map fst gets) /\
    forall j name s get, nth_error names j = Some name -> In (s, get) gets ->
      exists v, ColumnOf get j es v /\ In ((name ++ s)%string, v) cols.
  Proof.
    intros -> C. apply columns_ok in C as (M & H). rewrite flat_numbered, map_map in M. cbn [fst] in M.
    split; [exact M |]. intros j name s get EN I.
    destruct (H j name s (map get es)) as (v & CV & IV).
    - apply numbered_in. exact EN.
    - apply in_map_iff. exists (s, get). auto.
    - exists v. split; [apply column_of; exact CV | exact IV].
  Qed.

  Lemma table_ok c st df : table c st = Ok df ->
    st_events st <> [] /\
    exists tot samples, add_columns tot [] = Ok df /\
      map fst tot = column_names names (r_cov c) (r_circ c) (r_gof c) samples /\
      samples = last_has_samples (st_gof st) /\
      (forall j name s get, nth_error names j = Some name ->
         In (s, get) [(""%string, e_true); ("_reco"%string, e_reco); ("_seed"%string, e_seed)] ->
         exists v, ColumnOf (fun e => known (get e)) j (st_events st) v /\ In ((name ++ s)%string, v) tot) /\
      (r_cov c = true ->
         (forall j name s get, nth_error names j = Some name ->
           In (s, get) [("_unc"%string, o_std); ("_unc_fit"%string, o_std_fit); ("_unc_sandwhich"%string, o_sand);
                        ("_unc_sandwhich_fit"%string, o_sand_fit)] ->
           exists v, ColumnOf get j (st_cov st) v /\ In ((name ++ s)%string, v) tot) /\
         In ("cov_zenith_azimuth"%string, map (fun o => Some (o_zen_azi o)) (st_cov st)) tot /\
         In ("cov_fit_zenith_azimuth"%string, map (fun o => Some (o_fit_zen_azi o)) (st_cov st)) tot) /\
      (r_circ c = true -> In ("circular_unc"%string, st_circ st) tot) /\
      (r_gof c = true ->
         In ("event_p_value_1sided"%string, map z_p1 (st_gof st)) tot /\
         In ("event_p_value_2sided"%string, map z_p2 (st_gof st)) tot /\
         (samples = true -> forall j name, nth_error names j = Some name ->
           exists v w, ColumnOf snd j (gof_samples (st_gof st)) v /\ In ((name ++ "_unc_samples")%string, v) tot /\
             ColumnOf (fun s => known (fst s)) j (gof_samples (st_gof st)) w /\ In ((name ++ "_sample_reco_bias")%string, w) tot)) /\
      In ("loss_true"%string, map e_loss_true (st_events st)) tot /\
      In ("loss_reco"%string, map e_loss_reco (st_events st)) tot /\
      In ("loss_seed"%string, map e_loss_seed (st_events st)) tot.
  Proof.
    intros T. unfold M_TestReco.table in T. cbv zeta in T.
    obind T true_rows T1. obind T seed_rows T2. obind T reco_rows T3.
    obind T std_fit C1. obind T std C2. obind T sand C3. obind T sand_fit C4.
    obind T cols K. obind T df1 A1. obind T df2 A2. obind T df3 A3. obind T df4 A4.
    apply stack_ok in T1 as (-> & NE). apply stack_ok in T2 as (-> & _). apply stack_ok in T3 as (-> & _).
    split; [intros Z; rewrite Z in NE; apply NE; reflexivity |].
    destruct (columns_of _ [(""%string, fun e => known (e_true e)); ("_reco"%string, fun e => known (e_reco e));
      ("_seed"%string, fun e => known (e_seed e))] (st_events st) cols eq_refl K) as (M0 & H0). cbn [map fst] in M0.
    (* covariance *)
    assert (X2 : exists t2, add_columns t2 df1 = Ok df2 /\
      map fst t2 = (if r_cov c then parameter_columns names ["_unc"; "_unc_fit"; "_unc_sandwhich"; "_unc_sandwhich_fit"]%string
                                   ++ ["cov_zenith_azimuth"; "cov_fit_zenith_azimuth"]%string else []) /\
      (r_cov c = true ->
         (forall j name s get, nth_error names j = Some name ->
           In (s, get) [("_unc"%string, o_std); ("_unc_fit"%string, o_std_fit); ("_unc_sandwhich"%string, o_sand);
                        ("_unc_sandwhich_fit"%string, o_sand_fit)] ->
           exists v, ColumnOf get j (st_cov st) v /\ In ((name ++ s)%string, v) t2) /\
         In ("cov_zenith_azimuth"%string, map (fun o => Some (o_zen_azi o)) (st_cov st)) t2 /\
         In ("cov_fit_zenith_azimuth"%string, map (fun o => Some (o_fit_zen_azi o)) (st_cov st)) t2)).
    { destruct (r_cov c); [| injection A2 as <-; exists []; split; [reflexivity | split; [reflexivity | discriminate]]].
      apply stack_ok in C1 as (-> & _). apply stack_ok in C2 as (-> & _). apply stack_ok in C3 as (-> & _). apply stack_ok in C4 as (-> & _).
      obind A2 cs KC. obind A2 dfx AX.
      destruct (columns_of _ [("_unc"%string, o_std); ("_unc_fit"%string, o_std_fit); ("_unc_sandwhich"%string, o_sand);
                        ("_unc_sandwhich_fit"%string, o_sand_fit)] (st_cov st) cs eq_refl KC) as (MC & HC). cbn [map fst] in MC.
      eexists (cs ++ _). split; [rewrite add_columns_app, AX; exact A2 |]. split; [rewrite map_app, MC; reflexivity |].
      intros _. split; [| split; apply in_or_app; right; [left | right; left]; reflexivity].
      intros j name s get EN I. destruct (HC j name s get EN I) as (v & CV & IV). exists v. split; [exact CV |].
      apply in_or_app. left. exact IV. }
    destruct X2 as (t2 & B2 & M2 & H2).
    assert (X3 : exists t3, add_columns t3 df2 = Ok df3 /\ map fst t3 = (if r_circ c then ["circular_unc"%string] else []) /\
      (r_circ c = true -> In ("circular_unc"%string, st_circ st) t3)).
    { destruct (r_circ c); [| injection A3 as <-; exists []; split; [reflexivity | split; [reflexivity | discriminate]]].
      eexists. split; [exact A3 |]. split; [reflexivity |]. intros _. left. reflexivity. }
    destruct X3 as (t3 & B3 & M3 & H3).
    assert (X4 : exists t4, add_columns t4 df3 = Ok df4 /\
      map fst t4 = (if r_gof c then ["event_p_value_1sided"; "event_p_value_2sided"]%string
                  ++ (if last_has_samples (st_gof st) then parameter_columns names ["_unc_samples"; "_sample_reco_bias"]%string else [])
                    else []) /\
      (r_gof c = true ->
         In ("event_p_value_1sided"%string, map z_p1 (st_gof st)) t4 /\
         In ("event_p_value_2sided"%string, map z_p2 (st_gof st)) t4 /\
         (last_has_samples (st_gof st) = true -> forall j name, nth_error names j = Some name ->
           exists v w, ColumnOf snd j (gof_samples (st_gof st)) v /\ In ((name ++ "_unc_samples")%string, v) t4 /\
             ColumnOf (fun s => known (fst s)) j (gof_samples (st_gof st)) w /\ In ((name ++ "_sample_reco_bias")%string, w) t4))).
    { destruct (r_gof c); [| injection A4 as <-; exists []; split; [reflexivity | split; [reflexivity | discriminate]]].
      obind A4 dfx AX. destruct (last_has_samples (st_gof st)).
      - obind A4 sd S1. obind A4 bias S2. obind A4 cs KC. apply stack_ok in S1 as (-> & _). apply stack_ok in S2 as (-> & _).
        destruct (columns_of _ [("_unc_samples"%string, snd); ("_sample_reco_bias"%string, fun s => known (fst s))]
          (gof_samples (st_gof st)) cs eq_refl KC) as (MC & HC). cbn [map fst] in MC.
        eexists (_ ++ cs). split; [rewrite add_columns_app, AX; exact A4 |]. split; [rewrite map_app, MC; reflexivity |].
        intros _. split; [left; reflexivity |]. split; [right; left; reflexivity |]. intros _ j name EN.
        destruct (HC j name "_unc_samples"%string snd EN ltac:(left; reflexivity)) as (v & CV & IV).
        destruct (HC j name "_sample_reco_bias"%string _ EN ltac:(right; left; reflexivity)) as (w & CW & IW).
        exists v, w. split; [exact CV |]. split; [apply in_or_app; right; exact IV |]. split; [exact CW | apply in_or_app; right; exact IW].
      - injection A4 as <-. eexists. split; [exact AX |]. split; [reflexivity |]. intros _. split; [left; reflexivity |].
        split; [right; left; reflexivity | discriminate]. }
    destruct X4 as (t4 & B4 & M4 & H4).
    match type of T with add_columns ?l _ = _ => exists (cols ++ t2 ++ t3 ++ t4 ++ l), (last_has_samples (st_gof st)) end.
    split; [rewrite add_columns_app, A1; cbn [bind]; rewrite add_columns_app, B2; cbn [bind];
            rewrite add_columns_app, B3; cbn [bind]; rewrite add_columns_app, B4; exact T |].
    split; [rewrite !map_app, M0, M2, M3, M4; reflexivity |]. split; [reflexivity |].
    split; [| split; [| split; [| split]]].
    - intros j name s get EN I. destruct (H0 j name s (fun e => known (get e)) EN) as (v & CV & IV).
      + destruct I as [[= <- <-] | [[= <- <-] | [[= <- <-] | []]]]; cbn; auto.
      + exists v. split; [exact CV | apply in_or_app; left; exact IV].
    - intros RC. destruct (H2 RC) as (H21 & H22 & H23). split; [| split; apply in_or_app; right; apply in_or_app; left; assumption].
      intros j name s get EN I. destruct (H21 j name s get EN I) as (v & CV & IV). exists v. split; [exact CV |].
      apply in_or_app; right; apply in_or_app; left; exact IV.
    - intros RC. do 2 (apply in_or_app; right). apply in_or_app. left. exact (H3 RC).
    - intros RC. destruct (H4 RC) as (H41 & H42 & H43).
      split; [do 3 (apply in_or_app; right); apply in_or_app; left; exact H41 |].
      split; [do 3 (apply in_or_app; right); apply in_or_app; left; exact H42 |].
      intros LS j name EN. destruct (H43 LS j name EN) as (v & w & CV & IV & CW & IW). exists v, w.
      split; [exact CV |]. split; [do 3 (apply in_or_app; right); apply in_or_app; left; exact IV |].
      split; [exact CW |]. do 3 (apply in_or_app; right); apply in_or_app; left; exact IW.
    - repeat split; do 4 (apply in_or_app; right); [left | right; left | right; right; left]; reflexivity.
  Qed.
End TestReco.

Lemma append_empty s : (s ++ "")%string = s.
Proof. induction s as [| a s IH]; [reflexivity |]. cbn. rewrite IH. reflexivity. Qed.

Lemma forall2_concat_length {A} (l : list (list A)) n : Forall (fun x => length x = n) l -> length (concat l) = (length l * n)%nat.
Proof. induction 1; cbn; [reflexivity |]. rewrite app_length. lia. Qed.

(** Singletons *)
Lemma flat_map_single {A B} (f : A -> list B) (l : list A) : (forall a, In a l -> exists y, f a = [y]) ->
  length (flat_map f l) = length l /\ forall i a, nth_error l i = Some a -> exists y, f a = [y] /\ nth_error (flat_map f l) i = Some y.
Proof.
  induction l as [| a l IH]; intros H; cbn; [split; [reflexivity | intros [| i] a E; discriminate] |].
  destruct (H a (or_introl eq_refl)) as (y & E). destruct (IH (fun a' I => H a' (or_intror I))) as (L & N).
  rewrite E. cbn. split; [congruence |]. intros [| i] a' EA; [injection EA as <-; exists y; auto | exact (N i a' EA)].
Qed.

Lemma std_dev_root names m j : (j < length names)%nat -> exists y, nth_error (std_dev names m) j = Some y /\ Root (m j j) y.
Proof.
  intros L. unfold std_dev. rewrite nth_error_map, (nth_error_nth' _ 0%nat) by (rewrite seq_length; exact L).
  rewrite seq_nth by exact L. cbn [option_map Nat.add]. eexists. split; [reflexivity |].
  destruct (Rltb (m j j) 0) eqn:E; cbn.
  - apply Rltb_true in E. exact E.
  - apply Rltb_false in E. split; [apply sqrt_pos | apply sqrt_sqrt; lra].
Qed.

(** Names of modules are different for different seeds. *)
Lemma plan_names c : r_random c = None -> NoDup (map fst (plan c)) <-> NoDup (seed_names (r_seed c)).
Proof.
  intros NR. rewrite plan_plain by exact NR. unfold seeds_of. rewrite map_app. cbn [map fst]. rewrite map_map. cbn [fst].
  split; intros N.
  - assert (N' : NoDup (map reco_name (seed_names (r_seed c)))).
    { clear - N. induction (map reco_name (seed_names (r_seed c))) as [| x l IH]; [constructor |].
      cbn in N. inversion N; subst. constructor; [intros I; apply H1, in_or_app; left; exact I | exact (IH H2)]. }
    apply NoDup_map_inv in N'. exact N'.
  - assert (NS : NoDup (map reco_name (seed_names (r_seed c)))).
    { apply FinFun.Injective_map_NoDup; [| exact N]. intros x y [= E]. exact E. }
    assert (F : forall n, In n ("reco"%string :: map fst (extra c)) -> ~ In n (map reco_name (seed_names (r_seed c)))).
    { intros n I I2. apply in_map_iff in I2 as (s & <- & _). unfold extra in I.
      destruct (r_cov c), (r_gof c), (r_circ c), (r_mcmc c), (r_scan c); cbn in I;
        repeat (destruct I as [I | I]; [discriminate |]); destruct I. }
    assert (NE : NoDup ("reco"%string :: map fst (extra c))).
    { unfold extra. destruct (r_cov c), (r_gof c), (r_circ c), (r_mcmc c), (r_scan c); cbn;
        repeat (constructor; [cbn; intuition discriminate |]); constructor. }
    revert F NE. generalize ("reco"%string :: map fst (extra c)). intros l2 F NE. clear - NS F NE.
    induction (map reco_name (seed_names (r_seed c))) as [| x l IH]; [exact NE |]. inversion NS; subst. cbn. constructor.
    + intros I. apply in_app_or in I as [I | I]; [exact (H1 I) | exact (F x I (or_introl eq_refl))].
    + apply IH; [exact H2 | intros n I I2; exact (F n I (or_intror I2))].
Qed.
