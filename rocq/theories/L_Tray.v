(** Lemmas about the reconstruction tray and the function cache. *)
From Verif Require Import Py PyFacts PyStr PyStrFacts M_Tray S_Tray.

Lemma dset_fresh {A} k (v : A) d : ~ In k (map fst d) -> dset k v d = d ++ [(k, v)].
Proof.
  induction d as [| (k', v') d IH]; intros H; [reflexivity |]. simpl in *.
  destruct (String.eqb_spec k k') as [-> | N]; [tauto |].
  f_equal. apply IH. tauto.
Qed.

Lemma existsb_string_In n l : existsb (String.eqb n) l = true <-> In n l.
Proof.
  rewrite existsb_exists. split.
  - intros (x & I & E). apply String.eqb_eq in E. subst. exact I.
  - intros I. exists n. split; [exact I | apply String.eqb_refl].
Qed.

Lemma nth_not_before (l : list string) : NoDup l -> forall i d, (i < length l)%nat ->
  ~ In (nth i l d) (firstn i l).
Proof.
  induction 1 as [| a l NI N IH]; intros [| i] d H; simpl in *; try lia; try tauto.
  intros [E | I].
  - apply NI. rewrite E. apply nth_In. lia.
  - apply (IH i d); [lia | exact I].
Qed.

Section Tray.
  Variables V D F S : Type.
  Variable clock : nat -> V.

  Notation tray := (tray V D F S).
  Notation zip := (zip_results V).

  Definition wf (t : tray) : Prop :=
    NoDup (t_names _ _ _ _ t) /\
    length (t_names _ _ _ _ t) = length (t_modules _ _ _ _ t).

  Lemma built_wf t : Built V D F S t -> wf t.
  Proof.
    induction 1 as [| t cls name B (N & L)]; [split; [constructor | reflexivity] |].
    unfold add_module. destruct cls as [make | e]; [| split; assumption].
    set (n := match name with Some n => n | None => _ end).
    destruct (existsb (String.eqb n) (t_names V D F S t)) eqn:E; [split; assumption |].
    destruct (make (t_cache V D F S t)) as (c, [m | e]); split; cbn [fst t_names t_modules];
      try assumption.
    - apply (Permutation_NoDup (Permutation_cons_append _ n)). constructor; [| exact N].
      intros I. apply existsb_string_In in I. congruence.
    - rewrite !app_length. simpl. lia.
  Qed.

  Lemma zip_snoc names rs r : zip names (rs ++ [r]) clock =
    zip names rs clock ++ [(nth (length rs) names "", r ++ [("runtime", clock (length rs))])].
  Proof.
    unfold zip_results. rewrite app_length. simpl. rewrite seq_app, map_app. f_equal.
    - apply map_ext_in. intros k Hk. apply in_seq in Hk. rewrite app_nth1 by lia. reflexivity.
    - simpl. rewrite app_nth2, Nat.sub_diag by lia. reflexivity.
  Qed.

  Lemma zip_keys names rs : (length rs <= length names)%nat ->
    map fst (zip names rs clock) = firstn (length rs) names.
  Proof.
    intros H. unfold zip_results. rewrite map_map. cbn [fst].
    revert names H. induction (length rs) as [| n IH]; intros [| a names] H; simpl in *;
      try lia; try reflexivity.
    f_equal. rewrite <- (IH names) by lia. rewrite <- seq_shift, map_map. reflexivity.
  Qed.

  Lemma runs_snoc names ms d rs r m : Runs V D names ms clock d rs ->
    nth_error ms (length rs) = Some m ->
    m d (zip names rs clock) = Ok r -> ~ In "runtime" (map fst r) ->
    Runs V D names ms clock d (rs ++ [r]).
  Proof.
    intros (L & R) E H NR. split.
    - rewrite app_length. simpl.
      assert (length rs < length ms)%nat by (apply nth_error_Some; congruence). lia.
    - intros k m' Hk Em. rewrite app_length in Hk. simpl in Hk.
      destruct (Nat.eq_dec k (length rs)) as [-> | N].
      + rewrite E in Em. injection Em as <-.
        rewrite app_nth2, Nat.sub_diag by lia. cbn [nth].
        rewrite firstn_app, Nat.sub_diag, firstn_all. cbn [firstn]. rewrite app_nil_r.
        split; [exact H | exact NR].
      + rewrite app_nth1 by lia.
        rewrite firstn_app. replace (k - length rs)%nat with 0%nat by lia.
        cbn [firstn]. rewrite app_nil_r. apply R; [lia | exact Em].
  Qed.

  (** The outcome of the loop from the [k]-th module on. *)
  Lemma run_spec names ms d : NoDup names -> length names = length ms ->
    forall j rs, (length rs + j = length ms)%nat -> Runs V D names ms clock d rs ->
    (exists rs', run V D clock (length rs) (skipn (length rs) (combine names ms)) d
                   (zip names rs clock) = Ok (zip names rs' clock) /\
       Runs V D names ms clock d rs' /\ length rs' = length ms) \/
    (exists rs' e m, run V D clock (length rs) (skipn (length rs) (combine names ms)) d
                   (zip names rs clock) = Err e /\
       Runs V D names ms clock d rs' /\ nth_error ms (length rs') = Some m /\
       (m d (zip names rs' clock) = Err e \/
        exists r, m d (zip names rs' clock) = Ok r /\ In "runtime" (map fst r) /\
                  e = ValueError)).
  Proof.
    intros ND LE. induction j as [| j IH]; intros rs L R.
    - left. exists rs. rewrite skipn_all2 by (rewrite combine_length; lia).
      split; [reflexivity |]. split; [exact R | lia].
    - destruct (nth_error ms (length rs)) as [m |] eqn:Em;
        [| apply nth_error_None in Em; lia].
      assert (SK : skipn (length rs) (combine names ms) =
                   (nth (length rs) names "", m) :: skipn (Datatypes.S (length rs)) (combine names ms)).
      { clear - LE Em. revert names LE Em. generalize (length rs) as i. intros i. revert ms.
        induction i as [| i IHi]; intros [| a ms] [| b names] LE Em; simpl in *;
          try discriminate; [congruence |]. apply IHi; [lia | exact Em]. }
      rewrite SK. cbn [run].
      destruct (m d (zip names rs clock)) as [r | e] eqn:H; cbn [bind].
      + destruct (dmem "runtime" r) eqn:DM.
        * right. exists rs, ValueError, m. split; [reflexivity |]. split; [exact R |].
          split; [exact Em |]. right. exists r. split; [exact H |].
          split; [apply dmem_In; exact DM | reflexivity].
        * assert (NR : ~ In "runtime" (map fst r)).
          { intros I. apply dmem_In in I. congruence. }
          rewrite (dset_fresh "runtime" _ r NR). rewrite dset_fresh.
          2:{ rewrite zip_keys by lia. apply nth_not_before; [exact ND | lia]. }
          rewrite <- zip_snoc.
          specialize (IH (rs ++ [r]) ltac:(rewrite app_length; simpl; lia)
                        (runs_snoc names ms d rs r m R Em H NR)).
          rewrite app_length in IH. simpl in IH. rewrite Nat.add_1_r in IH. exact IH.
      + right. exists rs, e, m. split; [reflexivity |]. split; [exact R |].
        split; [exact Em |]. left. exact H.
  Qed.

  Lemma firstn_snoc {A} k (l : list A) d : (k < length l)%nat ->
    firstn (Datatypes.S k) l = firstn k l ++ [nth k l d].
  Proof.
    revert l. induction k as [| k IH]; intros [| a l] H; simpl in *; try lia; [reflexivity |].
    f_equal. apply IH. lia.
  Qed.

  Lemma runs_det names ms d rs rs' :
    Runs V D names ms clock d rs -> Runs V D names ms clock d rs' ->
    forall k, (k <= length rs)%nat -> (k <= length rs')%nat -> firstn k rs = firstn k rs'.
  Proof.
    intros (L & R) (L' & R'). induction k as [| k IH]; intros H H'; [reflexivity |].
    rewrite (firstn_snoc k rs []), (firstn_snoc k rs' []) by lia.
    rewrite (IH ltac:(lia) ltac:(lia)). f_equal. f_equal.
    destruct (nth_error ms k) as [m |] eqn:E; [| apply nth_error_None in E; lia].
    destruct (R k m ltac:(lia) E) as (A & _). destruct (R' k m ltac:(lia) E) as (A' & _).
    rewrite (IH ltac:(lia) ltac:(lia)) in A. congruence.
  Qed.

  Lemma execute_cases t d : Built V D F S t ->
    let names := t_names _ _ _ _ t in let ms := t_modules _ _ _ _ t in
    (exists rs', execute V D F S clock t d = Ok (zip names rs' clock) /\
       Runs V D names ms clock d rs' /\ length rs' = length ms) \/
    (exists rs' e m, execute V D F S clock t d = Err e /\
       Runs V D names ms clock d rs' /\ nth_error ms (length rs') = Some m /\
       (m d (zip names rs' clock) = Err e \/
        exists r, m d (zip names rs' clock) = Ok r /\ In "runtime" (map fst r) /\
                  e = ValueError)).
  Proof.
    intros B names ms. destruct (built_wf t B) as (ND & LE).
    apply (run_spec names ms d ND LE (length ms) []); [reflexivity |].
    split; [simpl; lia |]. simpl. intros k m H. lia.
  Qed.

  Lemma unnamed_names t : Unnamed V D F S t ->
    t_names _ _ _ _ t = map (fun i => ("module_" ++ fmt04 i)%string)
                            (seq 0 (length (t_names _ _ _ _ t))) /\
    ~ In (default_name V D F S t) (t_names _ _ _ _ t).
  Proof.
    assert (X : forall n i, In ("module_" ++ fmt04 n)%string
                  (map (fun i => ("module_" ++ fmt04 i)%string) (seq 0 i)) -> (n < i)%nat).
    { intros n i H. apply in_map_iff in H. destruct H as (j & E & I).
      apply in_seq in I. apply append_inj_l, fmt04_inj in E. lia. }
    induction 1 as [| t cls U (N & NI)].
    - split; [reflexivity | intros []].
    - unfold add_module. destruct cls as [make | e]; [| split; assumption].
      destruct (existsb (String.eqb (default_name V D F S t)) (t_names V D F S t)) eqn:E;
        [split; assumption |].
      destruct (make (t_cache V D F S t)) as (c, [m | e]); cbn [fst];
        [| split; [exact N | exact NI]].
      assert (Y : t_names V D F S t ++ [default_name V D F S t] =
                  map (fun i => ("module_" ++ fmt04 i)%string)
                    (seq 0 (length (t_names V D F S t ++ [default_name V D F S t])))).
      { rewrite app_length. simpl length. rewrite seq_app, map_app.
        cbn [seq map]. rewrite Nat.add_0_l. f_equal. exact N. }
      split; [exact Y |]. unfold default_name at 1. cbn [t_names]. intros I.
      rewrite Y in I at 2. apply X in I. lia.
  Qed.
End Tray.

(** ** The cache *)

Section Cache.
  Variables F S : Type.
  Variable fname : F -> string.
  Variable seqb : S -> S -> bool.

  Notation cache := (cache F S).

  (** The attempted additions of one name which succeeded, in order. *)
  Definition entries (name : string) (c : cache) : list (S * F) :=
    match dget name c with Some l => l | None => [] end.

  Lemma cache_add_entries f s c name :
    entries name (fst (cache_add F S fname seqb f s c)) =
    if String.eqb name (fname f)
    then if existsb (fun e => seqb s (fst e)) (entries name c) then entries name c
         else entries name c ++ [(s, f)]
    else entries name c.
  Proof.
    unfold cache_add, entries. destruct (String.eqb_spec name (fname f)) as [-> | N].
    - destruct (dget (fname f) c) as [l |] eqn:E.
      + destruct (existsb _ l); cbn [fst]; [rewrite E; reflexivity |].
        rewrite dget_dset_same. reflexivity.
      + cbn [fst existsb]. rewrite dget_dset_same. reflexivity.
    - destruct (dget (fname f) c) as [l |] eqn:E;
        [destruct (existsb _ l); cbn [fst]; [reflexivity |] | cbn [fst]];
        rewrite dget_dset_other by congruence; reflexivity.
  Qed.

  Lemma cache_get_entries name s c :
    cache_get F S seqb name s c =
    option_map snd (find (fun e => seqb s (fst e)) (entries name c)).
  Proof.
    unfold cache_get, entries. destruct (dget name c); [| reflexivity].
    destruct (find _ l); reflexivity.
  Qed.

  Lemma find_app {A} (p : A -> bool) l l' :
    find p (l ++ l') = match find p l with Some x => Some x | None => find p l' end.
  Proof. induction l as [| a l IH]; simpl; [reflexivity |]. destruct (p a); auto. Qed.

  Lemma existsb_find {A} (p : A -> bool) l :
    existsb p l = match find p l with Some _ => true | None => false end.
  Proof. induction l as [| a l IH]; simpl; [reflexivity |]. destruct (p a); auto. Qed.
End Cache.
