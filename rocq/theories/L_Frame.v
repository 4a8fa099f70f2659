(** Lemmas for the IceTray module that reconstructs events. *)
From Coq Require Import Reals Lra Lia.
From Verif Require Import Py PyFacts PyStr RList M_Source M_Tray M_Frame S_Frame L_Tray.
From Verif Require Import L_TestReco.
From Verif Require M_TestReco M_Cascade L_Cascade.
Open Scope R_scope.

Notation writes := (fold_left (fun d nv => dset (fst nv) (snd nv) d)).

Lemma nodup_app_intro {A} (l1 l2 : list A) : NoDup l1 -> NoDup l2 -> (forall x, In x l1 -> ~ In x l2) -> NoDup (l1 ++ l2).
Proof.
  induction l1 as [| a l1 IH]; intros N1 N2 D; [exact N2 |]. cbn. inversion N1; subst. constructor.
  - intros I. apply in_app_or in I as [I | I]; [contradiction |]. exact (D a (or_introl eq_refl) I).
  - apply IH; [assumption | assumption |]. intros x I. apply D. right. exact I.
Qed.

(** Writes that agree *)
Lemma writes_get {A} k (v : A) l : forall d, In (k, v) l -> (forall v', In (k, v') l -> v' = v) ->
  dget k (writes l d) = Some v.
Proof.
  induction l as [| (k0, v0) l IH]; intros d I U; [destruct I |]. cbn [fold_left fst snd].
  destruct (in_dec string_dec k (map fst l)) as [IK | NK].
  - apply in_map_iff in IK as ((k1, v1) & E & IK). cbn in E. subst k1.
    rewrite (U v1 (or_intror IK)) in IK. apply IH; [exact IK |]. intros v' I'. apply U. right. exact I'.
  - rewrite (fold_dset_other k l _ NK). destruct I as [[= -> ->] | I]; [apply dget_dset_same |].
    exfalso. apply NK. apply in_map_iff. exists (k, v). auto.
Qed.

Lemma dset_keys {A} k (v : A) d n : In n (map fst (dset k v d)) <-> n = k \/ In n (map fst d).
Proof.
  induction d as [| (k0, v0) d IH]; cbn [dset].
  - cbn. intuition.
  - destruct (String.eqb_spec k k0) as [-> | N]; cbn [map fst In]; [intuition | rewrite IH; intuition].
Qed.
Lemma writes_keys {A} (l : list (string * A)) : forall d n, In n (map fst (writes l d)) <-> In n (map fst d) \/ In n (map fst l).
Proof.
  induction l as [| (k, v) l IH]; intros d n; cbn [fold_left fst snd map In]; [intuition |].
  rewrite IH, dset_keys. intuition.
Qed.

Lemma nodup_in_eq {A} (l : list (string * A)) k v v' : NoDup (map fst l) -> In (k, v) l -> In (k, v') l -> v' = v.
Proof.
  induction l as [| (k0, v0) l IH]; intros N I I'; [destruct I |]. cbn in N. inversion N; subst.
  assert (X : forall w, In (k0, w) l -> False) by (intros w J; apply H1, in_map_iff; exists (k0, w); auto).
  destruct I as [[= -> ->] | I], I' as [[= E] | I']; subst; auto; try (exfalso; eapply X; eassumption).
Qed.

(** ** Parts of the result *)
Lemma write_vector_ok key names : forall v d d', write_vector key names v d = Ok d' ->
  exists v', length v' = length names /\ (forall i, (i < length names)%nat -> nth_error v' i = nth_error v i) /\
    d' = writes (combine (map key names) v') d.
Proof.
  induction names as [| n names IH]; intros v d d' W; cbn [write_vector] in W.
  - injection W as <-. exists []. split; [reflexivity |]. split; [cbn; lia | reflexivity].
  - destruct v as [| x v]; [discriminate |]. apply IH in W as (v' & L & H & ->). exists (x :: v').
    split; [cbn; congruence |]. split; [| reflexivity].
    intros [| i] LI; [reflexivity |]. cbn. apply H. cbn in LI. lia.
Qed.

Lemma combine_keys {A} (l : list string) : forall v : list A, length v = length l -> map fst (combine l v) = l.
Proof. induction l as [| a l IH]; intros [| b v] L; try discriminate; [reflexivity |]. cbn in *. rewrite IH by congruence. reflexivity. Qed.

Section Frame.
  Variable load : list string -> result fmanager.
  Variable make : list bool -> option string -> M_TestReco.spec -> result (module fval nat).
  Variable clock : nat -> R.
  Notation execute := (execute fval nat Datatypes.unit Datatypes.unit (fun k => VNum (clock k))).

  Lemma entry_ok results m k v : entry results m k = Ok v -> exists r, dget m results = Some r /\ dget k r = Some v.
  Proof. unfold entry. intros E. obind E r ER. exists r. split; apply lookup_ok; assumption. Qed.

  Lemma write_numbers_ok l results m : forall d d', write_numbers l results m d = Ok d' ->
    exists xs, length xs = length l /\
      (forall i k k' x, nth_error l i = Some (k, k') -> nth_error xs i = Some x ->
         exists r, dget m results = Some r /\ dget k' r = Some (VNum x)) /\
      d' = writes (combine (map fst l) xs) d.
  Proof.
    induction l as [| (k, k') l IH]; intros d d' W; cbn [write_numbers] in W.
    - injection W as <-. exists []. split; [reflexivity |]. split; [intros [| i]; discriminate | reflexivity].
    - obind W x EX. obind EX v EV. apply IH in W as (xs & L & H & ->). exists (x :: xs).
      split; [cbn; congruence |]. split; [| reflexivity].
      intros [| i] k0 k0' x0 E EX0; [| exact (H i k0 k0' x0 E EX0)]. injection E as <- <-. injection EX0 as <-.
      destruct v; try discriminate. injection EX as ->. exact (entry_ok _ _ _ _ EV).
  Qed.

  Lemma write_runtimes_ok names results : forall d d', write_runtimes names results d = Ok d' ->
    exists xs, length xs = length names /\
      (forall i n x, nth_error names i = Some n -> nth_error xs i = Some x ->
         exists r, dget n results = Some r /\ dget "runtime" r = Some (VNum x)) /\
      d' = writes (combine (map (fun n => ("runtime_" ++ n)%string) names) xs) d.
  Proof.
    induction names as [| n names IH]; intros d d' W; cbn [write_runtimes] in W.
    - injection W as <-. exists []. split; [reflexivity |]. split; [intros [| i]; discriminate | reflexivity].
    - obind W x EX. obind EX v EV. apply IH in W as (xs & L & H & ->). exists (x :: xs).
      split; [cbn; congruence |]. split; [| reflexivity].
      intros [| i] n0 x0 E EX0; [| exact (H i n0 x0 E EX0)]. injection E as <-. injection EX0 as <-.
      destruct v; try discriminate. injection EX as ->. exact (entry_ok _ _ _ _ EV).
  Qed.

  (** The running times that the tray reports *)
  Lemma execute_runtime t b results : length (t_names _ _ _ _ t) = length (t_modules _ _ _ _ t) -> NoDup (t_names _ _ _ _ t) ->
    execute t b = Ok results -> forall k n, nth_error (t_names _ _ _ _ t) k = Some n ->
    exists r, dget n results = Some r /\ dget "runtime" r = Some (VNum (clock k)).
  Proof.
    intros L ND E k n EN. unfold M_Tray.execute in E.
    assert (LK : (k < length (combine (t_names _ _ _ _ t) (t_modules _ _ _ _ t)))%nat).
    { rewrite combine_length, <- L, Nat.min_id. apply nth_error_Some. congruence. }
    destruct (nth_error (combine (t_names _ _ _ _ t) (t_modules _ _ _ _ t)) k) as [(n', m) |] eqn:EC; [| apply nth_error_None in EC; lia].
    assert (n' = n) as -> by (apply nth_error_combine in EC as (EC & _); congruence).
    apply nth_error_split in EC as (l1 & l2 & EQ & LL). rewrite EQ in E.
    apply run_get in E as (res1 & r & _ & _ & EG & _).
    - rewrite LL in EG. cbn [Nat.add] in EG. eexists. split; [exact EG |]. apply dget_dset_same.
    - rewrite <- EQ, combine_keys by congruence. exact ND.
  Qed.

  (** ** The tray *)
  Lemma add_modules_ok c flags l : forall t t', length (t_names _ _ _ _ t) = length (t_modules _ _ _ _ t) ->
    NoDup (t_names _ _ _ _ t) -> add_modules make c flags l t = Ok t' ->
    length (t_names _ _ _ _ t') = length (t_modules _ _ _ _ t') /\ NoDup (t_names _ _ _ _ t') /\
    t_names _ _ _ _ t' = t_names _ _ _ _ t ++ map fst l /\
    (exists ms, t_modules _ _ _ _ t' = t_modules _ _ _ _ t ++ ms /\
       Forall2 (fun ns m => make flags (if w_cov c then Some "covariance"%string else None) (snd ns) = Ok m) l ms) /\
    (In M_TestReco.SGof (map snd l) -> forall k, In k (map fst (w_gof_settings c)) -> In k gof_keywords).
  Proof.
    induction l as [| (n, sp) l IH]; intros t t' L ND A; cbn [add_modules] in A.
    - injection A as <-. rewrite !app_nil_r. split; [exact L |]. split; [exact ND |]. split; [reflexivity |].
      split; [exists []; rewrite app_nil_r; split; [reflexivity | constructor] | intros []].
    - obind A u CH. unfold add_module in A. destruct (existsb (String.eqb n) (t_names _ _ _ _ t)) eqn:X; [discriminate |].
      destruct (make flags (if w_cov c then Some "covariance"%string else None) sp) as [md | e] eqn:MK; [| discriminate].
      apply IH in A; cbn [t_names t_modules] in *.
      + destruct A as (L' & ND' & EN & (ms & EM & F) & G). rewrite <- app_assoc in EN, EM.
        split; [exact L' |]. split; [exact ND' |]. split; [exact EN |]. split.
        * exists (md :: ms). split; [exact EM |]. constructor; assumption.
        * intros [E | I]; [| exact (G I)]. cbn [snd] in E. subst sp.
          destruct (forallb _ _) eqn:FB; [| discriminate]. intros k IK.
          pose proof (proj1 (forallb_forall _ _) FB k IK) as EX. apply existsb_exists in EX as (k' & I' & E).
          apply String.eqb_eq in E as ->. exact I'.
      + rewrite !app_length, L. reflexivity.
      + assert (NI : ~ In n (t_names _ _ _ _ t)).
        { intros IN. rewrite (proj2 (existsb_exists _ _)) in X; [discriminate |].
          exists n. split; [exact IN | apply String.eqb_refl]. }
        apply NoDup_rev in ND. rewrite in_rev in NI. rewrite <- (rev_involutive (t_names _ _ _ _ t)).
        change [n] with (rev [n]). rewrite <- rev_app_distr. apply NoDup_rev. cbn. constructor; assumption.
  Qed.

  (** ** Covariances *)
  Lemma log_names_ok names : forall log logs, log_names names log = Ok logs ->
    (length names <= length log)%nat /\
    (NoDup names -> forall i n, nth_error names i = Some n -> (In n logs <-> nth i log false = true)).
  Proof.
    assert (SUB : forall names log logs, log_names names log = Ok logs -> forall n, In n logs -> In n names).
    { clear. induction names as [| n names IH]; intros [| l log] logs E n0 I; cbn [log_names] in E; try discriminate;
        try (injection E as <-; destruct I).
      obind E rest ER. destruct l; injection E as <-; [destruct I as [<- | I]; [left; reflexivity |] |]; right; exact (IH _ _ ER _ I). }
    induction names as [| n names IH]; intros [| l log] logs E; cbn [log_names] in E; try discriminate;
      try (injection E as <-; split; [cbn; lia | intros _ [| i]; discriminate]).
    obind E rest ER. destruct (IH _ _ ER) as (L & H). split; [cbn; lia |]. intros ND [| i] m EM; inversion ND; subst.
    - cbn in EM. injection EM as <-. cbn [nth]. destruct l; injection E as <-.
      + split; [reflexivity | left; reflexivity].
      + split; [intros I; exfalso; apply H2; exact (SUB _ _ _ ER _ I) | discriminate].
    - cbn in EM |- *. rewrite <- (H H3 i m EM). destruct l; injection E as <-; [| reflexivity].
      split; [intros [<- | I]; [exfalso; apply H2; exact (nth_error_In _ _ EM) | exact I] | right; assumption].
  Qed.

  Lemma axes_nth names log i n : nth_error names i = Some n -> nth_error (axes names log) i = Some (axis log i n).
  Proof.
    intros E. unfold axes. rewrite nth_error_map.
    assert (L : (i < length names)%nat) by (apply nth_error_Some; congruence).
    rewrite (proj2 (nth_error_combine (seq 0 (length names)) names i i n)); [reflexivity |].
    split; [| exact E]. rewrite (nth_error_nth' _ 0%nat) by (rewrite seq_length; exact L). rewrite seq_nth by exact L. reflexivity.
  Qed.
  Lemma axes_length names log : length (axes names log) = length names.
  Proof. unfold axes. rewrite map_length, combine_length, seq_length, Nat.min_id. reflexivity. Qed.

  Lemma axes_cov names log logs : NoDup names -> log_names names log = Ok logs -> map (cov_name logs) names = axes names log.
  Proof.
    intros ND E. destruct (log_names_ok _ _ _ E) as (_ & H). apply nth_error_eq. intros i.
    destruct (nth_error names i) as [n |] eqn:EN.
    - rewrite (axes_nth _ _ _ _ EN), nth_error_map, EN. cbn [option_map]. f_equal. unfold cov_name, axis.
      specialize (H ND i n EN). destruct (existsb (String.eqb n) logs) eqn:X.
      + apply existsb_exists in X as (n' & I & EQ). apply String.eqb_eq in EQ as <-. rewrite (proj1 H I). reflexivity.
      + destruct (nth i log false) eqn:NL; [| reflexivity]. exfalso.
        rewrite (proj2 (existsb_exists _ _)) in X; [discriminate |]. exists n. split; [apply H; reflexivity | apply String.eqb_refl].
    - apply nth_error_None in EN. rewrite (proj2 (nth_error_None _ _)) by (rewrite map_length; exact EN).
      symmetry. apply nth_error_None. rewrite axes_length. exact EN.
  Qed.

  Lemma write_cov_row_ok logs size m i name_i names : forall j d d', write_cov_row logs size m i name_i j names d = Ok d' ->
    d' = writes (combine (map (fun b => (cov_name logs name_i ++ "_" ++ b)%string) (map (cov_name logs) names))
                   (map (fun k => m i (j + k)%nat) (seq 0 (length names)))) d /\
    (names <> [] -> (i < size)%nat /\ (j + length names <= size)%nat).
  Proof.
    induction names as [| n names IH]; intros j d d' W; cbn [write_cov_row] in W.
    - injection W as <-. split; [reflexivity | congruence].
    - obind W x EX. unfold cov_entry in EX. destruct (Nat.ltb_spec i size) as [LI |]; [| discriminate].
      destruct (Nat.ltb_spec j size) as [LJ |]; [| discriminate]. cbn [andb] in EX. injection EX as <-.
      apply IH in W as (-> & H). split.
      + cbn [length seq map combine fold_left fst snd]. rewrite Nat.add_0_r. f_equal. f_equal. rewrite <- seq_shift, map_map.
        apply map_ext. intros k. f_equal. lia.
      + intros _. split; [exact LI |]. destruct names as [| n' names]; [cbn; lia |]. destruct (H ltac:(discriminate)). cbn in *. lia.
  Qed.

  (** All writes of the upper triangle *)
  Fixpoint cov_writes (m : nat -> nat -> R) (i : nat) (l : list string) : list (string * R) :=
    match l with
    | [] => []
    | a :: rest => combine (map (fun b => (a ++ "_" ++ b)%string) l) (map (fun k => m i (i + k)%nat) (seq 0 (length l)))
                   ++ cov_writes m (S i) rest
    end.
  Lemma write_cov_rows_ok logs size m names : forall i d d', write_cov_rows logs size m i names d = Ok d' ->
    d' = writes (cov_writes m i (map (cov_name logs) names)) d /\ (names <> [] -> (i + length names <= size)%nat).
  Proof.
    induction names as [| n names IH]; intros i d d' W; cbn [write_cov_rows] in W.
    - injection W as <-. split; [reflexivity | congruence].
    - obind W d1 W1. apply write_cov_row_ok in W1 as (-> & H1). apply IH in W as (-> & H2). split.
      + cbn [map cov_writes]. rewrite fold_left_app. cbn [length]. rewrite map_length. reflexivity.
      + intros _. apply H1. discriminate.
  Qed.

  Lemma cov_writes_keys m l : forall i, map fst (cov_writes m i l) = triangle l.
  Proof.
    induction l as [| a l IH]; intros i; [reflexivity |]. cbn [cov_writes triangle]. rewrite map_app, IH, combine_keys; [reflexivity |].
    rewrite !map_length, seq_length. reflexivity.
  Qed.
  Lemma cov_writes_in m l : forall k i j a b, (i <= j)%nat -> nth_error l i = Some a -> nth_error l j = Some b ->
    In ((a ++ "_" ++ b)%string, m (k + i)%nat (k + j)%nat) (cov_writes m k l).
  Proof.
    induction l as [| c l IH]; intros k i j a b LE EA EB; [destruct i; discriminate |]. cbn [cov_writes]. apply in_or_app.
    destruct i as [| i].
    - left. injection EA as <-. apply (nth_error_In _ j). apply nth_error_combine. rewrite !nth_error_map, EB.
      split; [reflexivity |]. assert (L : (j < length (c :: l))%nat) by (apply nth_error_Some; congruence).
      rewrite (nth_error_nth' _ 0%nat) by (rewrite seq_length; exact L). rewrite seq_nth by exact L. cbn. rewrite Nat.add_0_r. reflexivity.
    - right. destruct j as [| j]; [lia |]. cbn in EA, EB. specialize (IH (S k) i j a b ltac:(lia) EA EB).
      replace (k + S i)%nat with (S k + i)%nat by lia. replace (k + S j)%nat with (S k + j)%nat by lia. exact IH.
  Qed.

  Lemma triangle_ok l m : NoDup (triangle l) -> Triangle l m (writes (cov_writes m 0 l) []).
  Proof.
    intros ND. split.
    - intros i j a b LE EA EB. apply fold_dset_get; [rewrite cov_writes_keys; exact ND |].
      exact (cov_writes_in m l 0 i j a b LE EA EB).
    - intros k I. apply writes_keys in I as [[] | I]. rewrite cov_writes_keys in I. exact I.
  Qed.

  (** ** Objects of a frame *)
  Lemma put_ok k o f f' : put k o f = Ok f' -> f' = f ++ [(k, o)] /\ ~ In k (map fst f).
  Proof.
    unfold put. destruct (dmem k f) eqn:E; [discriminate |]. intros [= <-].
    assert (NI : ~ In k (map fst f)) by (intros I; apply (dmem_In k f) in I; congruence).
    split; [apply dset_fresh; exact NI | exact NI].
  Qed.

  (** [f'] is [f] with new objects. *)
  Definition extends (f : frame) (added : list (string * fobject)) (f' : frame) : Prop :=
    f' = f ++ added /\ NoDup (map fst added) /\ forall k, In k (map fst added) -> ~ In k (map fst f).
  Lemma extends_nil f : extends f [] f.
  Proof. split; [symmetry; apply app_nil_r |]. split; [constructor | intros k []]. Qed.
  Lemma extends_put k o f f' : put k o f = Ok f' -> extends f [(k, o)] f'.
  Proof.
    intros P. apply put_ok in P as (-> & NI). split; [reflexivity |]. split; [constructor; [intros [] | constructor] |].
    intros k' [<- | []]. exact NI.
  Qed.
  Lemma extends_trans f a f1 b f2 : extends f a f1 -> extends f1 b f2 -> extends f (a ++ b) f2.
  Proof.
    intros (-> & N1 & D1) (-> & N2 & D2). split; [symmetry; apply app_assoc |]. rewrite map_app in *. split.
    - apply nodup_app_intro; [exact N1 | exact N2 |]. intros x I1 I2. apply (D2 x I2). rewrite ?map_app. apply in_or_app. right. exact I1.
    - intros k I. apply in_app_or in I as [I | I]; [exact (D1 k I) |]. intros J. apply (D2 k I). rewrite ?map_app. apply in_or_app. left. exact J.
  Qed.

  (** A map with the covariance [m] *)
  Definition cov_map (o : fmodule) (m : nat -> nat -> R) : dict R :=
    writes (cov_writes m 0 (map (cov_name (k_log o)) (n_names (k_manager o)))) [].
  Lemma write_cov_matrix_ok o cov name f f' : write_cov_matrix o cov name f = Ok f' ->
    exists size m, cov = VMat size m /\ (length (n_names (k_manager o)) <= size)%nat /\
      extends f [((w_output (k_settings o) ++ "_cov_matrix_" ++ name)%string, OMap (cov_map o m))] f'.
  Proof.
    intros W. unfold write_cov_matrix in W. destruct cov as [| size m | | | | |]; try discriminate. obind W d ED.
    apply write_cov_rows_ok in ED as (-> & LE). exists size, m. split; [reflexivity |]. split.
    - destruct (n_names (k_manager o)); [cbn; lia | apply LE; discriminate].
    - apply extends_put. exact W.
  Qed.

  Definition not_runtime (nv : string * fval) : bool := negb (String.eqb (fst nv) "runtime").
  Lemma write_covariances_ok o items : forall f d f' d', write_covariances o items f d = Ok (f', d') ->
    exists xs added, d' = writes (map (fun x => ("runtime_covariance"%string, x)) xs) d /\
      (forall x, In x xs -> In ("runtime"%string, VNum x) items) /\ extends f added f' /\
      Forall2 (fun nv ko => exists size m, snd nv = VMat size m /\ (length (n_names (k_manager o)) <= size)%nat /\
                 ko = ((w_output (k_settings o) ++ "_cov_matrix_" ++ fst nv)%string, OMap (cov_map o m)))
        (filter not_runtime items) added.
  Proof.
    induction items as [| (n, v) items IH]; intros f d f' d' W; cbn [write_covariances] in W.
    - injection W as <- <-. exists [], []. split; [reflexivity |]. split; [intros x [] |]. split; [apply extends_nil | constructor].
    - cbn [filter]. unfold not_runtime at 1. cbn [fst]. destruct (String.eqb_spec n "runtime") as [-> | NE]; cbn [negb].
      + obind W x EX. destruct v; try discriminate. injection EX as ->.
        apply IH in W as (xs & added & -> & HX & E & F). exists (x :: xs), added. split; [reflexivity |]. split; [| split; assumption].
        intros x0 [<- | I]; [left; reflexivity | right; exact (HX x0 I)].
      + obind W f1 E1. apply write_cov_matrix_ok in E1 as (size & m & -> & LE & E1).
        apply IH in W as (xs & added & -> & HX & E & F). eexists xs, (_ :: added). split; [reflexivity |].
        split; [intros x I; right; exact (HX x I) |]. split; [exact (extends_trans _ _ _ _ _ E1 E) |].
        constructor; [| exact F]. exists size, m. auto.
  Qed.

  (** Goodness of fit *)
  Lemma write_goodness_ok o results f d f' d' : write_goodness o results f d = Ok (f', d') ->
    exists samples doms xs bs added,
      gof_flag o "reconstruct_samples" = Ok samples /\ gof_flag o "add_per_dom_calculation" = Ok doms /\
      length xs = length gof_numbers /\
      (forall i k k' x, nth_error gof_numbers i = Some (k, k') -> nth_error xs i = Some x ->
         exists r, dget "GoodnessOfFit" results = Some r /\ dget k' r = Some (VNum x)) /\
      d' = writes (combine (map fst gof_numbers) xs ++
             (if samples then combine (map (fun n => (n ++ "_sample_reco_bias")%string) (n_names (k_manager o))) bs else [])) d /\
      extends f added f' /\
      added =
        (if samples then
           match dget "GoodnessOfFit" results with
           | Some r => match dget "sample_reco_cov" r with
                       | Some (VMat size m) => [((w_output (k_settings o) ++ "_cov_matrix_goodness_of_fit")%string, OMap (cov_map o m))]
                       | _ => []
                       end
           | None => []
           end
         else []) ++
        (if doms then
           match dget "GoodnessOfFit" results with
           | Some r => match dget "dom_p_value1" r, dget "dom_p_value2" r with
                       | Some (VDoms p1), Some (VDoms p2) =>
                           [((w_output (k_settings o) ++ "_GoodnessOfFit_1sided")%string, ODoms (dom_map p1));
                            ((w_output (k_settings o) ++ "_GoodnessOfFit_2sided")%string, ODoms (dom_map p2))]
                       | _, _ => []
                       end
           | None => []
           end
         else []) /\
      (samples = true -> length bs = length (n_names (k_manager o)) /\
         exists r size m v, dget "GoodnessOfFit" results = Some r /\ dget "sample_reco_cov" r = Some (VMat size m) /\
           (length (n_names (k_manager o)) <= size)%nat /\
           dget "sample_reco_bias" r = Some (VVec v) /\
           forall i, (i < length (n_names (k_manager o)))%nat -> nth_error bs i = nth_error v i) /\
      (doms = true -> exists r p1 p2, dget "GoodnessOfFit" results = Some r /\ dget "dom_p_value1" r = Some (VDoms p1) /\
         dget "dom_p_value2" r = Some (VDoms p2)).
  Proof.
    intros W. cbv beta delta [write_goodness] in W. obind W d1 E1. apply write_numbers_ok in E1 as (xs & LX & HX & ->).
    obind W samples ES. obind W fd E2. destruct fd as (f2, d2). obind W doms EDO.
    assert (D : exists added2, d' = d2 /\ extends f2 added2 f' /\
        added2 = (if doms then
           match dget "GoodnessOfFit" results with
           | Some r => match dget "dom_p_value1" r, dget "dom_p_value2" r with
                       | Some (VDoms p1), Some (VDoms p2) =>
                           [((w_output (k_settings o) ++ "_GoodnessOfFit_1sided")%string, ODoms (dom_map p1));
                            ((w_output (k_settings o) ++ "_GoodnessOfFit_2sided")%string, ODoms (dom_map p2))]
                       | _, _ => []
                       end
           | None => []
           end
         else []) /\
        (doms = true -> exists r p1 p2, dget "GoodnessOfFit" results = Some r /\ dget "dom_p_value1" r = Some (VDoms p1) /\
         dget "dom_p_value2" r = Some (VDoms p2))).
    { destruct doms; [| injection W as <- <-; exists []; split; [reflexivity |]; split; [apply extends_nil |]; split; [reflexivity | discriminate]].
      obind W p1 EP1. obind W p2 EP2. obind W f3 EF3. obind W f4 EF4. injection W as <- <-.
      obind EP1 v1 EV1. destruct v1; try discriminate. injection EP1 as ->. obind EP2 v2 EV2. destruct v2; try discriminate. injection EP2 as ->.
      apply entry_ok in EV1 as (r & ER & EV1). apply entry_ok in EV2 as (r' & ER' & EV2).
      assert (r' = r) as -> by congruence. rewrite ER, EV1, EV2.
      eexists. split; [reflexivity |].
      split; [exact (extends_trans _ _ _ _ _ (extends_put _ _ _ _ EF3) (extends_put _ _ _ _ EF4)) |].
      split; [reflexivity |]. intros _. exists r, p1, p2. auto. }
    destruct D as (added2 & -> & X2 & EA2 & HD). destruct samples.
    - obind E2 cov EC. obind E2 f3 EF3. obind E2 bias EB. obind E2 d3 ED3. injection E2 as -> ->.
      obind EB v EV. destruct v as [| | | | v | |]; try discriminate. injection EB as ->.
      apply entry_ok in EC as (r & ER & EC). apply entry_ok in EV as (r' & ER' & EV). assert (r' = r) as -> by congruence.
      apply write_cov_matrix_ok in EF3 as (size & m & -> & LE & X1).
      apply write_vector_ok in ED3 as (bs & LB & HB & ->).
      exists true, doms, xs, bs. eexists. split; [exact ES |]. split; [exact EDO |]. split; [exact LX |]. split; [exact HX |].
      split; [rewrite fold_left_app; reflexivity |]. split; [exact (extends_trans _ _ _ _ _ X1 X2) |].
      split; [rewrite EA2; rewrite ER, EC; reflexivity |]. split; [| exact HD].
      intros _. split; [exact LB |]. exists r, size, m, bias. auto.
    - injection E2 as <- <-. exists false, doms, xs, [], added2. split; [exact ES |]. split; [exact EDO |]. split; [exact LX |]. split; [exact HX |].
      split; [rewrite app_nil_r; reflexivity |]. split; [exact X2 |]. split; [exact EA2 |]. split; [discriminate | exact HD].
  Qed.

  (** Particles *)
  Lemma fill_particle_ok mapping d items : forall p p', NoDup (map fst items) ->
    (forall k v, In (k, v) items -> dget k mapping = Some v) ->
    fill_particle mapping items d p = Ok p' ->
    (forall k param, In (k, param) items -> exists x, dget param d = Some x /\ attribute p' k = Some x) /\
    (forall k, ~ In k (map fst items) -> k <> "zenith"%string -> k <> "azimuth"%string -> attribute p' k = attribute p k) /\
    (t_dir p' = t_dir p \/ exists z a zp ap, t_dir p' = Some (z, a) /\ dget "zenith" mapping = Some zp /\ dget zp d = Some z /\
       dget "azimuth" mapping = Some ap /\ dget ap d = Some a) /\
    (In "zenith"%string (map fst items) \/ In "azimuth"%string (map fst items) -> t_dir p' <> None) /\
    (t_dir p <> None -> t_dir p' <> None).
  Proof.
    induction items as [| (k, param) items IH]; intros p p' ND SUB F; cbn [fill_particle] in F.
    - injection F as <-. split; [intros k param [] |]. split; [reflexivity |]. split; [left; reflexivity |].
      split; [intros [[] | []] | auto].
    - obind F q EQ. cbn [map fst] in ND. inversion ND as [| ? ? NI ND']; subst.
      destruct (IH q p' ND' (fun k v I => SUB k v (or_intror I)) F) as (H1 & H2 & H3 & H4 & H5).
      assert (OTHER : k <> "zenith"%string -> k <> "azimuth"%string ->
        (exists x, dget param d = Some x /\ attribute q k = Some x) /\ t_dir q = t_dir p /\
        forall k', k' <> k -> k' <> "zenith"%string -> k' <> "azimuth"%string -> attribute q k' = attribute p k').
      { intros NZ NA.
        destruct (String.eqb_spec k "x") as [-> | NX].
        { obind EQ x EX. injection EQ as <-. apply lookup_ok in EX. split; [exists x; split; [exact EX | reflexivity] |].
          split; [reflexivity |]. intros k' NK _ _. unfold attribute. cbn. destruct (String.eqb_spec k' "x"); [congruence | reflexivity]. }
        destruct (String.eqb_spec k "y") as [-> | NY].
        { obind EQ x EX. injection EQ as <-. apply lookup_ok in EX. split; [exists x; split; [exact EX | reflexivity] |].
          split; [reflexivity |]. intros k' NK _ _. unfold attribute. cbn. destruct (String.eqb_spec k' "y"); [congruence | reflexivity]. }
        destruct (String.eqb_spec k "z") as [-> | NZZ].
        { obind EQ x EX. injection EQ as <-. apply lookup_ok in EX. split; [exists x; split; [exact EX | reflexivity] |].
          split; [reflexivity |]. intros k' NK _ _. unfold attribute. cbn. destruct (String.eqb_spec k' "z"); [congruence | reflexivity]. }
        destruct (String.eqb_spec k "zenith"); [congruence |]. destruct (String.eqb_spec k "azimuth"); [congruence |]. cbn [orb] in EQ.
        obind EQ x EX. injection EQ as <-. apply lookup_ok in EX.
        split; [exists x; split; [exact EX |] |].
        { unfold attribute. rewrite !(proj2 (String.eqb_neq _ _)) by assumption. cbn [t_other]. apply dget_dset_same. }
        split; [reflexivity |]. intros k' NK _ _. unfold attribute. cbn [t_x t_y t_z t_dir t_other].
        repeat (destruct (String.eqb _ _); [reflexivity |]). apply dget_dset_other. exact NK. }
      assert (DIR : k = "zenith"%string \/ k = "azimuth"%string ->
        exists z a zp ap, q = mk_i3particle (t_x p) (t_y p) (t_z p) (Some (z, a)) (t_other p) /\
          dget "zenith" mapping = Some zp /\ dget zp d = Some z /\ dget "azimuth" mapping = Some ap /\ dget ap d = Some a).
      { intros [-> | ->]; cbn in EQ; obind EQ z EZ; obind EQ a EA; injection EQ as <-; obind EZ zp EZP; obind EA ap EAP;
          apply lookup_ok in EZ, EZP, EA, EAP; exists z, a, zp, ap; auto. }
      assert (PARAM : dget k mapping = Some param) by (apply SUB; left; reflexivity).
      destruct (string_dec k "zenith") as [KZ | NZ].
      { destruct (DIR (or_introl KZ)) as (z & a & zp & ap & -> & M1 & D1 & M2 & D2).
        assert (TD : exists z' a', t_dir p' = Some (z', a') /\ dget zp d = Some z' /\ dget ap d = Some a').
        { destruct H3 as [-> | (z' & a' & zp' & ap' & E & M1' & D1' & M2' & D2')]; [exists z, a; auto |].
          exists z', a'. rewrite M1 in M1'. rewrite M2 in M2'. injection M1' as <-. injection M2' as <-. auto. }
        destruct TD as (z' & a' & TD & TZ & TA).
        split; [| split; [| split; [| split]]].
        - intros k0 param0 [[= <- <-] | I]; [| exact (H1 _ _ I)]. rewrite KZ in *. exists z'.
          assert (zp = param) as -> by congruence. split; [exact TZ |]. unfold attribute. cbn. rewrite TD. reflexivity.
        - intros k0 NI0 Z0 A0. cbn in NI0. rewrite H2 by (try assumption; intuition). unfold attribute. cbn.
          rewrite (proj2 (String.eqb_neq k0 "zenith")), (proj2 (String.eqb_neq k0 "azimuth")) by assumption. reflexivity.
        - right. exists z', a', zp, ap. auto.
        - intros _. congruence.
        - intros _. congruence. }
      destruct (string_dec k "azimuth") as [KA | NA].
      { destruct (DIR (or_intror KA)) as (z & a & zp & ap & -> & M1 & D1 & M2 & D2).
        assert (TD : exists z' a', t_dir p' = Some (z', a') /\ dget zp d = Some z' /\ dget ap d = Some a').
        { destruct H3 as [-> | (z' & a' & zp' & ap' & E & M1' & D1' & M2' & D2')]; [exists z, a; auto |].
          exists z', a'. rewrite M1 in M1'. rewrite M2 in M2'. injection M1' as <-. injection M2' as <-. auto. }
        destruct TD as (z' & a' & TD & TZ & TA).
        split; [| split; [| split; [| split]]].
        - intros k0 param0 [[= <- <-] | I]; [| exact (H1 _ _ I)]. rewrite KA in *. exists a'.
          assert (ap = param) as -> by congruence. split; [exact TA |]. unfold attribute. cbn. rewrite TD. reflexivity.
        - intros k0 NI0 Z0 A0. cbn in NI0. rewrite H2 by (try assumption; intuition). unfold attribute. cbn.
          rewrite (proj2 (String.eqb_neq k0 "zenith")), (proj2 (String.eqb_neq k0 "azimuth")) by assumption. reflexivity.
        - right. exists z', a', zp, ap. auto.
        - intros _. congruence.
        - intros _. congruence. }
      destruct (OTHER NZ NA) as ((x & EX & AX) & TD & OT). split; [| split; [| split; [| split]]].
      + intros k0 param0 [[= <- <-] | I]; [| exact (H1 _ _ I)]. exists x. split; [exact EX |]. rewrite H2 by assumption. exact AX.
      + intros k0 NI0 Z0 A0. cbn in NI0. rewrite H2 by (try assumption; intuition). apply OT; intuition.
      + rewrite <- TD. exact H3.
      + intros [[E | I] | [E | I]]; [destruct (NZ E) | apply H4; auto | destruct (NA E) | apply H4; auto].
      + rewrite <- TD. exact H5.
  Qed.

  (** ** The frame *)
  Variable get_data : frame -> result (nat * nat).
  Notation physics := (physics clock get_data).

  (** Parts of the writes to the result *)
  Definition fit_writes (o : fmodule) (v ts : list R) (b : bool) (lr ls : R) : list (string * R) :=
    combine (n_names (k_manager o)) v
    ++ combine (map (fun n => ("runtime_" ++ n)%string) (t_names _ _ _ _ (k_tray o))) ts
    ++ [("minimization_success", if b then 1 else 0); ("loss_reco", lr); ("loss_seed", ls)]%string.

  Lemma physics_ok o f f' : physics o f = Ok f' ->
    exists data results r best rest v ts b lr ls,
      get_data f = Ok (1%nat, data) /\ execute (k_tray o) data = Ok results /\
      dget "reco" results = Some r /\ dget "result" r = Some (VRows (best :: rest)) /\
      dget "result_object" r = Some (VObj (Some b)) /\
      dget "loss_reco" r = Some (VNum lr) /\ dget "loss_seed" r = Some (VNum ls) /\
      length v = length (n_names (k_manager o)) /\
      (forall i, (i < length (n_names (k_manager o)))%nat -> nth_error v i = nth_error best i) /\
      length ts = length (t_names _ _ _ _ (k_tray o)) /\
      (forall i n x, nth_error (t_names _ _ _ _ (k_tray o)) i = Some n -> nth_error ts i = Some x ->
         exists r, dget n results = Some r /\ dget "runtime" r = Some (VNum x)) /\
      exists particle f1 d1 f2 d2 w3,
        (match n_mapping (k_manager o) with
         | Some ((_ :: _) as m) => exists p, particle = Some p /\
             fill_particle m m (writes (fit_writes o v ts b lr ls) []) (mk_i3particle None None None None []) = Ok p
         | _ => particle = None
         end) /\
        (if w_cov (k_settings o) then exists items, dget "covariance" results = Some items /\
           write_covariances o items f (writes (fit_writes o v ts b lr ls) []) = Ok (f1, d1)
         else f1 = f /\ d1 = writes (fit_writes o v ts b lr ls) []) /\
        (if w_gof (k_settings o) then write_goodness o results f1 d1 = Ok (f2, d2) else f2 = f1 /\ d2 = d1) /\
        (if w_circ (k_settings o) then exists r x t, dget "CircularizedAngularUncertainty" results = Some r /\
           dget "circular_unc" r = Some (VNum x) /\ dget "runtime" r = Some (VNum t) /\
           w3 = [("circular_unc", x); ("runtime_circular_err", t)]%string
         else w3 = []) /\
        extends f2 ((w_output (k_settings o), OMap (writes w3 d2)) ::
          match particle with Some p => [((w_output (k_settings o) ++ "_I3Particle")%string, OParticle p)] | None => [] end) f'.
  Proof.
    intros P. cbv beta delta [M_Frame.physics] in P. cbv zeta in P. obind P nd EN. destruct nd as (n, data).
    destruct (Nat.eqb_spec n 1) as [-> |]; cbn [negb] in P; [| discriminate].
    obind P results ER. obind P rv ERV. obind P best EB. obind P obj EO. obind P d0 ED0. obind P d00 ED00. obind P b ESU.
    obind P lr ELR. obind P ls ELS. obind P particle EPA. obind P fd1 EF1. destruct fd1 as (f1, d1).
    obind P fd2 EF2. destruct fd2 as (f2, d2). obind P d3 ED3. obind P f3 EF3.
    apply write_vector_ok in ED0 as (v & LV & HV & ->). rewrite map_id in *.
    apply write_runtimes_ok in ED00 as (ts & LT & HT & ->).
    destruct rv as [[| best' rest] | | | | | |]; try discriminate. injection EB as ->.
    destruct obj as [| | | [b' |] | | |]; try discriminate. injection ESU as ->.
    obind ELR vlr EVLR. destruct vlr; try discriminate. injection ELR as ->.
    obind ELS vls EVLS. destruct vls; try discriminate. injection ELS as ->.
    apply entry_ok in ERV as (r & EG & ERV). apply entry_ok in EO as (r1 & EG1 & EO). apply entry_ok in EVLR as (r2 & EG2 & EVLR).
    apply entry_ok in EVLS as (r3 & EG3 & EVLS). rewrite EG in EG1, EG2, EG3. injection EG1 as <-. injection EG2 as <-. injection EG3 as <-.
    exists data, results, r, best, rest, v, ts, b, lr, ls.
    do 7 (split; [eassumption |]). do 4 (split; [assumption |]).
    assert (WE : writes (fit_writes o v ts b lr ls) [] = dset "loss_seed" ls (dset "loss_reco" lr (dset "minimization_success" (if b then 1 else 0)
        (writes (combine (map (fun n => ("runtime_" ++ n)%string) (t_names _ _ _ _ (k_tray o))) ts)
          (writes (combine (n_names (k_manager o)) v) []))))).
    { unfold fit_writes. rewrite !fold_left_app. reflexivity. }
    rewrite <- WE in *.
    exists particle, f1, d1, f2, d2.
    assert (C : exists w3, d3 = writes w3 d2 /\
        (if w_circ (k_settings o) then exists r x t, dget "CircularizedAngularUncertainty" results = Some r /\
           dget "circular_unc" r = Some (VNum x) /\ dget "runtime" r = Some (VNum t) /\
           w3 = [("circular_unc", x); ("runtime_circular_err", t)]%string
         else w3 = [])).
    { destruct (w_circ (k_settings o)); [| injection ED3 as <-; exists []; auto].
      apply write_numbers_ok in ED3 as (xs & LX & HX & ->). destruct xs as [| x [| t [| ? ?]]]; try discriminate.
      exists [("circular_unc", x); ("runtime_circular_err", t)]%string. split; [reflexivity |].
      destruct (HX 0%nat _ _ x eq_refl eq_refl) as (rc & E1 & E2). destruct (HX 1%nat _ _ t eq_refl eq_refl) as (rc' & E3 & E4).
      rewrite E1 in E3. injection E3 as <-. exists rc, x, t. auto. }
    destruct C as (w3 & -> & HC). exists w3. split; [| split; [| split; [| split]]].
    - destruct (n_mapping (k_manager o)) as [[| it m] |]; try (injection EPA as <-; reflexivity).
      obind EPA p EP. injection EPA as <-. exists p. auto.
    - destruct (w_cov (k_settings o)); [| injection EF1 as <- <-; auto]. obind EF1 items EI. apply lookup_ok in EI. exists items. auto.
    - destruct (w_gof (k_settings o)); [exact EF2 | injection EF2 as <- <-; auto].
    - exact HC.
    - destruct particle as [p |].
      + exact (extends_trans _ _ _ _ _ (extends_put _ _ _ _ EF3) (extends_put _ _ _ _ P)).
      + injection P as <-. exact (extends_put _ _ _ _ EF3).
  Qed.
End Frame.
