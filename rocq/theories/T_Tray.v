(** Properties of the reconstruction tray (C47) and the function cache (C50). *)
From Verif Require Import Py PyFacts PyStr PyStrFacts M_Tray S_Tray L_Tray.

(** ** C47: modules run once, in order, under unique names *)

Section Tray.
  Variables V D F S : Type.
  Variable clock : nat -> V.

  Notation tray := (tray V D F S).
  Notation add := (add_module V D F S).
  Notation names := (t_names V D F S).
  Notation modules := (t_modules V D F S).

  (** Adding a module under an existing name raises and leaves the tray as it
      is, including its cache. *)
  Theorem C47_refused (t : tray) make name : In name (names t) ->
    add (Ok make) (Some name) t = (t, Err ValueError).
  Proof.
    intros I. unfold add_module. rewrite (proj2 (existsb_string_In _ _) I). reflexivity.
  Qed.

  (** An addition that fails for any reason leaves the modules and names as
      they are. *)
  Theorem C47_failed_keeps (t t' : tray) cls name e : add cls name t = (t', Err e) ->
    modules t' = modules t /\ names t' = names t.
  Proof.
    unfold add_module. destruct cls as [make | e']; [| intros [= <- <-]; auto].
    cbv zeta. destruct (existsb _ _); [intros [= <- <-]; auto |].
    destruct (make _) as (c, [m | e']); intros [= <- <-]; auto.
  Qed.

  (** An addition that succeeds appends the module made by its class and the
      given name, or else the automatic one, which was not used before. *)
  Theorem C47_added (t t' : tray) cls name : add cls name t = (t', Ok tt) ->
    exists make c m n,
      cls = Ok make /\ make (t_cache _ _ _ _ t) = (c, Ok m) /\
      n = match name with Some n => n | None => ("module_" ++ fmt04 (length (names t)))%string end /\
      ~ In n (names t) /\
      modules t' = modules t ++ [m] /\ names t' = names t ++ [n] /\
      t_cache _ _ _ _ t' = c.
  Proof.
    unfold add_module. destruct cls as [make | e']; [| discriminate].
    cbv zeta. destruct (existsb _ _) eqn:E; [discriminate |].
    destruct (make _) as (c, [m | e']) eqn:EM; intros [= <-].
    exists make, c, m. eexists. repeat split; [exact EM |].
    intros I. apply (proj2 (existsb_string_In _ _)) in I. unfold default_name in E.
    congruence.
  Qed.

  (** After any sequence of additions the names are pairwise different and
      there is one for every module. *)
  Theorem C47_unique (t : tray) : Built V D F S t ->
    NoDup (names t) /\ length (names t) = length (modules t).
  Proof. apply built_wf. Qed.

  (** If no name is ever given, no addition is refused because of its name:
      it succeeds if the class can be loaded and its constructor succeeds. *)
  Theorem C47_default (t : tray) make c m : Unnamed V D F S t ->
    make (t_cache _ _ _ _ t) = (c, Ok m) ->
    exists t', add (Ok make) None t = (t', Ok tt) /\ modules t' = modules t ++ [m].
  Proof.
    intros U E. destruct (unnamed_names V D F S t U) as (_ & NI).
    unfold add_module. rewrite E.
    destruct (existsb _ _) eqn:X; [exfalso; apply NI, existsb_string_In, X |].
    eexists. split; reflexivity.
  Qed.

  (** Executing succeeds with a result exactly if running the modules in the
      order of addition, each once and each on the results of exactly those
      before it, succeeds, and then the result has one entry per module: what
      the module returned, and its running time. *)
  Theorem C47_execute (t : tray) d res : Built V D F S t ->
    execute V D F S clock t d = Ok res <->
    exists rs, length rs = length (modules t) /\
      Runs V D (names t) (modules t) clock d rs /\
      res = zip_results V (names t) rs clock.
  Proof.
    intros B. pose proof (execute_cases V D F S clock t d B) as C. cbv zeta in C. split.
    - intros E. destruct C as [(rs & E' & R & L) | (rs & e & m & E' & _)]; [| congruence].
      exists rs. rewrite E' in E. injection E as <-. auto.
    - intros (rs & L & R & ->).
      destruct C as [(rs' & E' & R' & L') | (rs' & e & m & E' & R' & EM & X)].
      + rewrite E'. f_equal. f_equal.
        pose proof (runs_det V D clock _ _ _ _ _ R R' (length rs)) as Q.
        specialize (Q ltac:(lia) ltac:(lia)).
        rewrite firstn_all in Q. rewrite Q. rewrite L, <- L', firstn_all. reflexivity.
      + exfalso.
        assert (LT : (length rs' < length (modules t))%nat).
        { apply nth_error_Some. rewrite EM. discriminate. }
        destruct R as (RL & R). destruct (R (length rs') m ltac:(lia) EM) as (A & NI).
        pose proof (runs_det V D clock _ _ _ _ _ (conj RL R) R' (length rs')) as Q.
        specialize (Q ltac:(lia) ltac:(lia)).
        rewrite firstn_all in Q. rewrite Q in A.
        destruct X as [X | (r & X & I & _)]; rewrite A in X; [discriminate |].
        injection X as X. rewrite <- X in I. exact (NI I).
  Qed.

  (** The keys of the result are the names of the modules in order. *)
  Theorem C47_keys (t : tray) d res : Built V D F S t ->
    execute V D F S clock t d = Ok res -> map fst res = names t.
  Proof.
    intros B E. destruct (proj1 (C47_execute t d res B) E) as (rs & L & _ & ->).
    destruct (built_wf V D F S t B) as (_ & LE).
    rewrite zip_keys by lia. rewrite L, <- LE. apply firstn_all.
  Qed.

  (** Executing raises exactly the error of the first module that raises, or
      a ValueError if that module returns a result with a running time; later
      modules have no influence. *)
  Theorem C47_error (t : tray) d e : Built V D F S t ->
    execute V D F S clock t d = Err e <->
    exists rs m,
      Runs V D (names t) (modules t) clock d rs /\
      nth_error (modules t) (length rs) = Some m /\
      (m d (zip_results V (names t) rs clock) = Err e \/
       exists r, m d (zip_results V (names t) rs clock) = Ok r /\
                 In "runtime" (map fst r) /\ e = ValueError).
  Proof.
    intros B. pose proof (execute_cases V D F S clock t d B) as C. cbv zeta in C. split.
    - intros E. destruct C as [(rs & E' & _) | (rs & e' & m & E' & R & EM & X)]; [congruence |].
      rewrite E' in E. injection E as <-. exists rs, m. auto.
    - intros (rs & m & R & EM & X).
      assert (LT : (length rs < length (modules t))%nat).
      { apply nth_error_Some. rewrite EM. discriminate. }
      assert (W : forall rs', Runs V D (names t) (modules t) clock d rs' ->
                 (length rs < length rs')%nat -> False).
      { intros rs' (RL & R') L. destruct (R' _ _ L EM) as (A & NI).
        pose proof (runs_det V D clock _ _ _ _ _ (conj RL R') R (length rs)) as Q.
        specialize (Q ltac:(lia) ltac:(lia)).
        rewrite firstn_all in Q. rewrite Q in A.
        destruct X as [X | (r & X & I & _)]; rewrite A in X; [discriminate |].
        injection X as X. rewrite <- X in I. exact (NI I). }
      destruct C as [(rs' & E' & R' & L') | (rs' & e' & m' & E' & R' & EM' & X')].
      + exfalso. apply (W rs' R'). lia.
      + destruct (Nat.lt_trichotomy (length rs) (length rs')) as [L | [L | L]].
        * exfalso. apply (W rs' R' L).
        * rewrite E'. f_equal.
          pose proof (runs_det V D clock _ _ _ _ _ R R' (length rs)) as Q.
        specialize (Q ltac:(lia) ltac:(lia)).
          rewrite firstn_all, L, firstn_all in Q. subst rs'.
          assert (m' = m) by congruence. subst m'.
          destruct X as [X | (r & X & I & ->)], X' as [X' | (r' & X' & I' & ->)];
            congruence.
        * exfalso. destruct R as (RL & R). destruct (R _ _ L EM') as (A & NI).
          pose proof (runs_det V D clock _ _ _ _ _ (conj RL R) R' (length rs')) as Q.
        specialize (Q ltac:(lia) ltac:(lia)).
          rewrite firstn_all in Q. rewrite Q in A.
          destruct X' as [X' | (r & X' & I & _)]; rewrite A in X'; [discriminate |].
          injection X' as X'. rewrite <- X' in I. exact (NI I).
  Qed.

End Tray.

(** Automatic names can clash with given ones: a tray with one module named
    "module_0001" refuses a second module without name. *)
Definition plain : module_class nat nat nat nat :=
  fun c => (c, Ok (fun d res => Ok [("n", (d + length res)%nat)])).

Theorem C47_default_refuted :
  exists t : tray nat nat nat nat, Built _ _ _ _ t /\ length (t_names _ _ _ _ t) = 1%nat /\
    snd (add_module _ _ _ _ (Ok plain) None t) = Err ValueError.
Proof.
  exists (fst (add_module _ _ _ _ (Ok plain) (Some "module_0001") (new_tray nat nat nat nat))).
  split; [apply built_add, built_new |]. split; reflexivity.
Qed.

(** Example: a tray of two modules, with and without name; each sees the
    results of those before it. *)
Definition two : tray nat nat nat nat :=
  fst (add_module _ _ _ _ (Ok plain) None
    (fst (add_module _ _ _ _ (Ok plain) (Some "first") (new_tray nat nat nat nat)))).

Example two_built : Built _ _ _ _ two /\
  execute _ _ _ _ (fun k => (100 + k)%nat) two 7%nat =
  Ok [("first", [("n", 7%nat); ("runtime", 100%nat)]);
      ("module_0001", [("n", 8%nat); ("runtime", 101%nat)])].
Proof. split; [apply built_add, built_add, built_new | reflexivity]. Qed.

(** Example: a module whose second run fails keeps the first error. *)
Definition failing : module_class nat nat nat nat :=
  fun c => (c, Ok (fun d res => Err KeyError)).

Example failing_third :
  execute _ _ _ _ (fun k => k)
    (fst (add_module _ _ _ _ (Ok failing) None two)) 7%nat = Err KeyError.
Proof. reflexivity. Qed.

Example unnamed_two : Unnamed _ _ _ _
  (fst (add_module _ _ _ _ (Ok plain) None
    (fst (add_module _ _ _ _ (Ok plain) None (new_tray nat nat nat nat))))).
Proof. apply unnamed_add, unnamed_add, unnamed_new. Qed.

(** ** C50: the function cache is a map from name and settings *)

Section Cache.
  Variables F S : Type.
  Variable fname : F -> string.
  Variable seqb : S -> S -> bool.
  Hypothesis seqb_refl : forall s, seqb s s = true.
  Hypothesis seqb_sym : forall s s', seqb s s' = seqb s' s.
  Hypothesis seqb_trans : forall s s' s'', seqb s s' = true -> seqb s' s'' = true ->
    seqb s s'' = true.

  Notation cache_add := (cache_add F S fname seqb).
  Notation get := (cache_get F S seqb).
  Notation fetch := (fetch F S fname seqb).
  Notation same := (fun s s' => seqb s s' = true).

  (** The cache after a sequence of attempted additions. *)
  Definition added (h : list (F * S)) : cache F S :=
    fold_left (fun c fs => fst (cache_add (fst fs) (snd fs) c)) h [].

  Lemma get_add name s f s' c :
    get name s (fst (cache_add f s' c)) =
    match get name s c with
    | Some g => Some g
    | None => if String.eqb name (fname f) && seqb s s' then Some f else None
    end.
  Proof.
    rewrite !cache_get_entries, cache_add_entries.
    destruct (String.eqb_spec name (fname f)) as [-> | N]; cbn [andb].
    - rewrite existsb_find.
      destruct (find (fun e => seqb s' (fst e)) (entries F S (fname f) c)) as [e |] eqn:E.
      + destruct (find (fun e => seqb s (fst e)) _) as [g |] eqn:G; [reflexivity |].
        cbn [option_map]. destruct (seqb s s') eqn:Q; [| reflexivity]. exfalso.
        apply find_some in E. destruct E as (I & E).
        pose proof (find_none _ _ G e I) as X. cbv beta in X.
        rewrite (seqb_trans _ _ _ Q E) in X. discriminate.
      + rewrite find_app. destruct (find (fun e => seqb s (fst e)) _) as [g |] eqn:G;
          [reflexivity |].
        cbn [find fst option_map]. destruct (seqb s s'); reflexivity.
    - destruct (find _ _); reflexivity.
  Qed.

  Lemma get_fold h : forall c name s g,
    get name s (fold_left (fun c fs => fst (cache_add (fst fs) (snd fs) c)) h c) = Some g <->
    match get name s c with
    | Some g' => g = g'
    | None => First F S fname same name s h g
    end.
  Proof.
    induction h as [| (f, s') h IH]; intros c name s g.
    - cbn [fold_left]. destruct (get name s c); split; try congruence.
      intros X. inversion X.
    - cbn [fold_left fst snd]. rewrite IH, get_add.
      destruct (get name s c) as [g' |]; [reflexivity |].
      destruct (String.eqb_spec name (fname f)) as [-> | N]; cbn [andb].
      + destruct (seqb s s') eqn:Q.
        * split; [intros ->; apply first_here; auto |].
          intros X. inversion X; subst; [reflexivity |]. tauto.
        * split; intros X; [apply first_later; [intros (_ & Y); congruence | exact X] |].
          inversion X; subst; [congruence | assumption].
      + split; intros X; [apply first_later; [intros (Y & _); congruence | exact X] |].
        inversion X; subst; [congruence | assumption].
  Qed.

  (** After any sequence of attempted additions a lookup returns exactly the
      function which was first added under that name with equal settings. *)
  Theorem C50_lookup h name s f :
    get name s (added h) = Some f <-> First F S fname same name s h f.
  Proof. unfold added. rewrite get_fold. reflexivity. Qed.

  (** A lookup finds nothing exactly if nothing was added under that name and
      equal settings. *)
  Theorem C50_nothing h name s :
    get name s (added h) = None <->
    forall f s', In (f, s') h -> fname f = name -> seqb s s' = false.
  Proof.
    assert (X : (exists f, First F S fname same name s h f) <->
                exists f s', In (f, s') h /\ fname f = name /\ seqb s s' = true).
    { induction h as [| (f, s') h IH].
      - split; [intros (f & X); inversion X | intros (f & s' & [] & _)].
      - split.
        + intros (g & X). inversion X; subst.
          * exists g, s'. simpl. auto.
          * destruct (proj1 IH (ex_intro _ g H4)) as (f' & s'' & I & R).
            exists f', s''. simpl. auto.
        + intros (g & s'' & [I | I] & N & Q).
          * injection I as -> ->. exists g. apply first_here; assumption.
          * destruct (string_dec (fname f) name) as [E | E];
              [destruct (seqb s s') eqn:Q'; [exists f; apply first_here; assumption |] |];
              (destruct (proj2 IH) as (g' & G); [exists g, s''; auto |]; exists g';
               apply first_later; [intros (Y & Y'); congruence | exact G]). }
    split.
    - intros G f s' I N. destruct (seqb s s') eqn:Q; [| reflexivity]. exfalso.
      destruct (proj2 X) as (g & FG); [exists f, s'; auto |].
      apply C50_lookup in FG. congruence.
    - intros A. destruct (get name s (added h)) as [f |] eqn:G; [| reflexivity]. exfalso.
      apply C50_lookup in G. destruct (proj1 X (ex_intro _ f G)) as (g & s' & I & N & Q).
      rewrite (A g s' I N) in Q. discriminate.
  Qed.

  (** Adding raises a KeyError exactly if a function was added before under
      the same name and equal settings, and then changes nothing; otherwise
      it succeeds. *)
  Theorem C50_twice h f s :
    match snd (cache_add f s (added h)) with
    | Ok _ => forall g s', In (g, s') h -> fname g = fname f -> seqb s s' = false
    | Err e => e = KeyError /\ fst (cache_add f s (added h)) = added h /\
        exists g s', In (g, s') h /\ fname g = fname f /\ seqb s s' = true
    end.
  Proof.
    assert (Q : match snd (cache_add f s (added h)) with
                | Ok _ => get (fname f) s (added h) = None
                | Err e => e = KeyError /\ fst (cache_add f s (added h)) = added h /\
                    get (fname f) s (added h) <> None
                end).
    { unfold M_Tray.cache_add, cache_get.
      destruct (dget (fname f) (added h)) as [l |]; [| reflexivity].
      rewrite existsb_find. destruct (find _ l); cbn; [| reflexivity].
      repeat split; discriminate. }
    destruct (snd (cache_add f s (added h))) as [u | e].
    - apply C50_nothing, Q.
    - destruct Q as (-> & Q & N). repeat split; [exact Q |].
      destruct (get (fname f) s (added h)) as [g |] eqn:G; [| congruence].
      apply C50_lookup in G. clear - G. induction G as [g s' l E Q | f' s' l g N G IH].
      + exists g, s'. simpl. auto.
      + destruct IH as (g' & s'' & I & R). exists g', s''. simpl. auto.
  Qed.

  (** Every lookup after a successful addition finds what was found before,
      or the new function under its own name and equal settings. *)
  Theorem C50_add h f s name s' : snd (cache_add f s (added h)) = Ok tt ->
    get name s' (fst (cache_add f s (added h))) =
    if String.eqb name (fname f) && seqb s' s then Some f else get name s' (added h).
  Proof.
    intros E. rewrite get_add. pose proof (C50_twice h f s) as T. rewrite E in T.
    destruct (String.eqb_spec name (fname f)) as [-> | N]; cbn [andb].
    - destruct (seqb s' s) eqn:Q.
      + rewrite (proj2 (C50_nothing h (fname f) s')); [reflexivity |].
        intros g s'' I NM. destruct (seqb s' s'') eqn:Q'; [| reflexivity].
        rewrite seqb_sym in Q. rewrite <- (T g s'' I NM).
        symmetry. apply (seqb_trans _ _ _ Q Q').
      + destruct (get (fname f) s' (added h)); reflexivity.
    - destruct (get name s' (added h)); reflexivity.
  Qed.

  (** Fetching a function, the way modules do it, never raises as long as the
      functions made carry the name under which they are looked up; it
      returns the function made first for equal settings, and fetching it
      again, also with other equal settings, returns the same function and
      leaves the cache unchanged. *)
  Theorem C50_fetch c name s make : (forall s, fname (make s) = name) ->
    exists f c', fetch name s make c = (c', Ok f) /\
      (get name s c = None -> f = make s) /\
      (forall g, get name s c = Some g -> f = g /\ c' = c) /\
      forall s' make', seqb s s' = true -> fetch name s' make' c' = (c', Ok f).
  Proof.
    intros N. unfold M_Tray.fetch at 1.
    assert (EQ : forall s s' c, seqb s s' = true -> get name s c = get name s' c).
    { intros s1 s2 c0 Q. rewrite !cache_get_entries. f_equal.
      induction (entries F S name c0) as [| e l IH]; [reflexivity |]. cbn [find].
      replace (seqb s2 (fst e)) with (seqb s1 (fst e)); [rewrite IH; reflexivity |].
      destruct (seqb s1 (fst e)) eqn:A, (seqb s2 (fst e)) eqn:B; try reflexivity.
      - rewrite <- B. symmetry. rewrite seqb_sym in Q. apply (seqb_trans _ _ _ Q A).
      - rewrite <- A. apply (seqb_trans _ _ _ Q B). }
    destruct (get name s c) as [f |] eqn:G.
    - exists f, c. repeat split; try congruence.
      intros s' make' Q. unfold M_Tray.fetch. rewrite <- (EQ s s' c Q), G. reflexivity.
    - destruct (cache_add (make s) s c) as (c', r) eqn:E.
      assert (R : r = Ok tt).
      { revert E G. unfold M_Tray.cache_add, cache_get. rewrite N.
        destruct (dget name c) as [l |]; [| congruence].
        rewrite existsb_find. destruct (find _ l); [discriminate | congruence]. }
      subst r. exists (make s), c'. repeat split; try congruence.
      intros s' make' Q. unfold M_Tray.fetch. rewrite <- (EQ s s' c' Q).
      pose proof (get_add name s (make s) s c) as A. rewrite E, G, N in A. cbn [fst] in A.
      rewrite String.eqb_refl, seqb_refl in A. cbn [andb] in A. rewrite A. reflexivity.
  Qed.

  (** A function made under another name is not found by the next module:
      fetching it again raises a KeyError. *)
  Theorem C50_wrong_name name s make : fname (make s) <> name ->
    exists c', fetch name s make [] = (c', Ok (make s)) /\
      snd (fetch name s make c') = Err KeyError.
  Proof.
    intros N. eexists. split; [reflexivity |].
    cbv [M_Tray.fetch cache_get M_Tray.cache_add dget dset].
    destruct (String.eqb_spec name (fname (make s))) as [E | _]; [congruence |].
    rewrite String.eqb_refl. cbn [existsb fst]. rewrite seqb_refl. reflexivity.
  Qed.

End Cache.

(** Example: functions are pairs of a name and a number, settings are
    numbers, compared modulo ten. *)
Definition settings_eqb (a b : nat) : bool := (Nat.modulo a 10 =? Nat.modulo b 10)%nat.

Example settings_equivalence :
  (forall s, settings_eqb s s = true) /\
  (forall s s', settings_eqb s s' = settings_eqb s' s) /\
  (forall s s' s'', settings_eqb s s' = true -> settings_eqb s' s'' = true ->
     settings_eqb s s'' = true).
Proof.
  unfold settings_eqb. split; [| split].
  - intros s. apply Nat.eqb_refl.
  - intros s s'. apply Nat.eqb_sym.
  - intros s s' s'' A B. apply Nat.eqb_eq in A, B. apply Nat.eqb_eq. congruence.
Qed.

Example history :
  let h := [(("f", 0), 3); (("g", 1), 3); (("f", 2), 13); (("f", 3), 4)]%nat in
  cache_get _ _ settings_eqb "f" 23%nat (added _ _ fst settings_eqb h) = Some ("f", 0%nat) /\
  cache_get _ _ settings_eqb "f" 14%nat (added _ _ fst settings_eqb h) = Some ("f", 3%nat) /\
  cache_get _ _ settings_eqb "g" 4%nat (added _ _ fst settings_eqb h) = None.
Proof. repeat split. Qed.

Print Assumptions C47_refused.
Print Assumptions C47_failed_keeps.
Print Assumptions C47_added.
Print Assumptions C47_unique.
Print Assumptions C47_default.
Print Assumptions C47_execute.
Print Assumptions C47_keys.
Print Assumptions C47_error.
Print Assumptions C47_default_refuted.
Print Assumptions C50_lookup.
Print Assumptions C50_nothing.
Print Assumptions C50_twice.
Print Assumptions C50_add.
Print Assumptions C50_fetch.
Print Assumptions C50_wrong_name.
