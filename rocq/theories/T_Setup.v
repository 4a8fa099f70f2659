(** Properties of combined configurations: C37, C72 and C73. *)
From Verif Require Import Py PyFacts M_Setup S_Setup L_Setup.

Section Properties.
  Variable load : string -> result value.
  Variable show : value -> string.
  Variable tf_attr np_attr : string -> option value.
  Variable short_sha sha origin : string.
  Variable uncommitted : bool.
  Variable packages : value.
  Variable dir : string.

  (** Python dictionaries have different keys. *)
  Hypothesis load_wf : forall f v, load f = Ok v -> vwf v.
  Hypothesis tf_wf : forall p v, tf_attr p = Some v -> vwf v.
  Hypothesis np_wf : forall p v, np_attr p = Some v -> vwf v.
  Hypothesis packages_wf : vwf packages.

  Notation setup := (setup load show tf_attr np_attr short_sha sha origin
                       uncommitted packages dir).

  (** The files hold the mappings [upds], without a common key, the float
      precision [p] is known to both libraries and [raw] is the outcome of
      assigning first the defaults, then all settings of the files, then the
      automatic ones. *)
  Definition combined (fs : list string) (upds : list (dict value))
    (p : string) (raw : dict value) : Prop :=
    fs <> [] /\
    Forall2 (fun f u => load f = Ok (VDict u)) fs upds /\
    ForallOrdPairs no_common_key upds /\
    last_value "float_precision" (defaults ++ concat upds) = Some (VStr p) /\
    exists a b, tf_attr p = Some a /\ np_attr p = Some b /\
      outcome (defaults ++ concat upds ++
        automatic a b short_sha sha origin uncommitted packages
          (joined (map (fun f => drop_yaml (basename f)) fs)) dir) raw.

  Lemma combined_dvwf fs upds p raw : combined fs upds p raw -> dvwf raw.
  Proof.
    intros (_ & L & _ & _ & a & b & A & B & O).
    eapply outcome_vwf; [| exact O].
    apply Forall_app. split; [repeat constructor |].
    apply Forall_app. split.
    - clear O. induction L; [constructor |]. simpl. apply Forall_app.
      split; [| exact IHL]. apply load_wf in H. inversion H; subst.
      assumption.
    - repeat constructor; eauto.
  Qed.

  Lemma setup_combined fs F : setup (Files fs) = Ok F <->
    exists upds p raw, combined fs upds p raw /\
      expand show (VDict raw) [] raw = Ok F.
  Proof.
    unfold combined. split.
    - intros H. destruct fs as [| f fs]; [discriminate |].
      unfold M_Setup.setup in H. apply bind_ok in H.
      destruct H as ([c n] & HC & H).
      apply bind_ok in H. destruct H as (raw & HR & H).
      apply combine_ok in HC; [| exact load_wf].
      destruct HC as (upds & L & D & -> & ->).
      apply disjoint_from_spec in D. destruct D as [_ D].
      cbn [fst snd] in HR.
      apply raw_ok in HR. destruct HR as (p & a & b & P & A & B & O).
      rewrite final_name_spec in O by discriminate.
      exists upds, p, raw. split; [| exact H].
      split; [discriminate |]. split; [exact L |]. split; [exact D |].
      split; [exact P |]. exists a, b. auto.
    - intros (upds & p & raw & (N & L & D & P & a & b & A & B & O) & H).
      destruct fs as [| f fs]; [congruence |].
      unfold M_Setup.setup.
      assert (HC : combine_files load (f :: fs) [] None =
                   Ok (concat upds, final_name None (f :: fs))).
      { apply combine_ok; [exact load_wf |]. exists upds.
        split; [exact L |]. split; [| auto].
        apply disjoint_from_spec. split; [| exact D].
        apply Forall_forall. intros u _ k []. }
      rewrite HC. cbn [bind fst snd].
      assert (HR : raw_config tf_attr np_attr short_sha sha origin uncommitted
                packages dir (concat upds) (final_name None (f :: fs))
              = Ok raw).
      { apply raw_ok. exists p, a, b. rewrite final_name_spec by discriminate.
        auto. }
      rewrite HR. exact H.
  Qed.

  (** C37: combining succeeds iff there is a file, no top level key occurs in
      two files, the float precision is known, and all strings (which are not
      inside lists) are templates whose placeholders are names of settings. *)
  Theorem C37_success (fs : list string) :
    (exists F, setup (Files fs) = Ok F) <->
    (exists upds p raw, combined fs upds p raw /\
       forall path s, leaf (VDict raw) path s -> good (map fst raw) s).
  Proof.
    split.
    - intros (F & H). apply setup_combined in H.
      destruct H as (upds & p & raw & C & H).
      exists upds, p, raw. split; [exact C |]. intros path s L.
      rewrite expand_top in H by (eapply combined_dvwf; exact C).
      apply bind_ok in H. destruct H as (w & H & _).
      apply expl_split in H. destruct H as (f & -> & K & HS).
      inversion L; subst.
      match goal with I : In (?k, ?v) raw |- _ =>
        apply in_split in I; destruct I as (pre & post & ->) end.
      destruct (HS pre k v post eq_refl) as (pre' & v' & post' & -> & A & B & E).
      apply expv_spec in E. destruct E as [_ E].
      destruct (E _ _ ltac:(eassumption)) as (mid & t & _ & R).
      pose proof (proj1 (renders_exists _ _ _) (ex_intro _ t R))
        as (names & T & FN).
      exists names. split; [exact T |]. eapply Forall_impl; [| exact FN].
      simpl. intros n [N1 N2]. split; [exact N1 |].
      destruct (in_dec string_dec n (map fst (pre ++ (k, v) :: post)))
        as [I | I]; [exact I |].
      exfalso. apply N2. apply dget_None_iff. intro J. apply I.
      unfold dkeys in J. rewrite map_app in *. simpl in *.
      rewrite A in J. exact J.
    - intros (upds & p & raw & C & G).
      destruct (expl_total show (dkeys raw) raw []) as (w & E).
      + reflexivity.
      + intros k v q s I L. apply (G (k :: q) s). econstructor; eassumption.
      + exists (ctx0 w). apply setup_combined. exists upds, p, raw.
        split; [exact C |].
        rewrite expand_top by (eapply combined_dvwf; exact C).
        rewrite E. reflexivity.
  Qed.

  (** C37: without a list, or with an empty list, or if two files which can
      be read share a key, a ValueError is raised. *)
  Theorem C37_errors :
    setup NotAList = Err ValueError /\ setup (Files []) = Err ValueError /\
    (forall fs upds, Forall2 (fun f u => load f = Ok (VDict u)) fs upds ->
       ~ ForallOrdPairs no_common_key upds ->
       setup (Files fs) = Err ValueError).
  Proof.
    split; [reflexivity |]. split; [reflexivity |].
    intros fs upds L D.
    assert (K : forall fs upds, Forall2 (fun f u => load f = Ok (VDict u))
                fs upds -> forall cfg name, ~ disjoint_from cfg upds ->
              combine_files load fs cfg name = Err ValueError).
    { clear fs upds L D. intros fs upds L.
      induction L as [| f u fs upds Hf L IH]; intros cfg name D.
      - exfalso. apply D. exact I.
      - cbn [combine_files]. rewrite Hf. cbn [bind].
        destruct (existsb (fun k => dmem k u) (dkeys cfg)) eqn:E;
          [reflexivity |].
        apply common_key_spec in E.
        assert (W : dwf u). { apply load_wf in Hf. inversion Hf; subst. assumption. }
        rewrite dupdate_fresh; [| exact W | exact E].
        apply IH. intro D2. apply D. split; assumption. }
    destruct fs as [| f fs].
    - inversion L; subst. exfalso. apply D. constructor.
    - unfold M_Setup.setup. rewrite (K _ _ L); [reflexivity |].
      intro H. apply disjoint_from_spec in H. tauto.
  Qed.

  (** C37: the result has exactly the keys of the defaults, the files and the
      automatic settings; every value is the one of the last assignment up to
      expanded strings, and values without placeholders are unchanged. *)
  Theorem C37_values (fs : list string) (F : dict value) :
    setup (Files fs) = Ok F ->
    exists upds p raw, combined fs upds p raw /\
      map fst F = map fst raw /\
      (forall k v, dget k raw = Some v -> exists v', dget k F = Some v' /\
         same_shape v v' /\
         ((forall path s, leaf v path s -> no_brace s) -> vwf v -> v' = v)).
  Proof.
    intros H. apply setup_combined in H.
    destruct H as (upds & p & raw & C & H).
    exists upds, p, raw. split; [exact C |].
    pose proof (combined_dvwf _ _ _ _ C) as W.
    rewrite expand_top in H by exact W.
    apply bind_ok in H. destruct H as (w & H & E). injection E as <-.
    apply expl_split in H. destruct H as (f & -> & K & HS). simpl.
    split; [exact K |]. intros k v G.
    apply dget_In in G. apply in_split in G. destruct G as (pre & post & ->).
    destruct (HS pre k v post eq_refl) as (pre' & v' & post' & -> & A & B & E).
    exists v'. split.
    - apply dget_mid. unfold dkeys. rewrite A. destruct W as [W _].
      unfold dwf, dkeys in W. rewrite map_app in W. simpl in W.
      apply NoDup_remove_2 in W. intro X. apply W. apply in_or_app. tauto.
    - pose proof (expv_spec show v _ v' E) as [SH LF]. split; [exact SH |].
      intros NB WV. clear - SH LF NB WV.
      assert (LF' : forall p s, leaf v p s -> leaf v' p s).
      { intros p s L. destruct (LF p s L) as (mid & t & A & R).
        rewrite (renders_fun _ _ _ _ R s) in A; [exact A |].
        apply renders_plain. apply (NB p s L). }
      clear - SH LF' WV. revert v v' SH WV LF'.
      fix IH 3. intros v v' SH WV LF. destruct SH.
      + specialize (LF [] s (leaf_here s)). inversion LF; subst. reflexivity.
      + f_equal.
        inversion WV as [| | | | | | d' Wd Wf]; subst.
        assert (We : dwf e).
        { unfold dwf, dkeys in *. replace (map fst e) with (map fst d);
            [exact Wd |]. clear - H. induction H; [reflexivity |].
          simpl. f_equal; [tauto | assumption]. }
        assert (LF2 : forall k u u' p s, In (k, u) d -> In (k, u') e ->
                  leaf u p s -> leaf u' p s).
        { intros k u u' p s I I' L.
          specialize (LF (k :: p) s (leaf_sub d k u p s I L)).
          inversion LF; subst.
          match goal with J : In (k, ?z) e |- _ =>
            match z with
            | u' => fail 1
            | _ => assert (z = u');
                [apply (In_dget _ _ _ We) in J; apply (In_dget _ _ _ We) in I';
                 congruence | subst; assumption]
            end
          | _ => assumption
          end. }
        clear LF Wd We WV.
        revert d e H Wf LF2. fix IHl 3.
        intros d e HF Wf LF2. destruct HF as [| [k u] [k' u'] d e [E1 E2] HF].
        * reflexivity.
        * simpl in E1, E2. subst k'. inversion Wf as [| x l W1 W2]; subst.
          f_equal.
          -- f_equal. symmetry. symmetry. apply IH; [exact E2 | exact W1 |].
             intros p s L. apply (LF2 k u u' p s);
               [left; reflexivity | left; reflexivity | exact L].
          -- apply IHl; [exact HF | exact W2 |].
             intros k1 u1 u1' p s I1 I2 L.
             apply (LF2 k1 u1 u1' p s); [right; exact I1 | right; exact I2 |
                                         exact L].
      + reflexivity.
      + reflexivity.
      + reflexivity.
      + reflexivity.
      + reflexivity.
  Qed.

  (** The names of automatic settings. *)
  Definition automatic_name (k : string) : Prop :=
    In k ["tf_float_precision"; "np_float_precision"; "git_short_sha";
          "git_sha"; "git_origin"; "git_uncommited_changes";
          "pip_installed_packages"; "config_name"; "egenerator_dir"].

  (** No placeholder occurs in any string which is not inside a list. *)
  Definition literal (v : value) : Prop :=
    forall path s, leaf v path s -> no_brace s.

  (** C37: every setting of every file is in the result with its value up to
      expansion of strings, unless it has the name of an automatic setting. *)
  Theorem C37_user (fs : list string) (F : dict value) f u k v :
    setup (Files fs) = Ok F -> In f fs -> load f = Ok (VDict u) ->
    dget k u = Some v -> ~ automatic_name k ->
    exists v', dget k F = Some v' /\ same_shape v v' /\
      (literal v -> v' = v).
  Proof.
    intros H If Lf G NA.
    destruct (C37_values fs F H) as (upds & p & raw & C & K & V).
    assert (W : vwf v).
    { apply load_wf in Lf. inversion Lf as [| | | | | | d Wd Wf]; subst.
      rewrite Forall_forall in Wf. apply dget_In in G. apply (Wf _ G). }
    assert (R : dget k raw = Some v).
    { destruct C as (_ & L & D & _ & a & b & _ & _ & _ & O).
      rewrite O, !last_value_app.
      replace (last_value k (automatic a b short_sha sha origin uncommitted
        packages (joined (map (fun f => drop_yaml (basename f)) fs)) dir))
        with (@None value) by (symmetry; apply last_value_None; exact NA).
      assert (IU : In u upds).
      { clear - L If Lf. induction L; [destruct If |].
        destruct If as [-> | If]; [left; congruence | right; auto]. }
      assert (LV : last_value k (concat upds) = Some v).
      { assert (WU : Forall (fun u => dwf u) upds).
        { clear - L load_wf. induction L; constructor; [| assumption].
          apply load_wf in H. inversion H; subst. assumption. }
        clear - D IU G WU. induction D as [| w upds HF D IH]; [destruct IU |].
        simpl. rewrite last_value_app. inversion WU; subst.
        destruct IU as [-> | IU].
        - replace (last_value k (concat upds)) with (@None value).
          + assert (Q : forall e : dict value, dwf e ->
                      last_value k e = dget k e).
            { induction e as [| [k' x] e IHe]; intros We; [reflexivity |].
              inversion We; subst. simpl. rewrite IHe by assumption.
              destruct (String.eqb_spec k k') as [-> | N].
              - rewrite (proj2 (dget_None_iff k' e)) by assumption.
                reflexivity.
              - destruct (dget k e); reflexivity. }
            rewrite Q by assumption. exact G.
          + symmetry. apply last_value_None. intro X.
            rewrite concat_map in X. apply in_concat in X.
            destruct X as (y & Y1 & Y2). apply in_map_iff in Y1.
            destruct Y1 as (z & <- & Z).
            rewrite Forall_forall in HF. apply (HF z Z k); [| exact Y2].
            apply dget_Some_In_keys in G. exact G.
        - rewrite IH by assumption. reflexivity. }
      rewrite LV. reflexivity. }
    destruct (V k v R) as (v' & A & B & E). exists v'.
    split; [exact A |]. split; [exact B |]. intros LI. apply E; assumption.
  Qed.

  (** C37: automatic settings override the settings of the files. *)
  Theorem C37_automatic (fs : list string) (F : dict value) :
    setup (Files fs) = Ok F ->
    exists p a b, tf_attr p = Some a /\ np_attr p = Some b /\
      forall k v,
        In (k, v) (automatic a b short_sha sha origin uncommitted packages
          (joined (map (fun f => drop_yaml (basename f)) fs)) dir) ->
        exists v', dget k F = Some v' /\ same_shape v v' /\
          (literal v -> v' = v).
  Proof.
    intros H. destruct (C37_values fs F H) as (upds & p & raw & C & K & V).
    destruct C as (_ & L & D & _ & a & b & A & B & _ & O).
    exists p, a, b. split; [exact A |]. split; [exact B |].
    intros k v I.
    assert (W : vwf v).
    { simpl in I. repeat (destruct I as [I | I];
        [injection I as _ <-; eauto; constructor |]). destruct I. }
    assert (R : dget k raw = Some v).
    { rewrite O, !last_value_app. simpl in I.
      repeat (destruct I as [I | I]; [injection I as <- <-; reflexivity |]).
      destruct I. }
    destruct (V k v R) as (v' & X & Y & Z). exists v'.
    split; [exact X |]. split; [exact Y |]. intros LI. apply Z; assumption.
  Qed.

  (** C37: the default float precision is used only if no file sets it; the
      libraries' types are looked up under the name set by the files. *)
  Theorem C37_precision (fs : list string) (F : dict value) :
    setup (Files fs) = Ok F ->
    exists a b, dget "tf_float_precision" F = Some a /\
                dget "np_float_precision" F = Some b /\
    ((forall f u, In f fs -> load f = Ok (VDict u) ->
        dget "float_precision" u = None) ->
     dget "float_precision" F = Some (VStr "float32") /\
     exists a0 b0, tf_attr "float32" = Some a0 /\ same_shape a0 a /\
                   np_attr "float32" = Some b0 /\ same_shape b0 b) /\
    (forall f u x, In f fs -> load f = Ok (VDict u) ->
       dget "float_precision" u = Some x ->
       exists s t a0 b0, x = VStr s /\
         dget "float_precision" F = Some (VStr t) /\
         tf_attr s = Some a0 /\ same_shape a0 a /\
         np_attr s = Some b0 /\ same_shape b0 b).
  Proof.
    intros H. destruct (C37_values fs F H) as (upds & p & raw & C & K & V).
    destruct C as (N & L & D & P & a & b & A & B & _ & O).
    assert (RA : dget "tf_float_precision" raw = Some a).
    { rewrite O, !last_value_app. reflexivity. }
    assert (RB : dget "np_float_precision" raw = Some b).
    { rewrite O, !last_value_app. reflexivity. }
    assert (RP : dget "float_precision" raw = Some (VStr p)).
    { rewrite O, app_assoc, last_value_app, P. reflexivity. }
    destruct (V _ _ RA) as (a' & FA & SA & _).
    destruct (V _ _ RB) as (b' & FB & SB & _).
    destruct (V _ _ RP) as (p' & FP & SP & EP).
    exists a', b'. split; [exact FA |]. split; [exact FB |]. split.
    - intros HN.
      assert (E : p = "float32").
      { rewrite last_value_app in P.
        replace (last_value "float_precision" (concat upds))
          with (@None value) in P.
        - simpl in P. congruence.
        - symmetry. apply last_value_None. intro X.
          rewrite concat_map in X. apply in_concat in X.
          destruct X as (y & Y1 & Y2). apply in_map_iff in Y1.
          destruct Y1 as (u & <- & Z).
          assert (exists f, In f fs /\ load f = Ok (VDict u)) as (f & F1 & F2).
          { clear - L Z. induction L as [| f w fs ws Hf L IH]; [destruct Z |].
            destruct Z as [-> | Z].
            - exists f. split; [left; reflexivity | exact Hf].
            - destruct (IH Z) as (g & G1 & G2). exists g.
              split; [right; exact G1 | exact G2]. }
          pose proof (HN f u F1 F2) as X. apply dget_None_iff in X.
          apply X. exact Y2. }
      subst p. split.
      + rewrite FP. f_equal. apply EP; [| constructor].
        intros path s LS. inversion LS; subst. split; simpl;
          intros X; repeat (destruct X as [X | X]; [discriminate |]); destruct X.
      + exists a, b. auto.
    - intros f u x If Lf G.
      destruct (C37_user fs F f u "float_precision" x H If Lf G)
        as (x' & FX & SX & _).
      { simpl. intros X. repeat (destruct X as [X | X]; [discriminate |]).
        destruct X. }
      assert (E : x = VStr p).
      { assert (LV : last_value "float_precision" (concat upds) = Some x).
        { assert (WU : Forall (fun u => dwf u) upds).
          { clear - L load_wf. induction L; constructor; [| assumption].
            apply load_wf in H. inversion H; subst. assumption. }
          assert (IU : In u upds).
          { clear - L If Lf. induction L; [destruct If |].
            destruct If as [-> | If]; [left; congruence | right; auto]. }
          clear - D IU G WU.
          induction D as [| w upds HF D IH]; [destruct IU |].
          simpl. rewrite last_value_app. inversion WU; subst.
          destruct IU as [-> | IU].
          - replace (last_value "float_precision" (concat upds))
              with (@None value).
            + assert (Q : forall (e : dict value) k, dwf e ->
                        last_value k e = dget k e).
              { induction e as [| [k' y] e IHe]; intros k We;
                  [reflexivity |].
                inversion We; subst. simpl. rewrite IHe by assumption.
                destruct (String.eqb_spec k k') as [-> | Nk].
                - rewrite (proj2 (dget_None_iff k' e)) by assumption.
                  reflexivity.
                - destruct (dget k e); reflexivity. }
              rewrite Q by assumption. exact G.
            + symmetry. apply last_value_None. intro X.
              rewrite concat_map in X. apply in_concat in X.
              destruct X as (y & Y1 & Y2). apply in_map_iff in Y1.
              destruct Y1 as (z & <- & Z).
              rewrite Forall_forall in HF.
              apply (HF z Z "float_precision"); [| exact Y2].
              apply dget_Some_In_keys in G. exact G.
          - rewrite IH by assumption. reflexivity. }
        rewrite last_value_app, LV in P. congruence. }
      subst x. inversion SP; subst. exists p, t, a, b.
      repeat split; auto.
  Qed.

  (** C72: placeholders are expanded in one pass in the order of the
      settings: a string sees the final values of earlier settings, but the
      unexpanded values of later ones ([mid] is the state of the setting the
      string belongs to). *)
  Theorem C72_pass (fs : list string) (F : dict value) :
    setup (Files fs) = Ok F ->
    exists upds p raw, combined fs upds p raw /\
    forall pre k v post, raw = pre ++ (k, v) :: post ->
    exists pre' v' post', F = pre' ++ (k, v') :: post' /\
      map fst pre' = map fst pre /\ map fst post' = map fst post /\
      (forall s, v = VStr s -> exists t, v' = VStr t /\
         renders (text_of show)
           (fun n => dget n (pre' ++ (k, v) :: post)) s t) /\
      (forall path s, leaf v path s -> exists mid t, leaf v' path t /\
         renders (text_of show)
           (fun n => dget n (pre' ++ (k, mid) :: post)) s t).
  Proof.
    intros H. apply setup_combined in H.
    destruct H as (upds & p & raw & C & H).
    exists upds, p, raw. split; [exact C |].
    rewrite expand_top in H by (eapply combined_dvwf; exact C).
    apply bind_ok in H. destruct H as (w & H & E). injection E as <-.
    apply expl_split in H. destruct H as (f & -> & K & HS). simpl.
    intros pre k v post ER.
    destruct (HS pre k v post ER) as (pre' & v' & post' & -> & A & B & E).
    exists pre', v', post'. split; [reflexivity |]. split; [exact A |].
    split; [exact B |]. simpl in E. split.
    - intros s ->. cbn [expv] in E. apply bind_ok in E.
      destruct E as (t & E & E2). injection E2 as <-. exists t.
      split; [reflexivity |]. apply format_renders. exact E.
    - intros path s LS. apply expv_spec in E. destruct E as [_ E].
      exact (E path s LS).
  Qed.

  (** C72: so a top level string all of whose placeholders name earlier
      settings, or settings which are not changed by the expansion, is
      rendered with the values of the result. *)
  Theorem C72_resolved (fs : list string) (F : dict value) :
    setup (Files fs) = Ok F ->
    exists upds p raw, combined fs upds p raw /\
    forall pre k s post, raw = pre ++ (k, VStr s) :: post ->
    (forall names n, template s names -> In n names ->
       In n (map fst pre) \/ dget n F = dget n raw) ->
    exists t, dget k F = Some (VStr t) /\
      renders (text_of show) (fun n => dget n F) s t.
  Proof.
    intros H. destruct (C72_pass fs F H) as (upds & p & raw & C & HP).
    exists upds, p, raw. split; [exact C |].
    intros pre k s post ER HN.
    destruct (HP pre k (VStr s) post ER)
      as (pre' & v' & post' & EF & A & B & S & _).
    destruct (S s eq_refl) as (t & -> & R).
    pose proof (combined_dvwf _ _ _ _ C) as [W _].
    assert (NK : ~ In k (map fst pre')).
    { rewrite A. subst raw. unfold dwf, dkeys in W.
      rewrite map_app in W. simpl in W. apply NoDup_remove_2 in W.
      intro X. apply W. apply in_or_app. tauto. }
    exists t. split; [subst F; apply dget_mid; exact NK |].
    eapply renders_ext; [exact R |].
    intros names T n I.
    assert (GA : forall (l1 l2 : dict value) n, dget n (l1 ++ l2) =
              match dget n l1 with Some v => Some v | None => dget n l2 end).
    { intros l1 l2 m. induction l1 as [| [k' x] l1 IH]; [reflexivity |].
      simpl. destruct (String.eqb m k'); [reflexivity | exact IH]. }
    cbv beta. rewrite GA.
    destruct (HN names n T I) as [E | E].
    - subst F. rewrite GA.
      assert (In n (dkeys pre')) as J by (unfold dkeys; rewrite A; exact E).
      destruct (In_keys_dget n pre' J) as (x & ->). reflexivity.
    - rewrite E. subst F raw. rewrite GA in E. rewrite GA.
      destruct (dget n pre') as [x |] eqn:G1.
      + rewrite <- GA. exact E.
      + assert (G2 : dget n pre = None).
        { apply dget_None_iff. unfold dkeys. rewrite <- A.
          apply dget_None_iff. exact G1. }
        rewrite G2. reflexivity.
  Qed.

  (** C73: the name of a combination of files [stem.yaml] is made of their
      stems. *)
  Theorem C73_name (fs stems : list string) (F : dict value) :
    setup (Files fs) = Ok F -> Forall2 yaml_path fs stems ->
    no_brace (joined stems) ->
    dget "config_name" F = Some (VStr (joined stems)).
  Proof.
    intros H HY NB.
    destruct (C37_automatic fs F H) as (p & a & b & _ & _ & HA).
    assert (E : map (fun f => drop_yaml (basename f)) fs = stems).
    { clear - HY. induction HY; [reflexivity |]. simpl.
      f_equal; [apply stem_of; assumption | assumption]. }
    rewrite E in HA.
    destruct (HA "config_name" (VStr (joined stems))) as (v & G & S & L).
    - simpl. tauto.
    - rewrite G. f_equal. apply L. intros path s LS. inversion LS; subst.
      exact NB.
  Qed.

  (** C73: in general the last parts of the paths are taken, without any
      occurrence of [.yaml], wherever it is. *)
  Theorem C73_any_name (fs : list string) (F : dict value) :
    setup (Files fs) = Ok F ->
    exists stems, Forall2 stem_of_path fs stems /\
      (no_brace (joined stems) ->
       dget "config_name" F = Some (VStr (joined stems))).
  Proof.
    intros H. exists (map (fun f => drop_yaml (basename f)) fs). split.
    - clear H. induction fs; constructor; [apply stem_of_any | assumption].
    - intros NB. destruct (C37_automatic fs F H) as (p & a & b & _ & _ & HA).
      destruct (HA "config_name" (VStr (joined
        (map (fun f => drop_yaml (basename f)) fs)))) as (v & G & S & L).
      + simpl. tauto.
      + rewrite G. f_equal. apply L. intros path s LS. inversion LS; subst.
        exact NB.
  Qed.

End Properties.

(** C37: a requested configuration has the same content as the stored one,
    and changing anything that can be reached from it leaves the stored one
    as it was, and vice versa. *)
Theorem C37_copy (n : nat) (h h' : heap) (a b : nat) :
  closed_heap h -> get_config n h a = Some (h', b) ->
  (forall v, reads h' b v <-> reads h a v) /\
  (forall v, reads h' a v <-> reads h a v) /\
  (forall h'', changed_from h' b h'' ->
     forall v, reads h a v -> reads h'' a v) /\
  (forall h'', changed_from h' a h'' ->
     forall v, reads h' b v -> reads h'' b v).
Proof.
  intros HC H. destruct (get_config_good n h a h' b HC H)
    as (ext & E & B & F & v & V1 & V2).
  assert (LA : a < length h) by (eapply reads_bound; exact V1).
  assert (RB : forall x, reach h' b x -> length h <= x).
  { assert (K : forall y x, reach h' y x -> length h <= y -> length h <= x).
    { intros y x R. induction R; intros L; [exact L |].
      apply IHR. eapply F; eassumption. }
    intros x R. eapply K; [exact R | lia]. }
  assert (RA : forall x, reach h' a x -> x < length h).
  { assert (K : forall y x, reach h' y x -> y < length h -> x < length h).
    { intros y x R. induction R; intros L; [exact L |].
      apply IHR. subst h'. rewrite nth_error_app1 in H0 by exact L.
      eapply HC; eassumption. }
    intros x R. eapply K; [exact R | exact LA]. }
  split; [| split; [| split]].
  - intros w. split; intros W.
    + rewrite <- (reads_fun _ _ _ V2 _ W). exact V1.
    + rewrite <- (reads_fun _ _ _ V1 _ W). exact V2.
  - intros w. subst h'. split.
    + apply reads_old; assumption.
    + apply reads_ext.
  - intros h'' [L CH] w W.
    assert (W' : reads h' a w) by (subst h'; apply reads_ext; exact W).
    eapply reads_agree; [exact W' |]. intros x R.
    apply CH.
    + pose proof (RA x R). subst h'. rewrite app_length. lia.
    + intro R2. pose proof (RA x R). pose proof (RB x R2). lia.
  - intros h'' [L CH] w W.
    eapply reads_agree; [exact W |]. intros x R.
    apply CH.
    + eapply reach_bound; [| | exact R]; [| lia].
      eapply closed_ext; eassumption.
    + intro R2. pose proof (RB x R). pose proof (RA x R2). lia.
Qed.

(** C37: a configuration that can be read can be requested. *)
Theorem C37_copy_exists (h : heap) (a : nat) (v : value) :
  closed_heap h -> reads h a v ->
  exists n h' b, get_config n h a = Some (h', b).
Proof.
  intros HC R. destruct (deepcopy_total h a v HC R) as (n & T).
  destruct (T h [] (eq_sym (app_nil_r h)) HC) as ([h1 b1] & E).
  pose proof (deepcopy_good n h a h1 b1 HC E) as (ext & -> & B & _).
  destruct (nth_error (h ++ ext) b1) as [d |] eqn:N.
  - exists n, ((h ++ ext) ++ [d]), (length (h ++ ext)).
    unfold get_config. rewrite E, N. reflexivity.
  - apply nth_error_None in N. lia.
Qed.

(** ** Concrete cases *)

Definition demo_files (f : string) : result value :=
  if String.eqb f "cfg/base.yaml" then
    Ok (VDict [("root", VStr "/data"); ("out", VStr "{root}/{config_name}");
               ("sub", VDict [("log", VStr "{out}/log"); ("n", VInt 3)])])
  else if String.eqb f "extra.yaml" then
    Ok (VDict [("git_sha", VStr "mine"); ("float_precision", VStr "float64");
               ("files", VList [VStr "{root}/a"])])
  else if String.eqb f "forward.yaml" then
    Ok (VDict [("a", VStr "{b}/x"); ("b", VStr "{c}/y"); ("c", VStr "z")])
  else if String.eqb f "base__extra.yaml" then Ok (VDict [])
  else if String.eqb f "base.yaml" then Ok (VDict [])
  else if String.eqb f "empty.yaml" then Ok VNone
  else Err IOError.

Definition demo_attr (p : string) : option value :=
  if String.eqb p "float32" then Some (VInt 32)
  else if String.eqb p "float64" then Some (VInt 64) else None.

Definition demo_setup :=
  setup demo_files (fun _ => "?") demo_attr demo_attr "abc" "abcdef" "None"
    true (VList []) "/repo".

Lemma demo_wf : forall f v, demo_files f = Ok v -> vwf v.
Proof.
  assert (ND : forall l : list string, nodup string_dec l = l -> NoDup l).
  { intros l <-. apply NoDup_nodup. }
  intros f v. unfold demo_files.
  destruct (String.eqb f "cfg/base.yaml").
  { intros E. injection E as <-. constructor.
    - apply ND. reflexivity.
    - constructor; [constructor |]. constructor; [constructor |].
      constructor; [| constructor]. constructor.
      + apply ND. reflexivity.
      + repeat constructor. }
  destruct (String.eqb f "extra.yaml").
  { intros E. injection E as <-. constructor.
    - apply ND. reflexivity.
    - constructor; [constructor |]. constructor; [constructor |].
      constructor; [| constructor]. constructor. repeat constructor. }
  destruct (String.eqb f "forward.yaml").
  { intros E. injection E as <-. constructor.
    - apply ND. reflexivity.
    - repeat constructor. }
  destruct (String.eqb f "base__extra.yaml").
  { intros E. injection E as <-. constructor; constructor. }
  destruct (String.eqb f "base.yaml").
  { intros E. injection E as <-. constructor; constructor. }
  destruct (String.eqb f "empty.yaml").
  { intros E. injection E as <-. constructor. }
  discriminate.
Qed.

Lemma demo_attr_wf : forall p v, demo_attr p = Some v -> vwf v.
Proof.
  intros p v. unfold demo_attr. destruct (String.eqb p "float32").
  - intros E. injection E as <-. constructor.
  - destruct (String.eqb p "float64"); [| discriminate].
    intros E. injection E as <-. constructor.
Qed.

(** Two files are combined: placeholders are expanded (but not in lists), the
    precision is the one of the file and the name of the commit is replaced. *)
Example C37_case :
  exists F, demo_setup (Files ["cfg/base.yaml"; "extra.yaml"]) = Ok F /\
    dget "out" F = Some (VStr "/data/base__extra") /\
    dget "sub" F =
      Some (VDict [("log", VStr "/data/base__extra/log"); ("n", VInt 3)]) /\
    dget "files" F = Some (VList [VStr "{root}/a"]) /\
    dget "git_sha" F = Some (VStr "abcdef") /\
    dget "float_precision" F = Some (VStr "float64") /\
    dget "tf_float_precision" F = Some (VInt 64).
Proof.
  eexists. split; [vm_compute; reflexivity |]. repeat split.
Qed.

(** All premises of the theorems hold for these files. *)
Example C37_case_hyps :
  (forall f v, demo_files f = Ok v -> vwf v) /\
  (forall p v, demo_attr p = Some v -> vwf v) /\ vwf (VList []) /\
  demo_setup (Files ["cfg/base.yaml"; "cfg/base.yaml"]) = Err ValueError /\
  demo_setup (Files ["empty.yaml"]) = Err AttributeError /\
  demo_setup (Files ["missing.yaml"]) = Err IOError.
Proof.
  split; [exact demo_wf |]. split; [exact demo_attr_wf |].
  split; [constructor; constructor |]. repeat split.
Qed.

(** C72: a reference to a later setting which itself has a placeholder is
    left with an unexpanded placeholder, although the setting is known. *)
Theorem C72_forward_refuted :
  exists load tf np fs F,
    (forall f v, load f = Ok v -> vwf v) /\
    setup load (fun _ => "?") tf np "abc" "abcdef" "None" true (VList [])
      "/repo" (Files fs) = Ok F /\
    dget "b" F = Some (VStr "z/y") /\
    dget "a" F = Some (VStr "{c}/y/x") /\
    ~ renders (text_of (fun _ => "?")) (fun n => dget n F) "{b}/x" "{c}/y/x".
Proof.
  exists demo_files, demo_attr, demo_attr, ["forward.yaml"].
  eexists. split; [exact demo_wf |].
  split; [vm_compute; reflexivity |].
  split; [reflexivity |]. split; [reflexivity |].
  intros H. apply format_renders in H. vm_compute in H. discriminate.
Qed.

(** C73: different lists of files can have the same name. *)
Theorem C73_distinct_refuted :
  exists load tf np fs1 fs2 F1 F2,
    (forall f v, load f = Ok v -> vwf v) /\ fs1 <> fs2 /\
    setup load (fun _ => "?") tf np "abc" "abcdef" "None" true (VList [])
      "/repo" (Files fs1) = Ok F1 /\
    setup load (fun _ => "?") tf np "abc" "abcdef" "None" true (VList [])
      "/repo" (Files fs2) = Ok F2 /\
    dget "config_name" F1 = dget "config_name" F2 /\
    dget "float_precision" F1 <> dget "float_precision" F2.
Proof.
  exists demo_files, demo_attr, demo_attr,
    ["base__extra.yaml"], ["base.yaml"; "extra.yaml"].
  eexists. eexists. split; [exact demo_wf |]. split; [discriminate |].
  split; [vm_compute; reflexivity |]. split; [vm_compute; reflexivity |].
  split; [reflexivity | discriminate].
Qed.

Example C73_case :
  Forall2 yaml_path ["cfg/base.yaml"; "extra.yaml"] ["base"; "extra"].
Proof.
  assert (D : forall c s, existsb (Ascii.eqb c) (list_ascii_of_string s) = false
          -> ~ In c (list_ascii_of_string s)).
  { intros c s E I. assert (X : existsb (Ascii.eqb c) (list_ascii_of_string s)
      = true); [| congruence].
    apply existsb_exists. exists c. split; [exact I | apply Ascii.eqb_refl]. }
  constructor; [| constructor; [| constructor]].
  - split; [apply D; reflexivity |]. split; [apply D; reflexivity |].
    right. exists "cfg". reflexivity.
  - split; [apply D; reflexivity |]. split; [apply D; reflexivity |].
    left. reflexivity.
Qed.

(** A stored configuration with a nested dictionary, its copy, and a change
    of the nested dictionary of the copy. *)
Example C37_copy_case :
  let h := [[("n", Plain (VInt 1))]; [("x", Plain (VInt 5)); ("sub", Ref 0)]] in
  closed_heap h /\
  reads h 1 (VDict [("x", VInt 5); ("sub", VDict [("n", VInt 1)])]) /\
  exists h' b, get_config 2 h 1 = Some (h', b) /\
    nth_error h' b = Some [("x", Plain (VInt 5)); ("sub", Ref 2)].
Proof.
  intros h. split.
  - intros a d k b N I. destruct a as [| [| a]]; simpl in N.
    + injection N as <-. simpl in I. destruct I as [I | []]. discriminate.
    + injection N as <-. simpl in I. destruct I as [I | [I | []]].
      * discriminate.
      * injection I as _ <-. simpl. lia.
    + destruct a; discriminate.
  - split.
    + econstructor; [reflexivity |]. constructor. constructor; [| constructor].
      econstructor; [reflexivity |]. constructor. constructor.
    + eexists. eexists. split; reflexivity.
Qed.

Print Assumptions C37_success.
Print Assumptions C37_errors.
Print Assumptions C37_values.
Print Assumptions C37_user.
Print Assumptions C37_automatic.
Print Assumptions C37_precision.
Print Assumptions C37_copy.
Print Assumptions C37_copy_exists.
Print Assumptions C72_pass.
Print Assumptions C72_resolved.
Print Assumptions C72_forward_refuted.
Print Assumptions C73_name.
Print Assumptions C73_distinct_refuted.
Print Assumptions C73_any_name.
