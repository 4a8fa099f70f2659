(** Properties of the simulation module: configuration and rows of parameters
    (C112), light sources (C113), pulses (C114) and charges (C115). *)
From Coq Require Import Reals Lra Lia Psatz Sorting.Permutation Sorting.Sorted.
From Coquelicot Require Import Coquelicot.
From Verif Require Import Py PyFacts PyStr RList M_Source L_Source M_Basis S_Basis T_Basis M_Noise S_Noise L_Noise
  M_Cascade S_Cascade L_Cascade T_Cascade M_Simulation S_Simulation L_Simulation.
From Verif Require M_Gof S_Gof L_Gof T_Gof.
Open Scope R_scope.

(** ** C112 *)

Section Module.
  Variable sorted : list string -> list string.
  Hypothesis SORTED : forall l, Permutation (sorted l) l.
  Variable draw_charges : nat -> nat -> nat -> nat -> list R.
  Variable draw_uniform : nat -> nat -> nat -> nat -> list (R * R).
  Variable draw_count : nat -> nat -> nat -> R * R -> nat.
  Variable erfinv : R -> R.
  Variable argsort : list R -> list nat.
  Variable model_tensors : list (list R) -> result (list M_Gof.latent).
  Notation daq := (daq draw_charges draw_uniform draw_count erfinv argsort model_tensors).

  (** The module can be configured exactly with one model whose parameters
      either have a default value or are one of the seven of a particle. *)
  Theorem C112_configure st models :
    match sim_configure sorted st models with
    | Ok o => exists names, models = [names] /\ m_settings o = st /\ m_names o = names /\
        (forall n, In n (m_param_names o) <-> In n names /\ dget n (s_defaults st) = None) /\
        forall n, In n names -> dget n (s_defaults st) = None ->
          In n ["x"; "y"; "z"; "zenith"; "azimuth"; "energy"; "time"]%string
    | Err e =>
        (length models > 1)%nat /\ e = NotImplementedError \/ models = [] /\ e = IndexError \/
        exists names, models = [names] /\ e = KeyError /\
          exists n, In n names /\ dget n (s_defaults st) = None /\
            ~ In n ["x"; "y"; "z"; "zenith"; "azimuth"; "energy"; "time"]%string
    end.
  Proof.
    assert (SI : forall n names, In n (sorted (filter (fun n => negb (dmem n (s_defaults st))) names)) <->
                  In n names /\ dget n (s_defaults st) = None).
    { intros n names. split; intros I.
      - apply (Permutation_in _ (SORTED _)) in I. apply filter_In in I as (I & D).
        split; [exact I |]. apply negb_true_iff, dmem_false in D. exact D.
      - apply (Permutation_in _ (Permutation_sym (SORTED _))). apply filter_In. split; [apply I |].
        apply negb_true_iff, dmem_false. apply I. }
    assert (PI : forall n, existsb (String.eqb n) included_parameters = true <->
                  In n ["x"; "y"; "z"; "zenith"; "azimuth"; "energy"; "time"]%string).
    { intros n. rewrite existsb_exists. split.
      - intros (m & I & E). apply String.eqb_eq in E. subst m. cbn in I |- *. tauto.
      - intros I. exists n. split; [cbn in I |- *; tauto | apply String.eqb_refl]. }
    unfold sim_configure. destruct models as [| names [| names' models]]; cbn [length Nat.ltb Nat.leb].
    - right. left. split; reflexivity.
    - destruct (forallb _ _) eqn:F; cbn [negb].
      + rewrite forallb_forall in F. exists names. split; [reflexivity |]. split; [reflexivity |]. split; [reflexivity |].
        split; [intros n; apply SI |]. intros n I D. apply PI, F, SI. split; assumption.
      + right. right. exists names. split; [reflexivity |]. split; [reflexivity |].
        apply forallb_false_exists in F as (n & I & E). apply SI in I as (I & D). exists n. split; [exact I |].
        split; [exact D |]. intros C. apply PI in C. congruence.
    - left. split; [cbn; lia | reflexivity].
  Qed.

  (** No frame is ever simulated: a configured module raises for every frame.
      Without any other error it is the missing attribute [param_dtype]. *)
  Theorem C112_daq_fails st models o junk frame : sim_configure sorted st models = Ok o ->
    exists e, daq o junk frame = Err e /\
      forall primaries cascades tracks, dget (s_tree st) frame = Some (FTree primaries) ->
        light_sources (s_energy st) (s_distance st) primaries = Ok (cascades, tracks) ->
        (e = AttributeError \/ e = NameError \/ e = KeyError) /\
        (NoDup (m_names o) -> dwf (s_defaults st) ->
         (e = AttributeError <-> forall k d, In (k, d) (s_defaults st) -> In k (m_names o) /\ exists v, d = DNumber v)).
  Proof.
    intros C. pose proof (C112_configure st models) as CC. rewrite C in CC.
    destruct CC as (names & -> & ES & EN & IP & INC).
    assert (DT : m_dtype o = None).
    { unfold sim_configure in C. cbn [length Nat.ltb Nat.leb] in C. destruct (negb _); [discriminate |]. injection C as <-. reflexivity. }
    assert (IO : incl (m_param_names o) included_parameters).
    { intros n I. apply IP in I as (I & D). specialize (INC n I D). cbn in INC |- *. tauto. }
    unfold M_Simulation.daq. rewrite ES.
    destruct (dget (s_tree st) frame) as [v |] eqn:FT; unfold lookup; rewrite FT; cbn [bind].
    2:{ eexists. split; [reflexivity |]. intros. discriminate. }
    destruct v as [primaries | m | x]; [| eexists; (split; [reflexivity |]); intros; discriminate ..].
    destruct (light_sources (s_energy st) (s_distance st) primaries) as [(cs & ts) | e] eqn:LS; cbn [bind].
    2:{ eexists. split; [reflexivity |]. intros p cs ts [= <-] H. congruence. }
    assert (TS : ts = []).
    { pose proof (light_sources_outcome (s_energy st) (s_distance st) primaries) as O. rewrite LS in O. apply O. }
    subst ts. cbn [length Nat.ltb Nat.leb].
    assert (CV : exists e, convert_cascades o junk cs = Err e /\ (e = AttributeError \/ e = NameError \/ e = KeyError) /\
       (NoDup (m_names o) -> dwf (s_defaults st) -> (e = AttributeError <-> numbers_known (m_names o) (s_defaults st)))).
    { unfold convert_cascades. rewrite ES, DT.
      set (m0 := map _ (seq 0 (length cs))).
      assert (L0 : Forall (fun row : list R => length row = length (m_names o)) m0).
      { unfold m0. apply Forall_map, Forall_forall. intros i _. rewrite map_length, seq_length. reflexivity. }
      assert (LM : length m0 = length cs) by (unfold m0; rewrite map_length, seq_length; reflexivity).
      destruct (fill_defaults (m_names o) (s_defaults st) m0) as [m1 | e] eqn:FD; cbn [bind].
      - assert (RE : exists e, bind (fill_rows (m_names o) (m_param_names o) cs m1) (fun _ => Err AttributeError) = @Err (list (list R)) e
                  /\ (e = AttributeError \/ e = NameError \/ e = KeyError)).
        { clear. generalize m1. induction cs as [| p cs IH]; intros m; [exists AttributeError; cbn; auto |].
          destruct m as [| row m]; [exists AttributeError; cbn; auto |]. cbn [fill_rows].
          assert (FR : forall row e, fill_row (m_names o) (m_param_names o) p row = Err e -> e = AttributeError \/ e = NameError \/ e = KeyError).
          { clear. generalize (m_param_names o). induction l as [| k l IH]; intros row e; cbn [fill_row]; [discriminate |].
            destruct (attribute p k) as [v | e'] eqn:A; cbn [bind].
            - destruct (name_index (m_names o) k) as [j | e'] eqn:E; cbn [bind]; [apply IH |].
              intros [= <-]. right. right. exact (index_error _ _ _ E).
            - intros [= <-]. left. unfold attribute in A. destruct (i_pos p) as ((x, y), z).
              repeat (destruct (String.eqb k _) in A; [discriminate |]). congruence. }
          destruct (fill_row (m_names o) (m_param_names o) p row) as [row' | e] eqn:E; cbn [bind].
          - specialize (IH m). destruct (fill_rows _ _ cs m) as [rows | e] eqn:E'; cbn [bind] in *; [exists AttributeError; auto | exact IH].
          - exists e. split; [reflexivity | exact (FR _ _ E)]. }
        destruct RE as (e & RE & RE'). exists e. split; [exact RE |]. split; [exact RE' |]. intros N W. split.
        + intros _. destruct (Classical_Prop.classic (numbers_known (m_names o) (s_defaults st))) as [K | K]; [exact K |].
          destruct (fill_defaults_fails _ _ m0 K) as (e' & X). congruence.
        + intros K. destruct (fill_defaults_ok _ _ m0 N W K L0) as (m1' & X & LX & FX & _). rewrite FD in X. injection X as <-.
          assert (NP : NoDup (m_param_names o)).
          { unfold sim_configure in C. cbn [length Nat.ltb Nat.leb] in C. destruct (negb _); [discriminate |]. injection C as <-.
            cbn. apply (Permutation_NoDup (Permutation_sym (SORTED _))), NoDup_filter. exact N. }
          destruct (fill_rows_ok (m_names o) (m_param_names o) cs m1 N NP) as (m' & Y & _); try assumption; try lia.
          { intros n I. rewrite EN. apply IP. exact I. }
          rewrite Y in RE. cbn [bind] in RE. injection RE as <-. reflexivity.
      - pose proof (fill_defaults_error _ _ _ _ FD) as E. exists e. split; [reflexivity |]. split; [tauto |].
        intros N W. split; [intros ->; destruct E; discriminate |]. intros K.
        destruct (fill_defaults_ok _ _ m0 N W K L0) as (m1' & X & _). congruence. }
    destruct CV as (e & CV & E1 & E2). rewrite CV. cbn [bind]. exists e. split; [reflexivity |].
    intros p cs' ts' [= <-] _. split; [exact E1 |]. intros N W. exact (E2 N W).
  Qed.

  (** With the attribute set, every row contains the default values and for all
      other parameters those of the particle. *)
  Definition with_dtype (d : string) (o : sim_module) : sim_module :=
    {| m_settings := m_settings o; m_names := m_names o; m_param_names := m_param_names o; m_dtype := Some d |}.

  Theorem C112_rows st models o d junk cascades : sim_configure sorted st models = Ok o ->
    NoDup (m_names o) -> dwf (s_defaults st) ->
    (forall k v, In (k, v) (s_defaults st) -> In k (m_names o) /\ exists x, v = DNumber x) ->
    exists rows, convert_cascades (with_dtype d o) junk cascades = Ok rows /\ length rows = length cascades /\
      forall i p, nth_error cascades i = Some p -> exists row, nth_error rows i = Some row /\
        length row = length (m_names o) /\
        forall j name, nth_error (m_names o) j = Some name ->
          (forall x, dget name (s_defaults st) = Some (DNumber x) -> nth j row 0 = x) /\
          (dget name (s_defaults st) = None -> ParameterOf p name (nth j row 0)).
  Proof.
    intros C N W K. pose proof (C112_configure st models) as CC. rewrite C in CC.
    destruct CC as (names & -> & ES & EN & IP & INC).
    assert (IO : incl (m_param_names o) included_parameters).
    { intros n I. apply IP in I as (I & D). specialize (INC n I D). cbn in INC |- *. tauto. }
    assert (NP : NoDup (m_param_names o)).
    { unfold sim_configure in C. cbn [length Nat.ltb Nat.leb] in C. destruct (negb _); [discriminate |]. injection C as <-.
      cbn. apply (Permutation_NoDup (Permutation_sym (SORTED _))), NoDup_filter. exact N. }
    unfold convert_cascades, with_dtype. cbn [m_names m_settings m_param_names m_dtype]. rewrite ES.
    set (m0 := map _ (seq 0 (length cascades))).
    assert (L0 : Forall (fun row : list R => length row = length (m_names o)) m0).
    { unfold m0. apply Forall_map, Forall_forall. intros i _. rewrite map_length, seq_length. reflexivity. }
    assert (LM : length m0 = length cascades) by (unfold m0; rewrite map_length, seq_length; reflexivity).
    destruct (fill_defaults_ok _ _ m0 N W K L0) as (m1 & X & LX & FX & VX). rewrite X. cbn [bind].
    destruct (fill_rows_ok (m_names o) (m_param_names o) cascades m1 N NP) as (m' & Y & LY & VY); try assumption; try lia.
    { intros n I. rewrite EN. apply IP. exact I. }
    rewrite Y. cbn [bind]. exists m'. split; [reflexivity |]. split; [exact LY |].
    intros i p EP. destruct (VY i p EP) as (row & ER & LR & VR). exists row. split; [exact ER |]. split; [exact LR |].
    intros j name EJ. destruct (VR j name EJ) as (V1 & V2).
    assert (IL : (i < length m0)%nat) by (rewrite LM; apply nth_error_Some; congruence). split.
    - intros x D. rewrite V2; [rewrite (VX i j name EJ IL), D; reflexivity |].
      intros I. apply IP in I as (_ & D'). congruence.
    - intros D. apply V1, IP. split; [| exact D]. rewrite <- EN. eapply nth_error_In. exact EJ.
  Qed.
  (** What is written to the frame: the pulses of all light sources of the
      frame, under the name of the output, and nothing else changes. *)
  Theorem C114_frame o junk frame frame' : daq o junk frame = Ok frame' ->
    exists primaries cascades rows pulses,
      dget (s_tree (m_settings o)) frame = Some (FTree primaries) /\
      light_sources (s_energy (m_settings o)) (s_distance (m_settings o)) primaries = Ok (cascades, []) /\
      convert_cascades o junk cascades = Ok rows /\
      sample_pulses draw_charges draw_uniform draw_count erfinv argsort o (model_tensors rows) rows = Ok pulses /\
      dget (s_output (m_settings o)) frame' = Some (FPulses pulses) /\
      forall k, k <> s_output (m_settings o) -> dget k frame' = dget k frame.
  Proof.
    unfold M_Simulation.daq, lookup. intros H. destruct (dget (s_tree (m_settings o)) frame) as [[primaries| |]|]; try discriminate. cbn [bind] in H.
    destruct (light_sources _ _ primaries) as [(cs & ts)|] eqn:LS; [|discriminate]. cbn [bind] in H.
    destruct ts as [|t ts]; [|discriminate]. cbn [length Nat.ltb Nat.leb] in H.
    destruct (convert_cascades o junk cs) as [rows|] eqn:CV; [|discriminate]. cbn [bind] in H.
    destruct (sample_pulses _ _ _ _ _ o (model_tensors rows) rows) as [pulses|] eqn:SP; [|discriminate]. injection H as <-.
    exists primaries, cs, rows, pulses. do 4 (split; [first [reflexivity | assumption]|]). split; [apply dget_dset_same|].
    intros k Hk. apply dget_dset_other. exact Hk.
  Qed.
End Module.

(** C112: with a parameter name that occurs twice an entry of the row is what was
    found in memory. *)
Theorem C112_uninitialised_refuted : exists st models o, sim_configure (fun l => l) st models = Ok o /\
  forall p x, exists junk row, convert_cascades (with_dtype "float32" o) junk [p] = Ok [row] /\ In x row.
Proof.
  exists (mk_sim_settings [] "I3MCTree" "out" 2250 100), [["x"; "x"]%string]. eexists. split; [reflexivity |].
  intros p x. exists (fun _ _ => x), [x; fst (fst (i_pos p))]. split; [| left; reflexivity].
  unfold convert_cascades, with_dtype. cbn. unfold attribute. destruct (i_pos p) as ((a, b), c). reflexivity.
Qed.

(** ** C113 *)

(** The cascades are the electromagnetic particles that pass the cuts and whose
    ancestors all pass the cuts and are no cascades, in the order of the tree;
    there are no tracks.  This is returned exactly if no particle that is reached
    is one that cannot be simulated. *)
Theorem C113_sources emin dmax primaries cascades tracks :
  light_sources emin dmax primaries = Ok (cascades, tracks) <->
  tracks = [] /\ (forall o e, In o (flat_map (occurrences []) primaries) -> ~ Fault emin dmax o e) /\
  exists found, Selects (Source emin dmax) (flat_map (occurrences []) primaries) found /\
    cascades = map c_self found.
Proof.
  pose proof (light_sources_outcome emin dmax primaries) as O. split.
  - intros E. rewrite E in O. exact O.
  - intros (-> & F & found & S & ->). destruct (light_sources emin dmax primaries) as [(cs & ts) | e].
    + destruct O as (-> & _ & sel & S' & ->). rewrite (selects_unique _ _ _ S' _ S). reflexivity.
    + destruct O as (l1 & x & l2 & E & _ & FX). exfalso. apply (F x e); [| exact FX]. rewrite E. apply in_elt.
Qed.

(** The error is that of the first particle in the order of the tree that cannot
    be simulated. *)
Theorem C113_errors emin dmax primaries e :
  light_sources emin dmax primaries = Err e <->
  exists before o after, flat_map (occurrences []) primaries = before ++ o :: after /\
    (forall o' e', In o' before -> ~ Fault emin dmax o' e') /\ Fault emin dmax o e.
Proof.
  pose proof (light_sources_outcome emin dmax primaries) as O. split.
  - intros E. rewrite E in O. exact O.
  - intros (l1 & x & l2 & E & F & FX). destruct (light_sources emin dmax primaries) as [(cs & ts) | e'].
    + destruct O as (_ & F' & _). exfalso. apply (F' x e); [| exact FX]. rewrite E. apply in_elt.
    + destruct O as (m1 & y & m2 & E' & F' & FY). rewrite E in E'. f_equal.
      assert (X : forall (a a' : list occurrence) b c b' c', a ++ b :: c = a' ++ b' :: c' ->
                (forall o, In o a -> o <> b') -> (forall o, In o a' -> o <> b) -> b = b').
      { clear. induction a as [| z a IH]; intros [| z' a'] b c b' c' E N1 N2; cbn in E.
        - congruence.
        - injection E as <- _. exfalso. exact (N2 b (or_introl eq_refl) eq_refl).
        - injection E as -> _. exfalso. exact (N1 b' (or_introl eq_refl) eq_refl).
        - injection E as <- E. apply (IH a' b c b' c' E); intros o I; [apply N1 | apply N2]; right; exact I. }
      assert (x = y).
      { apply (X l1 m1 x l2 y m2 E'); intros o I ->; [exact (F y e' I FY) | exact (F' x e I FX)]. }
      subst y. destruct FX as (_ & _ & _ & [(L & _ & ->) | (L & _ & _ & ->)]);
        destruct FY as (_ & _ & _ & [(L' & _ & ->) | (L' & _ & _ & ->)]); congruence.
Qed.

(** C113: what a particle emits is lost with it: a cascade at the centre of the
    detector is not simulated if the neutrino that made it starts far away. *)
Theorem C113_dropped_refuted : exists nu cascade,
  Electromagnetic (i_type cascade) /\ Passes 100 2250 cascade /\ i_energy nu = i_energy cascade /\
  light_sources 100 2250 [Node nu [Node cascade []]] = Ok ([], []).
Proof.
  exists (mk_particle NuE 1000 (3000, 0, 0) 0 0 0 (Some 0)), (mk_particle EMinus 1000 (0, 0, 0) 0 0 0 None).
  split; [unfold Electromagnetic; tauto |]. split; [split; cbn; [lra | discriminate] |]. split; [reflexivity |].
  cbn [light_sources light_sources_of]. unfold skipped, magnitude. cbn [i_energy i_length i_pos i_type em_cascade is_track dark allowed_parent].
  rewrite (proj2 (Rltb_false 1000 100)) by lra. cbn [orb].
  replace (3000 ^ 2 + 0 ^ 2 + 0 ^ 2) with (Rsqr 3000) by (unfold Rsqr; ring). rewrite sqrt_Rsqr by lra.
  rewrite (proj2 (Rltb_true 2250 (3000 - 0))) by lra. reflexivity.
Qed.

(** A neutrino with a hadronic and an electromagnetic cascade *)
Example sources_event :
  let pi := mk_particle Pi0 200 (0, 0, 0) 0 0 0 (Some 0) in
  let e := mk_particle EMinus 500 (0, 0, 0) 0 0 0 None in
  let low := mk_particle Gamma 1 (0, 0, 0) 0 0 0 (Some 0) in
  light_sources 100 2250
    [Node (mk_particle NuE 1000 (3000, 0, 0) 0 0 0 None)
       [Node (mk_particle Hadrons 300 (0, 0, 0) 0 0 0 None) [Node pi [Node e []]; Node low []]; Node e []]]
  = Ok ([pi; e], []).
Proof.
  cbn [light_sources light_sources_of]. unfold skipped, magnitude. cbn [i_energy i_length i_pos i_type em_cascade is_track dark allowed_parent].
  rewrite (proj2 (Rltb_false 1000 100)), (proj2 (Rltb_false 300 100)), (proj2 (Rltb_false 200 100)),
    (proj2 (Rltb_false 500 100)), (proj2 (Rltb_true 1 100)) by lra. cbn [orb].
  replace (0 ^ 2 + 0 ^ 2 + 0 ^ 2) with 0 by ring. rewrite sqrt_0.
  rewrite (proj2 (Rltb_false 2250 (0 - 0))) by lra. reflexivity.
Qed.

(** ** C114 *)

Section Pulses.
  Variable draw_charges : nat -> nat -> nat -> nat -> list R.
  Variable draw_uniform : nat -> nat -> nat -> nat -> list (R * R).
  Variable draw_count : nat -> nat -> nat -> R * R -> nat.
  Variable erfinv : R -> R.
  Variable argsort : list R -> list nat.
  Hypothesis IA : S_Gof.IsArgsort argsort.
  Hypothesis UC : forall i, S_Gof.UniformCharges (draw_charges i).
  Hypothesis UP : forall i, S_Gof.UniformPairs (draw_uniform i).
  Notation sample_pulses := (sample_pulses draw_charges draw_uniform draw_count erfinv argsort).

  (** The number of photo-electrons that is drawn for a cascade and a DOM *)
  Definition Count (ls : list M_Gof.latent) (i s o n : nat) : Prop :=
    exists l rp, nth_error ls i = Some l /\
      sample_parameters (M_Gof.l_charge l s o) (M_Gof.l_var l s o) false = Ok rp /\ n = draw_count i s o rp.

  Lemma cells_in s o : In (s, o) detector_cells <-> (s < 86)%nat /\ (o < 60)%nat.
  Proof.
    unfold detector_cells. pose proof (in_prod_iff (seq 0 86) (seq 0 60) s o) as H. rewrite !in_seq in H.
    rewrite H. lia.
  Qed.

  Lemma cells_nodup : NoDup detector_cells.
  Proof. exact L_Gof.doms_nodup. Qed.

  (** Every DOM with photo-electrons has an entry, under its number from one, and
      no other; its pulses are those of the cascades, sorted in time.  Every
      cascade has one pulse per photo-electron, with charges that add up to their
      number. *)
  Theorem C114_pulses o ls rows m : length rows = length ls ->
    sample_pulses o (Ok ls) rows = Ok m ->
    ValidMap m /\ exists counts j, nth_error (m_names o) j = Some "time"%string /\
    (forall i s d, (i < length ls)%nat -> (s < 86)%nat -> (d < 60)%nat -> Count ls i s d (counts i s d)) /\
    forall s d l, (s < 86)%nat -> (d < 60)%nat -> series_of s d m l ->
      StronglySorted (fun a b => snd a <= snd b) l /\
      ((exists l', In ((s + 1, d + 1)%nat, l') m) <-> exists i, (i < length ls)%nat /\ counts i s d <> 0%nat) /\
      exists pss, length pss = length ls /\ Permutation l (concat pss) /\
      forall i la row, nth_error ls i = Some la -> nth_error rows i = Some row ->
        exists ps, nth_error pss i = Some ps /\
          OfCascade (counts i s d) (draw_uniform i s d (counts i s d))
            (M_Gof.pulse_time erfinv (M_Gof.cum_scale (M_Gof.l_scale la s d)) (M_Gof.l_mu la s d)
               (M_Gof.l_sigma la s d) (M_Gof.l_r la s d) (nth j row 0)) ps.
  Proof.
    intros LR. unfold M_Simulation.sample_pulses. cbn [bind]. unfold sample_counts.
    set (params := fun i s d : nat => match nth_error ls i with
      | Some l => sample_parameters (M_Gof.l_charge l s d) (M_Gof.l_var l s d) false | None => Err IndexError end).
    destruct (forallb _ (seq 0 (length ls))) eqn:FB; [| discriminate]. cbn [bind].
    destruct (name_index (m_names o) "time") as [j |] eqn:NJ; [| discriminate]. cbn [bind].
    set (counts := fun i s o => match params i s o with Ok rp => draw_count i s o rp | Err _ => 0%nat end).
    set (lt := combine ls _). intros SM.
    destruct (series_map_spec _ _ _ _ _ _ _ _ cells_nodup SM) as (K1 & K2 & K3).
    assert (LL : length lt = length ls) by (unfold lt; rewrite combine_length, map_length; lia).
    split.
    { split; [exact K1 |]. intros k l I. destruct (K2 _ _ I) as (s & d & C & -> & _). apply cells_in in C. cbn. lia. }
    exists counts, j. split; [apply name_index_nth; exact NJ |]. split.
    { intros i s d I S D. rewrite forallb_forall in FB. specialize (FB i ltac:(apply in_seq; lia)).
      rewrite forallb_forall in FB. specialize (FB (s, d) (proj2 (cells_in s d) (conj S D))). cbn [fst snd] in FB.
      unfold Count, counts. unfold params in FB |- *. destruct (nth_error ls i) as [l |]; [| discriminate].
      destruct (sample_parameters _ _ _) as [rp |] eqn:SP; [| discriminate]. exists l, rp. auto. }
    intros s d l S D SO. destruct (K3 s d (proj2 (cells_in s d) (conj S D))) as (r & DR & IR).
    assert (KE : forall l', In ((s + 1, d + 1)%nat, l') m -> r = Some l').
    { intros l' I. destruct (K2 _ _ I) as (s' & d' & _ & E & DR'). injection E as E1 E2.
      assert (s' = s) by lia. assert (d' = d) by lia. subst s' d'. congruence. }
    assert (LE : l = match r with Some l => l | None => [] end).
    { destruct SO as [I | (-> & NI)]; [rewrite (KE l I); reflexivity |]. destruct r as [l' |]; [| reflexivity].
      exfalso. exact (NI l' IR). }
    pose proof (dom_series_spec _ _ _ _ IA UC UP _ _ _ _ _ DR) as (SS & pss & LP & PP & V). rewrite <- LE in SS, PP.
    split; [exact SS |]. split.
    - unfold dom_series in DR. rewrite LL in DR. destruct (Nat.eqb _ 0) eqn:Z in DR.
      + injection DR as <-. split; [intros (l' & I); specialize (KE l' I); discriminate |].
        intros (i & I & C). exfalso. apply C. apply Nat.eqb_eq in Z. apply (sum_zero _ Z).
        apply in_map_iff. exists i. split; [reflexivity | apply in_seq; lia].
      + destruct (collect _ _ _ _ _ _ _ _) as [(q & t) |]; [| discriminate]. cbn [bind] in DR. injection DR as <-.
        split; [intros _ | intros _; eexists; exact IR].
        apply Nat.eqb_neq in Z. destruct (Classical_Prop.classic (exists i, (i < length ls)%nat /\ counts i s d <> 0%nat)) as [X | X]; [exact X |].
        exfalso. apply Z. assert (A : forall n k, (k + n <= length ls)%nat -> list_sum (map (fun i => counts i s d) (seq k n)) = 0%nat).
        { clear - X. induction n as [| n IH]; intros k L; [reflexivity |]. cbn [seq map].
          change (list_sum (?a :: ?b)) with (a + list_sum b)%nat. rewrite IH by lia.
          destruct (Nat.eq_dec (counts k s d) 0) as [E | E]; [lia |]. exfalso. apply X. exists k. split; [lia | exact E]. }
        apply A. lia.
    - exists pss. split; [lia |]. split; [exact PP |]. intros i la row E1 E2.
      destruct (V i la (nth j row 0)) as (ps & EP & O); [| exists ps; split; [exact EP | exact O]].
      unfold lt. rewrite (nth_error_nth' _ (la, 0)).
      + rewrite combine_nth by (rewrite map_length; lia). f_equal. f_equal; [apply nth_error_nth; exact E1 |].
        rewrite (nth_error_nth _ i 0 (x := nth j row 0)); [reflexivity |]. apply (map_nth_error (fun row => nth j row 0)). exact E2.
      + rewrite combine_length, map_length. assert (i < length ls)%nat by (apply nth_error_Some; congruence). lia.
  Qed.

  (** The charge of a DOM is its number of photo-electrons and so is its number of
      pulses. *)
  Theorem C114_totals o ls rows m : length rows = length ls -> sample_pulses o (Ok ls) rows = Ok m ->
    exists counts,
    (forall i s d, (i < length ls)%nat -> (s < 86)%nat -> (d < 60)%nat -> Count ls i s d (counts i s d)) /\
    forall s d l, (s < 86)%nat -> (d < 60)%nat -> series_of s d m l ->
      length l = list_sum (map (fun i => counts i s d) (seq 0 (length ls))) /\
      Rsum (map fst l) = INR (length l) /\ Forall (fun p => 0 < fst p) l.
  Proof.
    intros LR SP. destruct (C114_pulses o ls rows m LR SP) as (_ & counts & j & _ & CO & H). exists counts. split; [exact CO |].
    intros s d l S D SO. destruct (H s d l S D SO) as (_ & _ & pss & LP & PP & V).
    assert (W : forall i, (i < length pss)%nat -> let ps := nth i pss [] in
       length ps = counts i s d /\ Rsum (map fst ps) = INR (counts i s d) /\ Forall (fun p => 0 < fst p) ps).
    { intros i I. destruct (nth_error ls i) as [la |] eqn:E1; [| apply nth_error_None in E1; lia].
      destruct (nth_error rows i) as [row |] eqn:E2; [| apply nth_error_None in E2; lia].
      destruct (V i la row E1 E2) as (ps & EP & O1 & O2 & O3 & _). cbv zeta.
      rewrite (nth_error_nth _ _ _ EP). auto. }
    assert (G : forall pss k, (forall i, (i < length pss)%nat -> let ps := nth i pss [] in
       length ps = counts (k + i)%nat s d /\ Rsum (map fst ps) = INR (counts (k + i)%nat s d) /\ Forall (fun p => 0 < fst p) ps) ->
       length (concat pss) = list_sum (map (fun i => counts i s d) (seq k (length pss))) /\
       Rsum (map fst (concat pss)) = INR (length (concat pss)) /\ Forall (fun p : pulse => 0 < fst p) (concat pss)).
    { clear. induction pss as [| ps pss IH]; intros k W.
      - split; [reflexivity |]. split; [reflexivity | constructor].
      - destruct (W 0%nat ltac:(cbn; lia)) as (A & B & C). cbn [nth] in A, B, C. rewrite Nat.add_0_r in A, B.
        destruct (IH (S k)) as (A' & B' & C').
        { intros i I. specialize (W (S i) ltac:(cbn; lia)). cbn [nth] in W. replace (S k + i)%nat with (k + S i)%nat by lia. exact W. }
        cbn [concat length seq map]. rewrite app_length, A, A'. split; [reflexivity |]. split.
        + rewrite map_app, Rsum_app, B, B', plus_INR, A'. reflexivity.
        + apply Forall_app. split; assumption. }
    destruct (G pss 0%nat W) as (A & B & C). unfold pulse in *. rewrite LP in A.
    rewrite (Permutation_length PP). split; [exact A |]. split.
    - rewrite (Rsum_perm _ _ (Permutation_map fst PP)). exact B.
    - apply (Permutation_Forall (Permutation_sym PP)). exact C.
  Qed.

  (** With mixtures as latent variables and acceptable charges nothing fails. *)
  Theorem C114_success o ls rows : length rows = length ls -> In "time"%string (m_names o) ->
    Forall (fun l => exists ks, HasComponents l ks /\ forall s d, Mixture (ks s d)) ls ->
    (forall l s d, In l ls -> (s < 86)%nat -> (d < 60)%nat ->
       0 < M_Gof.l_charge l s d <= M_Gof.l_var l s d) ->
    exists m, sample_pulses o (Ok ls) rows = Ok m.
  Proof.
    intros LR TI WF CH. unfold M_Simulation.sample_pulses. cbn [bind]. unfold sample_counts.
    set (params := fun i s d : nat => match nth_error ls i with
      | Some l => sample_parameters (M_Gof.l_charge l s d) (M_Gof.l_var l s d) false | None => Err IndexError end).
    replace (forallb _ (seq 0 (length ls))) with true.
    2:{ symmetry. apply forallb_forall. intros i I. apply in_seq in I. apply forallb_forall. intros (s, d) C. apply cells_in in C.
        cbn [fst snd]. unfold params. destruct (nth_error ls i) as [l |] eqn:E; [| apply nth_error_None in E; lia].
        specialize (CH l s d (nth_error_In _ _ E) (proj1 C) (proj2 C)).
        destruct (proj2 (C89_accepted (M_Gof.l_charge l s d) (M_Gof.l_var l s d) false ltac:(lra) ltac:(lra))) as (rp & ->);
          [cbn; lra | reflexivity]. }
    cbn [bind]. destruct (name_index (m_names o) "time") as [j | e] eqn:NJ; cbn [bind].
    2:{ exfalso. unfold name_index, lookup in NJ.
        destruct (fold_dset_some (combine (m_names o) (seq 0 (length (m_names o)))) [] "time"%string) as (v & X).
        - left. rewrite map_fst_combine by apply seq_length. exact TI.
        - rewrite X in NJ. discriminate. }
    set (lt := combine ls _).
    assert (WL : forall l t, In (l, t) lt -> exists ks, HasComponents l ks /\ forall s d, Mixture (ks s d)).
    { intros l t I. apply in_combine_l in I. rewrite Forall_forall in WF. exact (WF l I). }
    match goal with |- context [series_map _ _ _ _ ?c lt _] => generalize c end. intros counts.
    clearbody lt. clear CH WF.
    induction detector_cells as [| (s & d) cells (m & IH)]; [exists []; reflexivity |].
    cbn [series_map]. rewrite IH.
    assert (CO : forall i, exists r, collect draw_charges draw_uniform erfinv counts i s d lt = Ok r).
    { clear IH. induction lt as [| (l & t0) lt IHl]; intros i; [eexists; reflexivity |]. cbn [collect].
      destruct (IHl ltac:(intros l' t' I; apply (WL l' t'); right; exact I) (S i)) as ((qs & ts) & E).
      destruct (WL l t0 (or_introl eq_refl)) as (ks & HC & MX).
      assert (PT : exists r, (if Nat.eqb (counts i s d) 0 then Ok ([], []) else
                   cascade_pulses draw_charges draw_uniform erfinv i s d (counts i s d) l t0) = Ok r).
      { destruct (Nat.eqb _ 0); [eexists; reflexivity |]. unfold cascade_pulses. cbv zeta.
        destruct (pulse_times_all erfinv (M_Gof.cum_scale (M_Gof.l_scale l s d)) (M_Gof.l_mu l s d)
                    (M_Gof.l_sigma l s d) (M_Gof.l_r l s d) t0 (draw_uniform i s d (counts i s d))) as (ts' & ->);
          [| eexists; reflexivity].
        destruct (UP i s d (counts i s d)) as (_ & FU). eapply Forall_impl; [| exact FU]. intros u (U1 & _). cbn beta.
        unfold M_Gof.pulse_time. destruct (HC s d) as (H1 & H2 & H3 & H4). rewrite H1, H2, H3, H4.
        destruct (MX s d) as (MP & MS).
        destruct (T_Gof.C92_component (map k_scale (ks s d)) (fst u)) as (IN & _); try assumption.
        - intros Z. rewrite Z in MS. cbn in MS. lra.
        - apply Forall_map. eapply Forall_impl; [| exact MP]. cbn. intros; lra.
        - lra.
        - set (c := M_Gof.searchsorted _ _) in *. rewrite map_length in IN.
          destruct (nth_error (ks s d) c) as [k |] eqn:EK; [| apply nth_error_None in EK; lia].
          rewrite !(map_nth_error _ _ _ EK). eexists. reflexivity. }
      destruct PT as ((q & t) & ->). cbn [bind]. rewrite E. eexists. reflexivity. }
    unfold dom_series. destruct (Nat.eqb _ 0); [cbn [bind]; eexists; reflexivity |].
    destruct (CO 0%nat) as ((q & t) & ->). cbn [bind]. eexists. reflexivity.
  Qed.
End Pulses.

(** The times of the pulses follow the density of the cascade model: for uniform
    random numbers the probability of a time up to [T] is the integral of [G], and
    the integral of the density (which is per microsecond) is one thousand times
    the difference of these probabilities. *)
Theorem C114_distribution erf erfinv ks t0 : IsErf erf -> IsErfInv erf erfinv -> Mixture ks ->
  exists P,
    (forall T, exists G, Integrates G 0 1 (P T) /\
       forall u, 0 <= fst u < 1 -> 0 < snd u < 1 ->
       exists t, M_Gof.pulse_time erfinv (M_Gof.cum_scale (map k_scale ks)) (map k_mu ks) (map k_sigma ks) (map k_r ks) t0 u = Ok t /\
         (t <= T <-> snd u <= G (fst u))) /\
    (forall a b, Integrates (pulse_density ks None t0) a b (1000 * (P b - P a))).
Proof.
  intros HE HI MX. destruct MX as (MP & MS).
  set (scales := map k_scale ks). set (n := length ks).
  assert (NE : scales <> []) by (intros Z; fold scales in MS; rewrite Z in MS; cbn in MS; lra).
  assert (FN : Forall (fun x => 0 <= x) scales).
  { apply Forall_map. eapply Forall_impl; [| exact MP]. cbn. intros; lra. }
  assert (SL : Rsum scales <= 1) by (fold scales in MS; lra).
  assert (LS : length scales = n) by apply map_length.
  set (F := fun T i => asymmetric_gauss_cdf erf ((T - t0) / 1000) (nth i (map k_mu ks) 0) (nth i (map k_sigma ks) 0) (nth i (map k_r ks) 0)).
  exists (fun T => Rsum (map (fun k => k_scale k * asymmetric_gauss_cdf erf ((T - t0) / 1000) (k_mu k) (k_sigma k) (k_r k)) ks)).
  split.
  - intros T. set (G := fun u => F T (M_Gof.searchsorted (M_Gof.cum_scale scales) u)). exists G. split.
    + apply integrates_is_RInt.
      assert (ST : forall m, (m <= n)%nat -> is_RInt G 0 (Rsum (firstn m scales)) (Rsum (zipw Rmult (firstn m scales) (map (F T) (seq 0 m))))).
      { induction m as [| m IH]; intros M.
        - cbn [firstn]. replace (Rsum []) with 0 by reflexivity. change (Rsum (zipw Rmult [] (map (F T) (seq 0 0)))) with (@Hierarchy.zero R_NormedModule).
          apply (is_RInt_point (V := R_NormedModule)).
        - specialize (IH ltac:(lia)).
          assert (SN : firstn (S m) scales = firstn m scales ++ [nth m scales 0]).
          { clear - M LS. revert m M LS. generalize n. clear n. induction scales as [| x l IHl]; intros n [| m] M LS; cbn in *; try lia; try reflexivity.
            f_equal. destruct n; [lia |]. apply (IHl n m); lia. }
          assert (X0 : 0 <= nth m scales 0) by (rewrite Forall_forall in FN; apply FN, nth_In; lia).
          rewrite SN, seq_S, map_app. cbn [map]. rewrite Nat.add_0_l.
          assert (ZA : zipw Rmult (firstn m scales ++ [nth m scales 0]) (map (F T) (seq 0 m) ++ [F T m])
                       = zipw Rmult (firstn m scales) (map (F T) (seq 0 m)) ++ [nth m scales 0 * F T m]).
          { unfold zipw. rewrite combine_app2; [rewrite map_app; reflexivity |]. rewrite firstn_length, map_length, seq_length. lia. }
          rewrite ZA, !Rsum_app. replace (Rsum [nth m scales 0]) with (nth m scales 0) by (cbn; ring).
          replace (Rsum [nth m scales 0 * F T m]) with (nth m scales 0 * F T m) by (cbn; ring).
          apply (is_RInt_Chasles (V := R_NormedModule) G 0 (Rsum (firstn m scales))); [exact IH |].
          apply (is_RInt_ext (fun _ => F T m)).
          + rewrite Rmin_left, Rmax_right by lra. intros u (U1 & U2).
            assert (B1 : 0 <= Rsum (firstn m scales)).
            { apply Rsum_nonneg. apply Forall_forall. intros x I. rewrite Forall_forall in FN. apply FN.
              rewrite <- (firstn_skipn m scales). apply in_or_app. left. exact I. }
            assert (B2 : Rsum (firstn m scales) + nth m scales 0 <= 1).
            { replace (Rsum (firstn m scales) + nth m scales 0) with (Rsum (firstn (S m) scales)).
              - pose proof (L_Gof.firstn_sum_mono scales (S m) (length scales) FN ltac:(lia)) as X. rewrite firstn_all in X. lra.
              - rewrite SN, Rsum_app. cbn. ring. }
            destruct (T_Gof.C92_component scales u NE FN SL ltac:(lra)) as (_ & CK).
            unfold G. f_equal. symmetry. apply CK; [lia |]. split; [right; lra | right].
            rewrite SN, Rsum_app. replace (Rsum [nth m scales 0]) with (nth m scales 0) by (cbn; ring). lra.
          + pose proof (is_RInt_const (V := R_NormedModule) (Rsum (firstn m scales)) (Rsum (firstn m scales) + nth m scales 0) (F T m)) as K.
            unfold scal in K. cbn in K. unfold mult in K. cbn in K.
            replace (Rsum (firstn m scales) + nth m scales 0 - Rsum (firstn m scales)) with (nth m scales 0) in K by ring. exact K. }
      specialize (ST n (le_n n)). rewrite firstn_all2 in ST by lia. unfold scales in ST at 1. rewrite MS in ST.
      replace (Rsum (map _ ks)) with (Rsum (zipw Rmult scales (map (F T) (seq 0 n)))); [exact ST |].
      f_equal. unfold scales, F, n, zipw. clear. 
      apply (nth_ext _ _ 0 0); [rewrite !map_length, combine_length, !map_length, seq_length; lia |].
      intros i I. rewrite map_length, combine_length, !map_length, seq_length in I.
      assert (IK : (i < length ks)%nat) by lia.
      destruct (nth_error ks i) as [k |] eqn:EK; [| apply nth_error_None in EK; lia].
      rewrite (nth_error_nth (map _ ks) i 0 (map_nth_error _ _ _ EK)).
      apply nth_error_nth. rewrite nth_error_map.
      rewrite (nth_error_nth' _ (0, 0)) by (rewrite combine_length, !map_length, seq_length; lia).
      rewrite combine_nth by (rewrite !map_length, seq_length; reflexivity). cbn [option_map fst snd].
      rewrite (nth_error_nth (map k_scale ks) i 0 (map_nth_error _ _ _ EK)). f_equal. f_equal.
      apply nth_error_nth. rewrite nth_error_map. rewrite (nth_error_nth' (seq 0 (length ks)) 0%nat) by (rewrite seq_length; exact IK).
      rewrite seq_nth by exact IK. cbn [option_map Nat.add].
      rewrite (nth_error_nth (map k_mu ks) i 0 (map_nth_error _ _ _ EK)), (nth_error_nth (map k_sigma ks) i 0 (map_nth_error _ _ _ EK)),
        (nth_error_nth (map k_r ks) i 0 (map_nth_error _ _ _ EK)). reflexivity.
    + intros u U1 U2. destruct (T_Gof.C92_component scales (fst u) NE FN SL U1) as (IN & _).
      set (c := M_Gof.searchsorted (M_Gof.cum_scale scales) (fst u)) in *. rewrite LS in IN.
      destruct (nth_error ks c) as [k |] eqn:EK; [| apply nth_error_None in EK; unfold n in IN; lia].
      assert (KW : 0 < k_sigma k /\ 0 < k_r k).
      { rewrite Forall_forall in MP. specialize (MP k (nth_error_In _ _ EK)). cbn in MP. lra. }
      destruct (T_Gof.C92_time erf erfinv scales (map k_mu ks) (map k_sigma ks) (map k_r ks) t0 u (k_mu k) (k_sigma k) (k_r k) T
                  HE HI U2 (map_nth_error _ _ _ EK) (map_nth_error _ _ _ EK) (map_nth_error _ _ _ EK)) as (t & E & H); try apply KW.
      exists t. split; [exact E |]. rewrite H. unfold G, F. fold c.
      rewrite (nth_error_nth (map k_mu ks) c 0 (map_nth_error _ _ _ EK)), (nth_error_nth (map k_sigma ks) c 0 (map_nth_error _ _ _ EK)),
        (nth_error_nth (map k_r ks) c 0 (map_nth_error _ _ _ EK)). reflexivity.
  - intros a b. apply integrates_is_RInt.
    assert (KE : ks <> []) by (intros ->; apply NE; reflexivity).
    assert (D := mix_dist erf HE t0 k_scale ks KE).
    specialize (D ltac:(eapply Forall_impl; [| exact MP]; cbn; intros; tauto) (mixture_wide ks (conj MP MS))).
    pose proof (dist_int _ _ _ D a b) as I.
    apply (is_RInt_ext _ (pulse_density ks None t0)) in I; [| intros t _; symmetry; apply density_none].
    match type of I with is_RInt _ _ _ ?v => match goal with |- is_RInt _ _ _ ?w => replace w with v; [exact I |] end end.
    cbv beta.
    assert (R : forall T, Rsum (map (fun k => k_scale k * Fk erf t0 k T) ks)
      = 1000 * Rsum (map (fun k => k_scale k * asymmetric_gauss_cdf erf ((T - t0) / 1000) (k_mu k) (k_sigma k) (k_r k)) ks)).
    { intros T. rewrite <- Rsum_map_scal. apply Rsum_map_ext. intros k _. unfold Fk.
      replace ((T - t0) * (1 / 1000)) with ((T - t0) / 1000) by field. ring. }
    rewrite !R. ring.
Qed.

(** ** C115 *)

Section Charges.
  Variables (format : string -> nat -> string) (trafo : nat -> R -> R) (mean std : nat -> R) (norm_const : R).
  Variables (coords : cell -> R * R * R) (local_vars : cell -> list R) (erf lgamma : R -> R) (rel_eff : cell -> R).
  Variable net : list (list (list R)) -> nat -> cell -> list R.
  Notation tensors := (model_tensors_function format trafo mean std norm_const coords local_vars erf lgamma rel_eff net).

  (** An event without light sources cannot be evaluated. *)
  Theorem C115_no_rows g : exists e, tensors g [] = Err e.
  Proof.
    unfold model_tensors_function. cbv beta delta [cascade_get_tensors]. cbv zeta. cbn [existsb map length].
    destruct (negb _); [eexists; reflexivity |]. destruct (Nat.leb _ _); [eexists; reflexivity |]. cbn [bind].
    destruct (if g_global g then _ else _); cbn [bind]; eexists; reflexivity.
  Qed.

  (** Any other event can be evaluated. *)
  Theorem C115_evaluated g rows : rows <> [] -> (forall c, length (local_vars c) = g_local g) ->
    Forall (fun row => length row = num_parameters g) rows ->
    (4 * g_models g + n_charge (mode g) = g_filters g)%nat -> (1 < g_models g)%nat ->
    (g_global g = true -> In "DOMEfficiency"%string (cascade_names format g)) ->
    exists r, tensors g rows = Ok r.
  Proof.
    intros HR LV SH LAY NM EFF. unfold model_tensors_function.
    match goal with |- exists r, cascade_get_tensors _ _ _ _ _ _ _ _ _ _ _ _ _ ?q None ?ps = _ =>
      destruct (C104_accepted format trafo mean std norm_const coords local_vars erf lgamma rel_eff net g rows q ps) as (r & E & _); try assumption; [|eauto] end.
    apply Forall_cons; [|apply Forall_nil]. cbn [u_event u_cell]. split; [destruct rows; [congruence | cbn; lia]|]. unfold InDetector. cbn [fst snd]. lia.
  Qed.

  (** Poisson charges: the number of photo-electrons drawn is always zero. *)
  Theorem C115_poisson g rows r e c : tensors g rows = Ok r -> a_llh r = None -> 0 < a_charges r e c ->
    exists a p, sample_parameters (a_charges r e c) (a_var r e c) false = Ok (a, p) /\ nb_pmf a (1 - p) 0 = 1.
  Proof.
    intros T L Q. unfold model_tensors_function in T.
    destruct (C110_poisson _ _ _ _ _ _ _ _ _ _ _ _ _ _ _ _ r e c T L) as (-> & _). apply C89_poisson. exact Q.
  Qed.

  (** Asymmetric charges: the mean of the numbers drawn is an eleventh of the
      expected charge. *)
  Theorem C115_asymmetric g rows r e c : tensors g rows = Ok r -> g_charge g = VBool true ->
    1 / 10000000 <= a_charges r e c ->
    exists a p v, sample_parameters (a_charges r e c) (a_var r e c) false = Ok (a, p) /\
      Distribution (nb_pmf a (1 - p)) (a_charges r e c / 11) v.
  Proof.
    intros T GC Q. unfold model_tensors_function in T.
    destruct (C110_asymmetric _ _ _ _ _ _ _ _ _ _ _ _ _ _ _ _ r e c GC T Q) as (llh & sg & sk & _ & V & _ & _ & _ & U).
    destruct (U ltac:(lra)) as (_ & U2). rewrite V, U2. set (q := a_charges r e c) in *.
    destruct (proj2 (C89_accepted q (q + 1 / 10000000) false ltac:(lra) ltac:(lra))) as ((a & p) & E); [cbn; lra |].
    exists a, p, ((q + 1 / 10000000) / 11). split; [exact E |].
    destruct (C89_moments q (q + 1 / 10000000) false a p ltac:(lra) ltac:(lra) E) as (D & _). cbv zeta in D. cbn [wanted] in D.
    replace ((q + 1 / 10000000 - q) / (q + 1 / 10000000 - q + 1 / 1000000)) with (1 / 11) in D by (field; lra).
    replace (q / 11) with (1 / 11 * q) by field. replace ((q + 1 / 10000000) / 11) with (1 / 11 * (q + 1 / 10000000)) by field. exact D.
  Qed.

  (** Over-dispersed charges: the mean is less than the expected charge, at most
      one half of it up to an excess variance of one millionth, and more than
      999 thousandths from an excess of one thousandth on. *)
  Theorem C115_negative_binomial g rows r e c : tensors g rows = Ok r -> g_charge g = VStr "negative_binomial" ->
    0 < a_charges r e c ->
    exists a p m v, sample_parameters (a_charges r e c) (a_var r e c) false = Ok (a, p) /\
      Distribution (nb_pmf a (1 - p)) m v /\ 0 < m < a_charges r e c /\
      (a_var r e c - a_charges r e c <= 1 / 1000000 -> m <= a_charges r e c / 2) /\
      (1 / 1000 <= a_var r e c - a_charges r e c -> 999 / 1000 * a_charges r e c <= m).
  Proof.
    intros T GC Q. unfold model_tensors_function in T. destruct (get_inv T) as (i & I).
    assert (VP : a_charges r e c < a_var r e c).
    { rewrite (q_var I). unfold charge_terms. replace (mode g) with NegativeBinomial by (unfold mode; rewrite GC; reflexivity).
      cbn [fst snd]. set (q := a_charges r e c) in *. 
      set (al := charge_alpha _). assert (AP : 0 < al) by (unfold al, charge_alpha; match goal with |- 0 < elu ?x + _ => pose proof (elu_lower x) end; lra).
      assert (0 < al * q ^ 2) by (apply Rmult_lt_0_compat; [exact AP | apply pow_lt; exact Q]). lra. }
    set (q := a_charges r e c) in *. set (w := a_var r e c) in *.
    destruct (proj2 (C89_accepted q w false ltac:(lra) ltac:(lra))) as ((a & p) & E); [cbn; lra |].
    destruct (C89_moments q w false a p ltac:(lra) ltac:(lra) E) as (D & F). cbv zeta in D, F. cbn [wanted] in D, F.
    set (f := (w - q) / (w - q + 1 / 1000000)) in *. exists a, p, (f * q), (f * w).
    split; [exact E |]. split; [exact D |].
    assert (FE : f * (w - q + 1 / 1000000) = w - q) by (unfold f; field; lra).
    assert (FP : 0 < f) by (unfold f; apply Rdiv_lt_0_compat; lra).
    split; [split; [apply Rmult_lt_0_compat; lra |]; rewrite <- (Rmult_1_l q) at 2; apply Rmult_lt_compat_r; lra |].
    split; intros H.
    - assert (f <= 1 / 2) by nra. replace (q / 2) with (1 / 2 * q) by field. apply Rmult_le_compat_r; lra.
    - assert (999 / 1000 <= f) by nra. apply Rmult_le_compat_r; lra.
  Qed.
End Charges.

(** ** Examples *)

(** A configured module with a default value, as C112 asks for *)
Example configured_module : exists o,
  sim_configure (fun l => l)
    {| s_defaults := [("Absorption"%string, DNumber 1)]; s_tree := "I3MCTree"; s_output := "Pulses";
       s_distance := 2250; s_energy := 100 |}
    [["x"; "y"; "z"; "zenith"; "azimuth"; "energy"; "time"; "Absorption"]%string] = Ok o /\
  NoDup (m_names o) /\ dwf (s_defaults (m_settings o)) /\
  (forall k v, In (k, v) (s_defaults (m_settings o)) -> In k (m_names o) /\ exists x, v = DNumber x).
Proof.
  eexists. split; [reflexivity |]. cbn [m_names m_settings s_defaults]. split.
  - repeat constructor; cbn; intuition discriminate.
  - split; [repeat constructor; cbn; tauto |]. intros k v [[= <- <-] | []]. split; [cbn; tauto | eexists; reflexivity].
Qed.

(** Pulses of two cascades with a mixture of two components, as C114 asks for *)
Definition two_components : list comp :=
  [{| k_mu := 0; k_sigma := 1; k_r := 1; k_scale := 1 / 4 |}; {| k_mu := 2; k_sigma := 1 / 2; k_r := 3; k_scale := 3 / 4 |}].
Definition two_latent (q : R) : M_Gof.latent :=
  M_Gof.mk_latent (fun _ _ => q) (fun _ _ => 2 * q) (fun _ _ => map k_scale two_components) (fun _ _ => map k_mu two_components)
    (fun _ _ => map k_sigma two_components) (fun _ _ => map k_r two_components).

Example two_cascades o erfinv : m_names o = ["energy"; "time"]%string ->
  exists m, sample_pulses (fun _ _ _ n => repeat 1 n) (fun _ _ _ n => repeat (1 / 2, 1 / 2) n) (fun i s d _ => i + s + d)%nat erfinv
    T_Gof.positions o (Ok [two_latent 1; two_latent 2]) [[1000; 50]; [2000; 80]] = Ok m.
Proof.
  intros N. apply C114_success.
  - intros i. exact (proj1 (proj2 T_Gof.draws_ex)).
  - reflexivity.
  - rewrite N. cbn. tauto.
  - repeat constructor; exists (fun _ _ => two_components);
      (split; [intros s d; repeat split |]; intros s d; split; [repeat constructor; cbn; lra | cbn; lra]).
  - intros l s d [<- | [<- | []]] _ _; cbn; lra.
Qed.

(** Asymmetric charges with an expected charge above the limit of C115 *)
Example asymmetric_event format trafo mean std norm_const coords erf lgamma rel_eff : exists r,
  model_tensors_function format trafo mean std norm_const coords (fun _ => []) erf lgamma rel_eff
    (fun _ _ _ => [0; 0; 0; 0; 0; 0; 0; 0; 0; 0; 0]) (small (VBool true) 11 false false) [event 1 0] = Ok r /\
  1 / 10000000 <= a_charges r 0 (3, 5)%nat.
Proof.
  destruct (small_ok format trafo mean std norm_const coords erf lgamma rel_eff (VBool true) 11 false false
    [0; 0; 0; 0; 0; 0; 0; 0; 0; 0; 0] 1 0 (fun _ _ => 1) [{| u_event := 0%nat; u_cell := (0, 0)%nat; u_time := 1 |}] eq_refl)
    as (r & G); [repeat constructor; cbn; lia |]. exists r. split; [exact G |].
  destruct (C110_charge _ _ _ _ _ _ _ _ _ _ _ _ _ _ _ _ 0 (3, 5)%nat G) as (eff & _ & C). rewrite C.
  cbn [nth small g_scale g_relative g_global event]. pose proof (exp_pos 0). lra.
Qed.
Print Assumptions C112_configure.
Print Assumptions C112_daq_fails.
Print Assumptions C112_rows.
Print Assumptions C112_uninitialised_refuted.
Print Assumptions C113_sources.
Print Assumptions C113_errors.
Print Assumptions C113_dropped_refuted.
Print Assumptions C114_pulses.
Print Assumptions C114_totals.
Print Assumptions C114_success.
Print Assumptions C114_distribution.
Print Assumptions C115_no_rows.
Print Assumptions C115_poisson.
Print Assumptions C115_asymmetric.
Print Assumptions C115_negative_binomial.
Print Assumptions C114_frame.
Print Assumptions C115_evaluated.
