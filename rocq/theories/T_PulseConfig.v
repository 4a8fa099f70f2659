(** C187-C189: the configuration of the module for pulses, compatibility of such
    modules and changes of their settings. *)
From Coq Require Import Reals Lia.
From Verif Require Import Py PyFacts M_Config M_Tensor M_Pulse L_Pulse M_PulseConfig S_PulseConfig L_PulseConfig.

Section PulseConfig.
Variable np_has : string -> bool.
Variable rv : string.
Hypothesis has_bool : np_has "bool" = true.
Hypothesis has_int32 : np_has "int32" = true.
Notation configure := (pulse_configure np_has rv).

(** C187: what a call of [configure] does.  Without a list of tensors it succeeds
    exactly if the key of the pulses is a string and the precision the name of an
    attribute of numpy; otherwise the exception is a TypeError for the key and a
    ValueError for the precision. *)
Theorem C187_outcome v p d t prec q x :
  (~ is_name p -> configure (Plain v) p d t prec q x = Err TypeError) /\
  (is_name p -> (~ exists fp, prec = VStr fp /\ np_has fp = true) -> configure (Plain v) p d t prec q x = Err ValueError) /\
  (is_name p -> (exists fp, prec = VStr fp /\ np_has fp = true) -> exists m, configure (Plain v) p d t prec q x = Ok m).
Proof.
  rewrite configure_cases. cbn [data_fits]. split; [|split].
  - intros H. destruct p as [| | |pk| | |]; try reflexivity. destruct H. exists pk. reflexivity.
  - intros [pk ->] H. destruct prec as [| | |fp| | |]; try reflexivity. cbn [numpy_ok]. destruct (np_has fp) eqn:E; [|reflexivity].
    destruct H. exists fp. auto.
  - intros [pk ->] (fp & -> & H). cbn [numpy_ok]. rewrite H, has_bool, has_int32. cbn [andb]. eauto.
Qed.

(** C187: the tensors of a configured module, in this order, whatever the names of
    the keys are. *)
Theorem C187_layout cd p d t prec q x m : configure cd p d t prec q x = Ok m ->
  exists fp dom time, prec = VStr fp /\ (dom = true <-> is_given d) /\ (time = true <-> is_given t) /\
    pm_dom_exist m = dom /\ pm_time_exist m = time /\
    Forall2 describes (layout fp q dom time) (tl_list (pm_tensors m)) /\
    (forall r, In r (layout fp q dom time) -> exists te, get_item (pm_tensors m) (r_name r) = Ok te /\ describes r te).
Proof.
  intros H. apply configure_ok in H. destruct H as (pk & fp & -> & -> & _ & _ & ->). exists fp, (given d), (given t).
  assert (G : forall v, given v = true <-> is_given v) by (intros v; unfold is_given; destruct v; cbn; split; intros; congruence).
  split; [reflexivity|]. split; [apply G|]. split; [apply G|]. split; [reflexivity|]. split; [reflexivity|].
  unfold state, pm_tensors, built_list, layout. cbn [tl_list]. split.
  - unfold built. repeat constructor.
  - intros r Hr. cbn [In] in Hr. repeat (destruct Hr as [<-|Hr]; [eexists; split; [reflexivity|repeat constructor]|]). destruct Hr.
Qed.

(** C187: the tensors of a configured module are accepted for another call exactly
    if the precision, the flag for quantiles and the presence of keys of exclusions
    agree; names of keys and the flag for discarding pulses do not matter. *)
Theorem C187_given_tensors cd p d t prec q x m p' d' t' prec' q' x' : configure cd p d t prec q x = Ok m -> is_name p' ->
  (exists fp, prec' = VStr fp /\ np_has fp = true) ->
  ((prec' = prec /\ q' = q /\ (is_given d' <-> is_given d) /\ (is_given t' <-> is_given t)) ->
     exists m', configure (Tensors (pm_tensors m)) p' d' t' prec' q' x' = Ok m') /\
  (~ (prec' = prec /\ q' = q /\ (is_given d' <-> is_given d) /\ (is_given t' <-> is_given t)) ->
     configure (Tensors (pm_tensors m)) p' d' t' prec' q' x' = Err ValueError).
Proof.
  intros H [pk' ->] (fp' & -> & Hn). apply configure_ok in H. destruct H as (pk & fp & -> & -> & _ & _ & ->). rewrite configure_cases.
  cbn [numpy_ok data_fits state pm_tensors]. rewrite Hn, has_bool, has_int32, built_eqb. cbn [andb].
  assert (G : forall v, is_given v <-> given v = true) by (intros v; unfold is_given; destruct v; cbn; split; intros; congruence).
  assert (Gs : forall v w, (is_given v <-> is_given w) <-> given w = given v).
  { intros v w. rewrite !G. destruct (given v), (given w); intuition congruence. }
  assert (Q : forall a b : bool, Z.eqb (if a then 3 else 2) (if b then 3 else 2) = Bool.eqb a b) by (intros [] []; reflexivity).
  rewrite Q, !Gs. split.
  - intros ([= <-] & -> & -> & ->). rewrite String.eqb_refl, !Bool.eqb_reflx. cbn [andb]. eauto.
  - intros N. destruct (_ && _) eqn:E; [|reflexivity]. destruct N. apply andb_prop in E. destruct E as [E E4]. apply andb_prop in E. destruct E as [E E3].
    apply andb_prop in E. destruct E as [E1 E2]. apply String.eqb_eq in E1. apply Bool.eqb_prop in E2, E3, E4. subst. auto.
Qed.

(** C187: any other list of tensors is rejected: an accepted list equals the tensors
    of the module attribute by attribute. *)
Theorem C187_accepted tl p d t prec q x : is_name p -> (exists fp, prec = VStr fp /\ np_has fp = true) ->
  (forall m, configure (Tensors tl) p d t prec q x = Ok m ->
     list_eqb deqb (map to_dict (tl_list tl)) (map to_dict (tl_list (pm_tensors m))) = true /\
     exists m0, configure (Plain VNone) p d t prec q x = Ok m0 /\ pm_tensors m0 = pm_tensors m) /\
  (forall m0, configure (Plain VNone) p d t prec q x = Ok m0 ->
     list_eqb deqb (map to_dict (tl_list tl)) (map to_dict (tl_list (pm_tensors m0))) = false -> configure (Tensors tl) p d t prec q x = Err ValueError).
Proof.
  intros [pk ->] (fp & -> & Hn). rewrite !configure_cases. cbn [numpy_ok data_fits]. rewrite Hn, has_bool, has_int32. cbn [andb].
  unfold tensors_eqb, serialize. split.
  - intros m. destruct (list_eqb deqb _ _) eqn:E; [|discriminate]. intros H. injection H as <-. split; [exact E|]. eexists. split; reflexivity.
  - intros m0 H. injection H as <-. unfold state at 1. cbn [pm_tensors]. intros E. rewrite E. reflexivity.
Qed.

(** C188: modules are compatible exactly if [config_data], the precision and the
    flag for quantiles are equal. *)
Theorem C188_compatible cd p d t prec q x m cd' p' d' t' prec' q' x' m' rv' :
  no_tuple cd -> no_tuple cd' ->
  configure cd p d t prec q x = Ok m -> configure cd' p' d' t' prec' q' x' = Ok m' ->
  exists b, is_compatible rv' (co_dict (pm_conf m)) (co_dict (pm_conf m')) = Ok b /\
    (b = true <-> same_data cd cd' /\ prec = prec' /\ q = q').
Proof.
  intros N N' H H'. assert (D : veqb (data_value cd) (data_value cd') = true <-> same_data cd cd').
  { destruct cd as [v|l], cd' as [w|k]; cbn [same_data].
    - reflexivity.
    - destruct v as [|[]| | | | |]; try (destruct N; fail); (split; [intros E; cbn in E; discriminate E|intros []]).
    - destruct w as [|[]| | | | |]; try (destruct N'; fail); (split; [intros E; cbn in E; discriminate E|intros []]).
    - rewrite data_value_eqb. reflexivity. }
  apply configure_ok in H, H'. destruct H as (pk & fp & -> & -> & _ & _ & ->), H' as (pk' & fp' & -> & -> & _ & _ & ->).
  unfold state. cbn [pm_conf co_dict fst]. rewrite compatible_eq. eexists. split; [reflexivity|].
  rewrite !andb_true_iff, String.eqb_eq, Bool.eqb_true_iff, D. intuition congruence.
Qed.

(** C188: the same after any updates: compatibility does not depend on them. *)
Theorem C188_updates cd p d t prec q x m m' news rv' : configure cd p d t prec q x = Ok m ->
  is_compatible rv' (co_dict (pm_conf (updates news m))) (co_dict (pm_conf m')) = is_compatible rv' (co_dict (pm_conf m)) (co_dict (pm_conf m')).
Proof.
  intros H. apply configure_ok in H. destruct H as (pk & fp & -> & -> & _ & _ & ->). rewrite updates_eq. reflexivity.
Qed.

(** C188: of modules that were both configured with a list of tensors, compatible
    ones have equal tensors. *)
Theorem C188_same_tensors tl p d t prec q x m tl' p' d' t' prec' q' x' m' rv' : Forall dvwf (serialize tl) -> Forall dvwf (serialize tl') ->
  configure (Tensors tl) p d t prec q x = Ok m -> configure (Tensors tl') p' d' t' prec' q' x' = Ok m' ->
  is_compatible rv' (co_dict (pm_conf m)) (co_dict (pm_conf m')) = Ok true -> pm_tensors m = pm_tensors m'.
Proof.
  intros W W' H H' E. apply configure_ok in H, H'. destruct H as (pk & fp & -> & -> & _ & F & ->), H' as (pk' & fp' & -> & -> & _ & F' & ->).
  unfold state in *. cbn [pm_conf co_dict fst pm_tensors] in *. rewrite compatible_eq in E. assert (I : forall a b : bool, Ok a = Ok b -> a = b) by (intros a b; congruence). apply I in E. apply andb_prop in E. destruct E as [E _].
  apply andb_prop in E. destruct E as [E _]. rewrite data_value_eqb in E. cbn [data_fits] in F, F'. unfold tensors_eqb in E, F, F'.
  assert (K : tensors_eqb (built_list fp (if q then 3%Z else 2%Z) (given d) (given t)) (built_list fp' (if q' then 3%Z else 2%Z) (given d') (given t')) = true).
  { unfold tensors_eqb. pose proof (vwf_built fp (if q then 3%Z else 2%Z) (given d) (given t)) as V. pose proof (vwf_built fp' (if q' then 3%Z else 2%Z) (given d') (given t')) as V'.
    rewrite list_deqb_sym in F by assumption. apply (list_deqb_trans _ (serialize tl)); try assumption. apply (list_deqb_trans _ (serialize tl')); assumption. }
  rewrite built_eqb in K. apply andb_prop in K. destruct K as [K K4]. apply andb_prop in K. destruct K as [K K3]. apply andb_prop in K. destruct K as [K1 K2].
  apply String.eqb_eq in K1. apply Z.eqb_eq in K2. apply Bool.eqb_prop in K3, K4. rewrite K1, K2, K3, K4. reflexivity.
Qed.

(** C188: without such lists compatible modules may have different tensors: one
    reads excluded DOMs, the other does not. *)
Theorem C188_same_tensors_refuted : np_has "float32" = true -> exists m m' te te',
  configure (Plain VNone) (VStr "pulses") (VStr "excluded") VNone (VStr "float32") false (VBool true) = Ok m /\
  configure (Plain VNone) (VStr "pulses") VNone VNone (VStr "float32") false (VBool true) = Ok m' /\
  is_compatible rv (co_dict (pm_conf m)) (co_dict (pm_conf m')) = Ok true /\
  get_item (pm_tensors m) "x_dom_exclusions" = Ok te /\ t_exists te = VBool true /\
  get_item (pm_tensors m') "x_dom_exclusions" = Ok te' /\ t_exists te' = VBool false.
Proof.
  intros Hf. rewrite !configure_cases. cbn [numpy_ok data_fits]. rewrite Hf, has_bool, has_int32. cbn [andb]. do 4 eexists.
  split; [reflexivity|]. split; [reflexivity|]. split; [unfold state; cbn [pm_conf co_dict fst]; rewrite compatible_eq; reflexivity|].
  split; [reflexivity|]. split; [reflexivity|]. split; reflexivity.
Qed.

(** C189: after any sequence of updates, what a module has: the tensors and the
    flags of its configuration, the settings of the last complete update; a further
    update raises KeyError exactly if a name is unknown. *)
Theorem C189_settings cd p d t prec q x m news : configure cd p d t prec q x = Ok m ->
  let s := in_effect {| k_pulse := p; k_dom := d; k_time := t; k_discard := x |} news in
  let m' := updates news m in
  pm_tensors m' = pm_tensors m /\ pm_dom_exist m' = pm_dom_exist m /\ pm_time_exist m' = pm_time_exist m /\
  setting m' "pulse_key" = Ok (k_pulse s) /\ setting m' "dom_exclusions_key" = Ok (k_dom s) /\ setting m' "time_exclusions_key" = Ok (k_time s) /\
  setting m' "discard_pulses_from_excluded_doms" = Ok (k_discard s) /\ setting m' "float_precision" = Ok prec /\
  setting m' "add_charge_quantiles" = Ok (VBool q) /\ (forall v, cd = Plain v -> setting m' "config_data" = Ok v) /\
  (forall key, ~ In key ["pulse_key"; "dom_exclusions_key"; "time_exclusions_key"; "discard_pulses_from_excluded_doms"; "float_precision";
     "add_charge_quantiles"; "config_data"] -> setting m' key = Err KeyError) /\
  forall new, snd (update_settings new m') =
    if forallb (fun kv => smem (fst kv) ["pulse_key"; "dom_exclusions_key"; "time_exclusions_key"; "discard_pulses_from_excluded_doms"]) new
    then None else Some KeyError.
Proof.
  intros H. apply configure_ok in H. destruct H as (pk & fp & -> & -> & _ & _ & ->). cbv zeta. rewrite updates_eq. unfold in_effect, history.
  repeat (split; [reflexivity|]). split; [intros v ->; reflexivity|]. split.
  { intros key Hk. assert (E : forall n, In n ["pulse_key"; "dom_exclusions_key"; "time_exclusions_key"; "discard_pulses_from_excluded_doms"; "float_precision";
      "add_charge_quantiles"; "config_data"] -> String.eqb key n = false).
    { intros n Hn. apply String.eqb_neq. intros ->. exact (Hk Hn). }
    unfold setting. cbn. rewrite ?(String.eqb_sym _ key), !E by (cbn; tauto). reflexivity. }
  intros new. rewrite update_eq. cbn [snd].
  assert (A : forall new s, snd (assign_all new s) =
    forallb (fun kv => smem (fst kv) ["pulse_key"; "dom_exclusions_key"; "time_exclusions_key"; "discard_pulses_from_excluded_doms"]) new).
  { clear. intros new. induction new as [|[k v] new IH]; intros s; [reflexivity|]. cbn [assign_all forallb fst]. unfold assign, smem at 1. cbn [existsb].
    destruct (String.eqb k "pulse_key"); [apply IH|]. destruct (String.eqb k "dom_exclusions_key"); [apply IH|].
    destruct (String.eqb k "time_exclusions_key"); [apply IH|]. destruct (String.eqb k "discard_pulses_from_excluded_doms"); [apply IH|]. reflexivity. }
  rewrite A. reflexivity.
Qed.

Section Reading.
Variable bad : nat -> nat -> bool.

(** C189: what a configured module reads: the objects under its keys, no exclusions
    without a key or if the object is missing.  A frame without pulses raises
    KeyError, a file without pulses or labels is skipped. *)
Theorem C189_lookup cd k d t prec q x m : configure cd (VStr k) d t prec q x = Ok m -> optional d -> optional t ->
  let on v := match v with VNone => false | _ => true end in
  let c := {| quant := q; dom_key := on d; time_key := on t; discard := M_Handler.truthy x |} in
  (forall f, frame_data bad m f =
     match dget k (fo_pulses f) with
     | Some ps => read_frame bad c {| g_pulses := ps; g_doms := looked_up d (fo_doms f); g_times := looked_up t (fo_times f) |}
     | None => Err KeyError
     end) /\
  (forall j f, file_data bad m j f =
     match dget k (ft_pulses f), ft_labels f with
     | Some ps, Some ls => read_hdf bad c j {| f_labels := Some ls; f_pulses := Some ps; f_doms := looked_up d (ft_doms f); f_times := looked_up t (ft_times f) |}
     | _, _ => Ok None
     end).
Proof.
  intros H Hd Ht on c. apply configure_ok in H. destruct H as (pk & fp & _ & -> & _ & _ & ->). cbv zeta.
  assert (O : forall A v (di : dict A), optional v -> optional_item (given v) di (Ok v) = Ok (looked_up v di)).
  { intros A v di [->|[s ->]]; [reflexivity|]. cbn. destruct (dget s di); reflexivity. }
  split.
  - intros f. rewrite frame_data_eq. cbn [snd k_pulse k_dom k_time item]. destruct (dget k (fo_pulses f)); [|reflexivity]. cbn [bind].
    rewrite (O _ d), (O _ t) by assumption. reflexivity.
  - intros j f. rewrite file_data_eq. cbn [snd k_pulse k_dom k_time item]. destruct (dget k (ft_pulses f)); [|reflexivity]. cbn [bind].
    destruct (ft_labels f); [|reflexivity]. cbn [bind]. rewrite (O _ d), (O _ t) by assumption. reflexivity.
Qed.

(** C189: when the keys of exclusions given at the configuration still have values,
    reading is that of a module configured anew with the settings in effect, except
    that keys which were not given then stay without effect. *)
Theorem C189_reading cd p d t prec q x m news cd' prec' m' : configure cd p d t prec q x = Ok m ->
  let s := in_effect {| k_pulse := p; k_dom := d; k_time := t; k_discard := x |} news in
  (is_given d -> is_given (k_dom s)) -> (is_given t -> is_given (k_time s)) ->
  configure cd' (k_pulse s) (seen d (k_dom s)) (seen t (k_time s)) prec' q (k_discard s) = Ok m' ->
  (forall f, frame_data bad (updates news m) f = frame_data bad m' f) /\ (forall j f, file_data bad (updates news m) j f = file_data bad m' j f).
Proof.
  intros H s Hd Ht H'. apply configure_ok in H, H'. destruct H as (pk & fp & -> & -> & _ & _ & ->), H' as (pk' & fp' & Ep & -> & _ & _ & ->).
  rewrite updates_eq. cbv zeta. fold (history {| k_pulse := VStr pk; k_dom := d; k_time := t; k_discard := x |} news).
  assert (G : forall v w : value, (is_given v -> is_given w) -> given (seen v w) = given v) by (intros [] [] A; try reflexivity; destruct (A ltac:(discriminate)); reflexivity).
  rewrite (G _ _ Hd), (G _ _ Ht).
  assert (O : forall A (di : dict A) v w, optional_item (given v) di (Ok w) = optional_item (given v) di (Ok (seen v w))) by (intros A di [] w; reflexivity).
  split.
  - intros f. rewrite !frame_data_eq. fold (in_effect {| k_pulse := VStr pk; k_dom := d; k_time := t; k_discard := x |} news). fold s. cbn [snd k_pulse k_dom k_time].
    rewrite (O _ _ d), (O _ _ t). reflexivity.
  - intros j f. rewrite !file_data_eq. fold (in_effect {| k_pulse := VStr pk; k_dom := d; k_time := t; k_discard := x |} news). fold s. cbn [snd k_pulse k_dom k_time].
    rewrite (O _ _ d), (O _ _ t). reflexivity.
Qed.

(** C189: a key of exclusions that was given at the configuration cannot be taken
    away: frames raise TypeError, every file is skipped. *)
Theorem C189_removed cd p d t prec q x m news : configure cd p d t prec q x = Ok m ->
  let s := in_effect {| k_pulse := p; k_dom := d; k_time := t; k_discard := x |} news in
  (is_given d /\ ~ is_name (k_dom s)) \/ (is_given t /\ ~ is_name (k_time s)) ->
  (forall f k ps, k_pulse s = VStr k -> dget k (fo_pulses f) = Some ps -> frame_data bad (updates news m) f = Err TypeError) /\
  (forall j f, file_data bad (updates news m) j f = Ok None).
Proof.
  intros H s N. apply configure_ok in H. destruct H as (pk & fp & -> & -> & _ & _ & ->).
  rewrite updates_eq. cbv zeta. fold (history {| k_pulse := VStr pk; k_dom := d; k_time := t; k_discard := x |} news).
  assert (G : forall v, is_given v -> given v = true) by (intros v A; unfold is_given in A; destruct v; cbn; congruence).
  assert (M : forall A (di : dict A) v w, is_given v /\ ~ is_name w -> optional_item (given v) di (Ok w) = Err TypeError).
  { intros A di v w [A1 A2]. apply optional_no_name; [apply G; exact A1|]. intros z E. apply A2. exists z. exact E. }
  split.
  - intros f k ps Ek El. rewrite frame_data_eq. fold (in_effect {| k_pulse := VStr pk; k_dom := d; k_time := t; k_discard := x |} news). fold s.
    rewrite Ek. cbn [item]. rewrite El. cbn [bind]. destruct N as [N|N].
    + rewrite (M _ (fo_doms f) _ _ N). reflexivity.
    + destruct (optional_cases (given d) (fo_doms f) (k_dom s)) as [[o ->]| ->]; [|reflexivity]. cbn [bind]. rewrite (M _ (fo_times f) _ _ N). reflexivity.
  - intros j f. rewrite file_data_eq. fold (in_effect {| k_pulse := VStr pk; k_dom := d; k_time := t; k_discard := x |} news). fold s.
    destruct (item (ft_pulses f) (k_pulse s)); [|reflexivity]. cbn [bind]. destruct (ft_labels f); [|reflexivity]. cbn [bind]. destruct N as [N|N].
    + rewrite (M _ (ft_doms f) _ _ N). reflexivity.
    + destruct (optional_cases (given d) (ft_doms f) (k_dom s)) as [[o ->]| ->]; [|reflexivity]. cbn [bind]. rewrite (M _ (ft_times f) _ _ N). reflexivity.
Qed.

(** C189: an update that raises changes nothing of what is read, but what it stored
    before takes effect with the next update, even an empty one. *)
Theorem C189_failed_update cd p d t prec q x m news new e : configure cd p d t prec q x = Ok m ->
  snd (update_settings new (updates news m)) = Some e ->
  e = KeyError /\
  (forall f, frame_data bad (updates (news ++ [new]) m) f = frame_data bad (updates news m) f) /\
  (forall j f, file_data bad (updates (news ++ [new]) m) j f = file_data bad (updates news m) j f) /\
  in_effect {| k_pulse := p; k_dom := d; k_time := t; k_discard := x |} (news ++ [new]) = in_effect {| k_pulse := p; k_dom := d; k_time := t; k_discard := x |} news /\
  in_effect {| k_pulse := p; k_dom := d; k_time := t; k_discard := x |} (news ++ [new; []]) =
    fst (history {| k_pulse := p; k_dom := d; k_time := t; k_discard := x |} (news ++ [new])).
Proof.
  intros H E. apply configure_ok in H. destruct H as (pk & fp & -> & -> & _ & _ & ->). set (s0 := {| k_pulse := VStr pk; k_dom := d; k_time := t; k_discard := x |}) in *.
  cbv zeta in *. rewrite updates_eq, update_eq in E. cbn [snd] in E. set (st := fold_left step news (s0, s0)) in *.
  destruct (assign_all new (fst st)) as [s ok] eqn:F. cbn [snd] in E. destruct ok; [discriminate|]. injection E as <-. split; [reflexivity|].
  assert (S1 : fold_left step (news ++ [new]) (s0, s0) = (s, snd st)) by (rewrite fold_left_app; cbn [fold_left]; fold st; unfold step; rewrite F; reflexivity).
  split; [intros f; rewrite !updates_eq, S1, !frame_data_eq; reflexivity|].
  split; [intros j f; rewrite !updates_eq, S1, !file_data_eq; reflexivity|].
  unfold in_effect, history. rewrite S1. split; [reflexivity|].
  change [new; []] with ([new] ++ [[] : dict value]). rewrite app_assoc, fold_left_app, S1. reflexivity.
Qed.

(** C189: so a changed key need not take effect: after an update that adds the key
    of excluded DOMs, a module reads other data than a module configured with it. *)
Theorem C189_takes_effect_refuted : np_has "float32" = true -> exists m m' f r r',
  configure (Plain VNone) (VStr "pulses") VNone VNone (VStr "float32") false (VBool true) = Ok m /\
  snd (update_settings [("dom_exclusions_key", VStr "excluded")] m) = None /\
  configure (Plain VNone) (VStr "pulses") (VStr "excluded") VNone (VStr "float32") false (VBool true) = Ok m' /\
  is_compatible rv (co_dict (pm_conf (updates [[("dom_exclusions_key", VStr "excluded")]] m))) (co_dict (pm_conf m')) = Ok true /\
  frame_data bad (updates [[("dom_exclusions_key", VStr "excluded")]] m) f = Ok r /\ frame_data bad m' f = Ok r' /\
  length (o_pulses r) = 1 /\ length (o_pulses r') = 0.
Proof.
  intros Hf. rewrite !configure_cases. cbn [numpy_ok data_fits]. rewrite Hf, has_bool, has_int32. cbn [andb]. cbv zeta. cbn [given].
  do 2 eexists. exists {| fo_pulses := [("pulses", [((3, 4)%Z, [(5%R, 1%R)])])]; fo_doms := [("excluded", [(3, 4)%Z])]; fo_times := [] |}. do 2 eexists.
  split; [reflexivity|]. split; [rewrite update_eq; reflexivity|]. split; [reflexivity|]. rewrite updates_eq.
  split; [unfold state; cbn [pm_conf co_dict]; rewrite compatible_eq; reflexivity|]. rewrite !frame_data_eq.
  split; [reflexivity|]. split.
  - unfold read_frame. cbn -[flatten fetch Rplus]. unfold drop_excluded. cbn [mapr].
    change (0, 2, 3)%Z with (Z.of_nat 0, Z.of_nat 2, Z.of_nat 3). rewrite fetch_flatten by lia. cbn [bind masked]. reflexivity.
  - split; reflexivity.
Qed.
End Reading.
End PulseConfig.

(** Examples. *)
Definition some_numpy (s : string) : bool := smem s ["float32"; "float64"; "bool"; "int32"].
Example ex_configure : exists m, pulse_configure some_numpy "1.0" (Plain VNone) (VStr "pulses") (VStr "excluded") VNone (VStr "float32") true (VBool true) = Ok m /\
  pulse_configure some_numpy "1.0" (Plain VNone) VNone (VStr "excluded") VNone (VStr "float32") true (VBool true) = Err TypeError /\
  pulse_configure some_numpy "1.0" (Plain VNone) (VStr "pulses") (VStr "excluded") VNone (VStr "float33") true (VBool true) = Err ValueError /\
  (exists m', pulse_configure some_numpy "1.0" (Tensors (pm_tensors m)) (VStr "others") (VStr "bright") VNone (VStr "float32") true (VBool false) = Ok m') /\
  pulse_configure some_numpy "1.0" (Tensors (pm_tensors m)) (VStr "others") VNone VNone (VStr "float32") true (VBool false) = Err ValueError.
Proof.
  rewrite !configure_cases. eexists. split; [reflexivity|]. split; [reflexivity|]. split; [reflexivity|]. split.
  - rewrite configure_cases. cbn [numpy_ok data_fits state pm_tensors]. rewrite built_eqb. eexists. reflexivity.
  - rewrite configure_cases. cbn [numpy_ok data_fits state pm_tensors]. rewrite built_eqb. reflexivity.
Qed.
Definition start : keys := {| k_pulse := VStr "pulses"; k_dom := VStr "excluded"; k_time := VNone; k_discard := VBool true |}.
Example ex_history :
  in_effect start [[("pulse_key", VStr "others"); ("time_exclusions_key", VStr "windows")]] =
    {| k_pulse := VStr "others"; k_dom := VStr "excluded"; k_time := VStr "windows"; k_discard := VBool true |} /\
  in_effect start [[("pulse_key", VStr "others"); ("unknown", VNone); ("dom_exclusions_key", VNone)]] = start /\
  in_effect start [[("pulse_key", VStr "others"); ("unknown", VNone); ("dom_exclusions_key", VNone)]; []] =
    {| k_pulse := VStr "others"; k_dom := VStr "excluded"; k_time := VNone; k_discard := VBool true |} /\
  (is_given (k_dom start) /\ ~ is_name (k_dom (in_effect start [[("dom_exclusions_key", VNone)]]))).
Proof. repeat (split; [reflexivity|]). split; [discriminate|]. intros [s H]. discriminate H. Qed.
Example ex_well_formed fp : Forall dvwf (serialize (built_list fp 3 true false)).
Proof. apply vwf_built. Qed.
Print Assumptions C187_outcome.
Print Assumptions C187_layout.
Print Assumptions C187_given_tensors.
Print Assumptions C187_accepted.
Print Assumptions C188_compatible.
Print Assumptions C188_updates.
Print Assumptions C188_same_tensors.
Print Assumptions C188_same_tensors_refuted.
Print Assumptions C189_settings.
Print Assumptions C189_lookup.
Print Assumptions C189_reading.
Print Assumptions C189_removed.
Print Assumptions C189_failed_update.
Print Assumptions C189_takes_effect_refuted.
