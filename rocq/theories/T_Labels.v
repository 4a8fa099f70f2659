(** C122-C128: what the label modules load. *)
From Coq Require Import Reals Lra Lia.
From Verif Require Import Py PyFacts PyStr RList M_Tensor M_Source S_Source L_Source M_Labels S_Labels L_Labels.
Open Scope R_scope.

Lemma configured_sane np_has a l : configure_labels np_has a = Ok l -> sane a.
Proof.
  unfold configure_labels, sane. intros H E. rewrite E in H. destruct (la_shift a); try discriminate. cbn [bind] in H.
  destruct (Z.ltb_spec (la_cascades a) 0) as [|H0]; [discriminate|lia].
Qed.

Lemma frame_finish a f lab sn : sane a -> NoDup (label_names a) -> FrameReadable a f lab sn ->
  exists w, labels_from_frame true a f = Ok (Some (1%nat, [plain_row a w sn])) /\ Moved a lab w.
Proof.
  intros HS HN HR. unfold labels_from_frame. cbn [negb]. rewrite (frame_columns_ok _ _ _ _ HR).
  destruct (finish_ok a 1 (fun k _ => lab k) (fun i _ => sn i) HS HN) as (lab' & E & M). rewrite E.
  exists (fun k => lab' k 0%nat). split; [reflexivity|]. apply (M 0%nat).
Qed.

(** ** C122: the rows of a file and of a frame *)

Section Loading.
  Variable np_has : string -> bool.

  (** Row [j] holds the labels of event [j], shifted if asked for, followed by
      the systematics parameters of that event. *)
  Theorem C122_rows a l f n lab sn : configure_labels np_has a = Ok l -> NoDup (label_names a) -> Tables f -> Readable a f n lab sn ->
    exists rows, labels_from_hdf true a (Some f) = Ok (Some (n, rows)) /\ length rows = n /\
      forall j, (j < n)%nat -> exists w, nth_error rows j = Some (plain_row a w (fun i => sn i j)) /\ Moved a (fun k => lab k j) w.
  Proof.
    intros C N T HR. unfold labels_from_hdf. cbn [negb]. rewrite (hdf_columns_ok _ _ _ _ _ T HR).
    destruct (finish_ok a n lab sn (configured_sane _ _ _ C) N) as (lab' & E & M). rewrite E.
    eexists. split; [reflexivity|]. split; [rewrite map_length, seq_length; reflexivity|]. intros j Hj.
    exists (fun k => lab' k j). split; [exact (nth_error_map_seq _ _ _ Hj)|]. exact (M j).
  Qed.

  (** Nothing else is ever returned. *)
  Theorem C122_loaded a l f n rows : configure_labels np_has a = Ok l -> NoDup (label_names a) -> Tables f ->
    labels_from_hdf true a (Some f) = Ok (Some (n, rows)) ->
    exists lab sn, Readable a f n lab sn /\ length rows = n /\
      forall j, (j < n)%nat -> exists w, nth_error rows j = Some (plain_row a w (fun i => sn i j)) /\ Moved a (fun k => lab k j) w.
  Proof.
    intros C N T H. destruct (hdf_columns a f) as [cols|e] eqn:E.
    - destruct (hdf_columns_inv _ _ _ T E) as (n' & lab & sn & HR). destruct (C122_rows a l f n' lab sn C N T HR) as (rows' & E' & P).
      rewrite H in E'. injection E' as <- <-. exists lab, sn. split; [exact HR|exact P].
    - unfold labels_from_hdf in H. cbn [negb] in H. rewrite E in H. discriminate.
  Qed.

  (** A frame gives one row. *)
  Theorem C122_frame a l f : configure_labels np_has a = Ok l -> NoDup (label_names a) ->
    (forall lab sn, FrameReadable a f lab sn ->
       exists w, labels_from_frame true a f = Ok (Some (1%nat, [plain_row a w sn])) /\ Moved a lab w) /\
    (forall n rows, labels_from_frame true a f = Ok (Some (n, rows)) -> n = 1%nat /\ exists lab sn, FrameReadable a f lab sn).
  Proof.
    intros C N. pose proof (configured_sane _ _ _ C) as S0. split; [intros lab sn; apply frame_finish; assumption|].
    intros n rows H. destruct (frame_columns a f) as [cols|e] eqn:E.
    - destruct (frame_columns_inv _ _ _ E) as (lab & sn & HR). destruct (frame_finish a f lab sn S0 N HR) as (w & E' & _).
      rewrite H in E'. injection E' as -> ->. split; [reflexivity|]. exists lab, sn. exact HR.
    - unfold labels_from_frame in H. cbn [negb] in H. rewrite E in H. discriminate.
  Qed.

  (** ** C126: files that are skipped *)

  (** A configured module raises nothing on a file that can be opened, and
      skips it exactly if something it needs cannot be read. *)
  Theorem C126_total a l f : configure_labels np_has a = Ok l -> NoDup (label_names a) -> Tables f ->
    exists r, labels_from_hdf true a (Some f) = Ok r /\ (r = None <-> ~ exists n lab sn, Readable a f n lab sn).
  Proof.
    intros C N T. destruct (hdf_columns a f) as [cols|e] eqn:E.
    - destruct (hdf_columns_inv _ _ _ T E) as (n & lab & sn & HR). destruct (C122_rows a l f n lab sn C N T HR) as (rows & E' & _).
      eexists. split; [exact E'|]. split; [discriminate|]. intros H. destruct H. eauto.
    - exists None. split; [unfold labels_from_hdf; cbn [negb]; rewrite E; reflexivity|]. split; [|reflexivity].
      intros _ (n & lab & sn & HR). rewrite (hdf_columns_ok _ _ _ _ _ T HR) in E. discriminate.
  Qed.

  Theorem C126_frame_total a l f : configure_labels np_has a = Ok l -> NoDup (label_names a) ->
    exists r, labels_from_frame true a f = Ok r /\ (r = None <-> ~ exists lab sn, FrameReadable a f lab sn).
  Proof.
    intros C N. pose proof (configured_sane _ _ _ C) as S0. destruct (frame_columns a f) as [cols|e] eqn:E.
    - destruct (frame_columns_inv _ _ _ E) as (lab & sn & HR). destruct (frame_finish a f lab sn S0 N HR) as (w & E' & _).
      eexists. split; [exact E'|]. split; [discriminate|]. intros H. destruct H. eauto.
    - exists None. split; [unfold labels_from_frame; cbn [negb]; rewrite E; reflexivity|]. split; [|reflexivity].
      intros _ (lab & sn & HR). rewrite (frame_columns_ok _ _ _ _ HR) in E. discriminate.
  Qed.

  (** One label that is not in the table, or one event of a file of segments
      whose segment does not start at the anchor, and all events of the file
      are lost. *)
  Theorem C126_one_event a l f t : configure_labels np_has a = Ok l -> NoDup (label_names a) -> Tables f ->
    dget (la_label_key a) f = Some t ->
    (exists k, In k (label_names a) /\ dget k (columns t) = None) \/
    (la_class a = SnowSegmentLabels /\ exists c v, dget "track_distance_start" (columns t) = Some c /\ In v c /\ v <> 0) ->
    labels_from_hdf true a (Some f) = Ok None.
  Proof.
    intros C N T ET H. destruct (C126_total a l f C N T) as (r & -> & HR). rewrite (proj2 HR); [reflexivity|].
    intros (n & lab & sn & (t' & ET' & HL) & HS & _). rewrite ET in ET'. injection ET' as <-. destruct H as [(k & Hk & E)|(EC & c & v & E & Hv & Hv0)].
    - destruct (HL k Hk) as (c & E' & _). congruence.
    - destruct (HS EC) as (t' & c' & ET' & E' & HF). rewrite ET in ET'. injection ET' as <-. rewrite E in E'. injection E' as <-.
      rewrite Forall_forall in HF. exact (Hv0 (HF v Hv)).
  Qed.

  (** Before the configuration, and with a file that cannot be opened, an
      exception is raised. *)
  Theorem C126_errors a file : labels_from_hdf false a file = Err ValueError /\ labels_from_hdf true a None = Err IOError /\
    forall f, labels_from_frame false a f = Err ValueError.
  Proof. repeat split. Qed.

  (** ** C124: which systematics parameters an event gets *)

  (** If the vectors of the events follow each other, every event gets its own. *)
  Theorem C124_grouped a l f n lab k t vectors : configure_labels np_has a = Ok l -> NoDup (label_names a) -> Tables f ->
    (0 < snow_params a)%Z -> la_snow_key a = Some k -> dget k f = Some t -> vectors <> [] -> length vectors = n ->
    Grouped t (Z.to_nat (snow_params a)) vectors ->
    Labels f (la_label_key a) (label_names a) n lab ->
    (la_class a = SnowSegmentLabels -> exists t c, dget (la_label_key a) f = Some t /\ dget "track_distance_start" (columns t) = Some c /\
       Forall (fun v => v = 0) c) ->
    exists rows, labels_from_hdf true a (Some f) = Ok (Some (n, rows)) /\
      forall j row v, nth_error rows j = Some row -> nth_error vectors j = Some v -> exists own, row = own ++ v /\ length own = length (label_names a).
  Proof.
    intros C N T HP EK ET HV EN G HL HSeg. set (p := Z.to_nat (snow_params a)) in *.
    set (sn := fun i j => nth i (nth j vectors []) 0).
    assert (HF : Forall (fun v => length v = p) vectors) by apply G. rewrite Forall_forall in HF.
    assert (HR : Readable a f n lab sn).
    { split; [exact HL|]. split; [exact HSeg|]. intros _. rewrite EK, <- EN. eapply grouped_snow; try eassumption; [unfold p; lia|].
      intros i j v Hi Hj. unfold sn. rewrite (nth_error_nth _ _ [] Hj). apply nth_error_nth'. rewrite (HF v); [exact Hi|]. eapply nth_error_In. exact Hj. }
    destruct (C122_rows a l f n lab sn C N T HR) as (rows & E & LR & P). exists rows. split; [exact E|]. intros j row v Hr Hv.
    assert (Hj : (j < n)%nat) by (rewrite <- LR; apply nth_error_Some; congruence). destruct (P j Hj) as (w & Er & _). rewrite Hr in Er. injection Er as ->.
    exists (map w (label_names a)). split; [|apply map_length]. unfold plain_row. f_equal. fold p.
    symmetry. apply map_seq_ext; [apply HF; eapply nth_error_In; exact Hv|]. intros i Hi. unfold sn. rewrite (nth_error_nth _ _ [] Hv).
    apply nth_error_nth'. rewrite (HF v); [exact Hi|]. eapply nth_error_In. exact Hv.
  Qed.

  (** The file is loaded exactly if every index occurs once per event and no
      other index occurs; in particular not without events. *)
  Theorem C124_counts a l f n lab k t items index : configure_labels np_has a = Ok l -> NoDup (label_names a) -> Tables f ->
    (0 < snow_params a)%Z -> la_snow_key a = Some k -> dget k f = Some t -> dget "item" (columns t) = Some items -> vector_index t = Some index ->
    Labels f (la_label_key a) (label_names a) n lab ->
    (la_class a = SnowSegmentLabels -> exists t c, dget (la_label_key a) f = Some t /\ dget "track_distance_start" (columns t) = Some c /\
       Forall (fun v => v = 0) c) ->
    ((exists rows, labels_from_hdf true a (Some f) = Ok (Some (n, rows))) <->
     (0 < n)%nat /\ (forall i, In i index -> (0 <= i < snow_params a)%Z) /\ forall i, (0 <= i < snow_params a)%Z -> occurrences i index = n) /\
    ((forall rows, labels_from_hdf true a (Some f) <> Ok (Some (n, rows))) -> labels_from_hdf true a (Some f) = Ok None).
  Proof.
    intros C N T HP EK ET EI EV HL HSeg. split.
    - split.
      + intros (rows & E). destruct (C122_loaded a l f n rows C N T E) as (lab' & sn & (_ & _ & HS) & _). specialize (HS HP). rewrite EK in HS.
        destruct HS as (t' & items' & index' & ET' & EI' & EV' & HN & HI & HO). rewrite ET in ET'. injection ET' as <-. rewrite EV in EV'. injection EV' as <-.
        destruct index as [|x index]; [congruence|]. split; [|split].
        * pose proof (HI x (or_introl eq_refl)) as Hx. destruct (HO (Z.to_nat x) ltac:(lia)) as (Ho & _). rewrite <- Ho. apply occ_in. left. lia.
        * intros i Hi. specialize (HI i Hi). lia.
        * intros i Hi. destruct (HO (Z.to_nat i) ltac:(lia)) as (Ho & _). rewrite Z2Nat.id in Ho by lia. exact Ho.
      + intros (Hn & HI & HO). destruct (T k t ET) as (m & HC & HV). pose proof (HC _ _ EI) as L1. pose proof (HV _ EV) as L2.
        set (sn := fun i j => nth j (masked items index (Z.of_nat i)) 0).
        assert (HR : Readable a f n lab sn).
        { split; [exact HL|]. split; [exact HSeg|]. intros _. rewrite EK. exists t, items, index. do 3 (split; [assumption|]). split; [|split].
          - intros ->. specialize (HO 0%Z ltac:(lia)). cbn in HO. lia.
          - intros i Hi. specialize (HI i Hi). lia.
          - intros i Hi. split; [apply HO; lia|]. intros j Hj. apply masked_inv; [congruence|]. unfold sn. apply nth_error_nth'.
            rewrite masked_length by congruence. rewrite HO by lia. exact Hj. }
        destruct (C122_rows a l f n lab sn C N T HR) as (rows & E & _). eauto.
    - intros HX. destruct (C126_total a l f C N T) as (r & E & HR). rewrite E. destruct r as [(n', rows)|]; [|reflexivity].
      exfalso. destruct (C122_loaded a l f n' rows C N T E) as (lab' & sn & ((t' & ET' & HL') & _) & _).
      destruct HL as (t1 & ET1 & HL1). rewrite ET1 in ET'. injection ET' as <-. destruct (label_names_cons a) as (x & xs & EX).
      destruct (HL' x) as (c & E1 & E2 & _); [rewrite EX; left; reflexivity|]. destruct (HL1 x) as (c' & E3 & E4 & _); [rewrite EX; left; reflexivity|].
      rewrite E1 in E3. injection E3 as <-. apply (HX rows). rewrite E, <- E2, <- E4. reflexivity.
  Qed.

  (** A file without events is skipped if it has to have systematics
      parameters, and otherwise loaded with no rows. *)
  Theorem C124_no_events a l f lab : configure_labels np_has a = Ok l -> NoDup (label_names a) -> Tables f ->
    Labels f (la_label_key a) (label_names a) 0 lab ->
    (la_class a = SnowSegmentLabels -> exists t c, dget (la_label_key a) f = Some t /\ dget "track_distance_start" (columns t) = Some c /\
       Forall (fun v => v = 0) c) ->
    labels_from_hdf true a (Some f) = Ok (if (0 <? snow_params a)%Z then match la_snow_key a with Some _ => None | None => Some (0%nat, []) end
                                          else Some (0%nat, [])).
  Proof.
    intros C N T HL HSeg.
    assert (HOk : forall sn, ((0 < snow_params a)%Z -> Snow f (la_snow_key a) (Z.to_nat (snow_params a)) 0 sn) ->
      labels_from_hdf true a (Some f) = Ok (Some (0%nat, []))).
    { intros sn HS. destruct (C122_rows a l f 0 lab sn C N T) as ([|] & -> & LR & _); [split; [exact HL|split; assumption]|reflexivity|discriminate LR]. }
    destruct (Z.ltb_spec 0 (snow_params a)) as [HP|HP]; [|apply (HOk (fun _ _ => 1)); lia].
    destruct (la_snow_key a) as [k|] eqn:EK; [|apply (HOk (fun _ _ => 1)); intros _ i j; reflexivity].
    destruct (C126_total a l f C N T) as (r & -> & HR). rewrite (proj2 HR); [reflexivity|].
    intros (n & lab' & sn & (t' & ET' & HL') & _ & HS). destruct HL as (t1 & ET1 & HL1). rewrite ET1 in ET'. injection ET' as <-.
    destruct (label_names_cons a) as (x & xs & EX).
    destruct (HL' x) as (c & E1 & E2 & _); [rewrite EX; left; reflexivity|]. destruct (HL1 x) as (c' & E3 & E4 & _); [rewrite EX; left; reflexivity|].
    rewrite E1 in E3. injection E3 as <-. rewrite <- E2, E4 in HS. specialize (HS HP). rewrite EK in HS.
    destruct HS as (t & items & index & _ & _ & _ & HI & HI' & HO). destruct index as [|y index]; [congruence|].
    pose proof (HI' y (or_introl eq_refl)) as Hy. destruct (HO (Z.to_nat y) ltac:(lia)) as (Ho & _). 
    assert (0 < occurrences (Z.of_nat (Z.to_nat y)) (y :: index))%nat by (apply occ_in; left; lia). lia.
  Qed.

  (** ** C127: files and frames agree *)

  (** A file into which frames were written gives the rows of the frames. *)
  Theorem C127_together a l f frames lab sn : configure_labels np_has a = Ok l -> NoDup (label_names a) -> Tables f ->
    Together a f frames lab sn -> frames <> [] ->
    exists rows, labels_from_hdf true a (Some f) = Ok (Some (length frames, rows)) /\
      Forall2 (fun fr row => labels_from_frame true a fr = Ok (Some (1%nat, [row]))) frames rows.
  Proof.
    intros C N T (HF & (t & ET & HL & HSeg) & HS) HN0. set (p := Z.to_nat (snow_params a)) in *.
    set (sn' := fun i j => match la_snow_key a with None => 1 | Some _ => sn j i end).
    assert (HR : Readable a f (length frames) (fun k j => lab j k) sn').
    { split; [|split].
      - exists t. split; [exact ET|]. intros k Hk. eexists. split; [apply HL; exact Hk|]. split; [rewrite map_length, seq_length; reflexivity|].
        intros j Hj. apply nth_error_map_seq with (f := fun j => lab j k). exact Hj.
      - intros EC. exists t. eexists. split; [exact ET|]. split; [apply HSeg; exact EC|]. apply Forall_map, Forall_forall. reflexivity.
      - intros HP. unfold sn'. destruct (la_snow_key a) as [k|] eqn:EK; [|intros i j; reflexivity].
        destruct (HS k HP eq_refl) as (t' & ET' & G). replace (length frames) with (length (map (fun j => map (sn j) (seq 0 p)) (seq 0 (length frames)))) by (rewrite map_length, seq_length; reflexivity).
        eapply grouped_snow; try eassumption; [unfold p; lia|destruct frames; [congruence|discriminate]|].
        intros i j v Hi Hj. assert (Hj' : (j < length frames)%nat) by (rewrite <- (seq_length (length frames) 0), <- (map_length (fun j => map (sn j) (seq 0 p))); apply nth_error_Some; congruence).
        rewrite (nth_error_map_seq (fun j => map (sn j) (seq 0 p)) _ _ Hj') in Hj. injection Hj as <-. apply nth_error_map_seq. exact Hi. }
    destruct (C122_rows a l f _ _ _ C N T HR) as (rows & E & LR & P). exists rows. split; [exact E|].
    assert (X : forall j fr row, nth_error frames j = Some fr -> nth_error rows j = Some row -> labels_from_frame true a fr = Ok (Some (1%nat, [row]))).
    { intros j fr row Hf Hr. assert (Hj : (j < length frames)%nat) by (apply nth_error_Some; congruence).
      destruct (P j Hj) as (w & Er & M). rewrite Hr in Er. injection Er as ->. pose proof (HF j fr Hf) as HFR.
      destruct (frame_finish a fr (lab j) (sn j) (configured_sane _ _ _ C) N HFR) as (w' & -> & M').
      do 4 f_equal. unfold plain_row. f_equal.
      - apply map_ext. intros k. apply (moved_unique a (lab j)); [exact M'|exact M].
      - apply map_ext_in. intros i Hi. apply in_seq in Hi. unfold sn'. destruct HFR as (_ & _ & HFS). specialize (HFS ltac:(lia)).
        destruct (la_snow_key a); [reflexivity|]. apply HFS. }
    clear - LR X. revert rows LR X. induction frames as [|fr frames IH]; intros [|row rows] LR X; try discriminate; constructor.
    - apply (X 0%nat); reflexivity.
    - apply IH; [cbn in LR; lia|]. intros j fr' row' Hf Hr. apply (X (S j)); assumption.
  Qed.

  (** ** C125: the tensor that is announced *)

  Lemma track_labels_length m : (0 <= m)%Z -> Z.of_nat (length (track_labels m)) = track_params m.
  Proof.
    intros Hm. unfold track_labels, track_params. rewrite app_length. cbn [length].
    destruct (Z.eqb_spec m 0) as [->|H0]; [reflexivity|]. replace (1 <=? m)%Z with true by (symmetry; apply Z.leb_le; lia). cbn [length].
    destruct (Z.eqb_spec m 1) as [->|H1]; [reflexivity|]. replace (1 <? m)%Z with true by (symmetry; apply Z.ltb_lt; lia).
    assert (E : forall s, length (flat_map (fun i => [("cascade_" ++ fmt04 i ++ "_energy")%string; ("cascade_" ++ fmt04 i ++ "_distance")%string]) s) = (2 * length s)%nat).
    { induction s as [|x s IH]; [reflexivity|]. cbn [flat_map app length]. rewrite IH. lia. }
    rewrite E, seq_length. lia.
  Qed.

  Definition bare (a : label_args) (dt : string) (log : value) : tensor :=
    mkTensor "x_parameters" (VList [VNone; VInt (shape_columns a)]) "label" dt (VBool true) VNone (VBool true) (VTuple []) log (VInt (-1)) (VInt 0) [].

  Lemma configured_tensor a l : configure_labels np_has a = Ok l ->
    sane a /\ (la_class a <> SnowSegmentLabels -> exists b, la_shift a = VBool b) /\
    exists dt log, la_precision a = VStr dt /\ np_has dt = true /\ extended_log a = Ok log /\
      tl_list l = [bare a dt (match log with VBool b => VList (repeat (VBool b) (Z.to_nat (shape_columns a))) | v => v end)].
  Proof.
    intros H. split; [exact (configured_sane _ _ _ H)|]. unfold configure_labels in H.
    assert (HS : la_class a <> SnowSegmentLabels -> exists b, la_shift a = VBool b).
    { intros HC. destruct (la_class a); try congruence; destruct (la_shift a); try discriminate; eauto. }
    split; [exact HS|]. destruct (match la_class a with SnowSegmentLabels => _ | _ => _ end) in H; [|discriminate]. cbn [bind] in H.
    destruct (match la_class a with SnowTrackLabels => _ | _ => _ end) in H; [|discriminate]. cbn [bind] in H.
    destruct (extended_log a) as [log|] eqn:EL; [|discriminate]. cbn [bind] in H.
    destruct (la_precision a) as [| | |dt| | |] eqn:EP; try discriminate. exists dt, log. split; [reflexivity|].
    unfold tensor_init in H. cbn in H. destruct (np_has dt) eqn:ED; cbn [negb] in H; [|discriminate]. split; [reflexivity|]. split; [reflexivity|].
    destruct log; unfold tensor_list_init in H; cbn in H; try (change (Pos.to_nat 1) with 1%nat in H; cbn in H); (destruct (la_config_data a); [destruct (tensor_list_eqb _ _); [|discriminate]|]);
      injection H as <-; reflexivity.
  Qed.

  (** The announced number of columns is the number of columns that are loaded. *)
  Theorem C125_columns a l : configure_labels np_has a = Ok l -> NoDup (label_names a) -> (0 <= la_num_snow a)%Z ->
    exists t w, tl_list l = [t] /\ t_name t = "x_parameters"%string /\ t_shape t = VList [VNone; VInt w] /\
      (forall f n rows, Tables f -> labels_from_hdf true a (Some f) = Ok (Some (n, rows)) -> length rows = n /\ Forall (fun row => Z.of_nat (length row) = w) rows) /\
      (forall f n rows, labels_from_frame true a f = Ok (Some (n, rows)) -> length rows = n /\ Forall (fun row => Z.of_nat (length row) = w) rows).
  Proof.
    intros C N HP. destruct (configured_tensor a l C) as (HS & _ & dt & log & _ & _ & _ & E). do 2 eexists. split; [exact E|].
    do 2 (split; [reflexivity|]).
    assert (W : forall lab sn, Z.of_nat (length (plain_row a lab sn)) = shape_columns a).
    { intros lab sn. unfold plain_row. rewrite app_length, !map_length, seq_length, Nat2Z.inj_add. unfold shape_columns, snow_params, sane in *.
      destruct (la_class a) eqn:EC; unfold label_names; rewrite EC; try reflexivity; [lia| |change (Z.of_nat (length segment_labels)) with 9%Z; lia].
      rewrite track_labels_length by (apply HS; reflexivity). lia. }
    split.
    - intros f n rows T H. destruct (C122_loaded a l f n rows C N T H) as (lab & sn & _ & L & P). split; [exact L|].
      apply Forall_forall. intros row Hr. apply In_nth_error in Hr. destruct Hr as (j & Hr).
      destruct (P j) as (w & Er & _); [rewrite <- L; apply nth_error_Some; congruence|]. rewrite Hr in Er. injection Er as ->. apply W.
    - intros f n rows H. destruct (C122_frame a l f C N) as (_ & HI). destruct (HI n rows H) as (-> & lab & sn & HR).
      destruct (frame_finish a f lab sn HS N HR) as (w & E' & _). rewrite H in E'. injection E' as ->. split; [reflexivity|]. repeat constructor. apply W.
  Qed.

  (** A single flag is repeated for the labels of the class but not for the
      additional ones; the systematics parameters are never transformed. *)
  Theorem C125_flags a l b : configure_labels np_has a = Ok l -> la_log a = VBool b ->
    exists t, tl_list l = [t] /\
      t_log t = VList (repeat (VBool b) (length (label_names a) - match la_class a, la_additional a with SnowCascadeLabels, Some x => length x | _, _ => 0 end)
                       ++ repeat (VBool false) (Z.to_nat (snow_params a))).
  Proof.
    intros C EB. destruct (configured_tensor a l C) as (HS & _ & dt & log & _ & _ & EL & E). eexists. split; [exact E|]. cbn [t_log bare].
    unfold extended_log, flag_count, shape_columns, snow_params, label_names, sane in *. rewrite EB in EL. cbn [bind] in EL. destruct (la_class a) eqn:EC.
    - injection EL as <-. reflexivity.
    - injection EL as <-. f_equal. unfold cascade_labels. rewrite app_length. cbn [length]. change (Z.to_nat 7) with 7%nat.
      destruct (la_additional a) as [x|]; cbn [length]; [replace (7 + length x - length x)%nat with 7%nat by lia|]; reflexivity.
    - injection EL as <-. rewrite <- track_labels_length, Nat2Z.id, Nat.sub_0_r by (apply HS; reflexivity). reflexivity.
    - injection EL as <-. reflexivity.
  Qed.

  (** A list of flags is used as it is, however long. *)
  Theorem C125_given a l fl : configure_labels np_has a = Ok l -> la_log a = VList fl ->
    exists t, tl_list l = [t] /\ t_log t = VList (fl ++ repeat (VBool false) (Z.to_nat (snow_params a))).
  Proof.
    intros C EB. destruct (configured_tensor a l C) as (HS & _ & dt & log & _ & _ & EL & E). eexists. split; [exact E|]. cbn [t_log bare].
    unfold extended_log, snow_params in *. rewrite EB in EL. cbn [bind] in EL. destruct (la_class a) eqn:EC; injection EL as <-; try reflexivity.
    cbn [repeat Z.to_nat]. rewrite app_nil_r. reflexivity.
  Qed.

  (** Which arguments are accepted. *)
  Theorem C125_accepted a : la_config_data a = None ->
    ((exists l, configure_labels np_has a = Ok l) <->
     (la_class a <> SnowSegmentLabels -> exists b, la_shift a = VBool b) /\
     (la_class a = SnowTrackLabels -> (0 <= la_cascades a)%Z) /\
     (exists p, la_precision a = VStr p /\ np_has p = true) /\
     (la_class a <> CascadeLabels -> match la_log a with VBool _ | VList _ | VTuple _ => True | _ => False end)).
  Proof.
    intros ED. split.
    - intros (l & H). destruct (configured_tensor a l H) as (HS & HB & dt & log & EP & EN & EL & _). split; [exact HB|]. split; [exact HS|].
      split; [eauto|]. intros HC. unfold extended_log in EL. destruct (la_class a); try congruence; destruct (la_log a); try discriminate; exact I.
    - intros (HB & HS & (dt & EP & EN) & HL). unfold configure_labels.
      assert (E1 : match la_class a, la_shift a with SnowSegmentLabels, _ => Ok tt | _, VBool _ => Ok tt | _, _ => Err TypeError end = Ok tt).
      { destruct (la_class a); try reflexivity; (destruct HB as (b & ->); [discriminate|reflexivity]). }
      rewrite E1. cbn [bind].
      assert (E2 : match la_class a with SnowTrackLabels => if (la_cascades a <? 0)%Z then Err ValueError else Ok tt | _ => Ok tt end = Ok tt).
      { destruct (la_class a); try reflexivity. destruct (Z.ltb_spec (la_cascades a) 0); [specialize (HS eq_refl); lia|reflexivity]. }
      rewrite E2. cbn [bind].
      assert (E3 : exists log, extended_log a = Ok log).
      { unfold extended_log. destruct (la_class a); [eauto| | |]; (assert (HX := HL ltac:(discriminate)); destruct (la_log a); try destruct HX; cbn; eauto). }
      destruct E3 as (log & ->). cbn [bind]. rewrite EP, ED. unfold tensor_init. cbn. rewrite EN. cbn [negb].
      destruct log; unfold tensor_list_init; cbn; try (change (Pos.to_nat 1) with 1%nat; cbn); eauto.
  Qed.

  Theorem C125_rejected a : (la_class a <> SnowSegmentLabels -> (forall b, la_shift a <> VBool b) -> configure_labels np_has a = Err TypeError) /\
    (la_class a = SnowTrackLabels -> (exists b, la_shift a = VBool b) -> (la_cascades a < 0)%Z -> configure_labels np_has a = Err ValueError).
  Proof.
    unfold configure_labels. split.
    - intros HC HB. destruct (la_class a); try congruence; destruct (la_shift a) as [|b| | | | |]; try reflexivity; destruct (HB b); reflexivity.
    - intros EC (b & EB) HC. rewrite EC, EB. cbn [bind]. replace (la_cascades a <? 0)%Z with true by (symmetry; apply Z.ltb_lt; lia). reflexivity.
  Qed.

  (** A list of tensors that is given has to be the one of the module; one with
      another number of columns is refused. *)
  Theorem C125_config_data a l : configure_labels np_has (with_config_data None a) = Ok l -> vwf (la_log a) ->
    configure_labels np_has (with_config_data (Some l) a) = Ok l /\
    forall g t w, tl_list g = [t] -> t_shape t = VList [VNone; VInt w] -> w <> shape_columns a ->
      configure_labels np_has (with_config_data (Some g) a) = Err ValueError.
  Proof.
    intros C V.
    assert (X : forall g, configure_labels np_has (with_config_data (Some g) a) = if tensor_list_eqb g l then Ok l else Err ValueError).
    { intros g. unfold configure_labels in *. cbn [with_config_data la_class la_shift la_cascades la_precision la_config_data] in *.
      destruct (match la_class a with SnowSegmentLabels => _ | _ => _ end) in C |- *; [|discriminate]. cbn [bind] in *.
      destruct (match la_class a with SnowTrackLabels => _ | _ => _ end) in C |- *; [|discriminate]. cbn [bind] in *.
      change (extended_log (with_config_data (Some g) a)) with (extended_log (with_config_data None a)).
      destruct (extended_log (with_config_data None a)) as [log|]; [|discriminate]. cbn [bind] in *.
      change (shape_columns (with_config_data (Some g) a)) with (shape_columns (with_config_data None a)).
      destruct (tensor_init _ _) as [t|]; [|discriminate]. cbn [bind] in *.
      destruct (tensor_list_init [t]) as [m|]; [|discriminate]. cbn [bind] in *. injection C as ->. reflexivity. }
    destruct (configured_tensor _ l C) as (HS & _ & dt & log & _ & _ & EL & E). split.
    - rewrite X. unfold tensor_list_eqb. rewrite E. cbn [list_eqb].
      assert (R : forall log', vwf log' -> tensor_eqb (bare (with_config_data None a) dt log') (bare (with_config_data None a) dt log') = true).
      { intros log' Hl. unfold tensor_eqb. apply deqb_refl. split.
        - unfold dwf. repeat constructor; cbn; intuition discriminate.
        - repeat constructor; cbn; try assumption. }
      rewrite R; [reflexivity|].
      assert (VL : vwf log).
      { unfold extended_log in EL. cbn [la_class la_log with_config_data] in EL.
        assert (VR : forall b k, Forall vwf (repeat (VBool b) k)) by (intros b k; apply Forall_forall; intros x Hx; apply repeat_spec in Hx; subst; constructor).
        destruct (la_class a); [injection EL as <-; exact V| | |]; (destruct (la_log a) as [|b| | |fl|fl|]; cbn [bind] in EL; try discriminate; injection EL as <-; constructor; apply Forall_app; split; try apply VR; inversion V; subst; assumption). }
      destruct log as [|b| | | | |]; try exact VL. constructor. apply Forall_forall. intros x Hx. apply repeat_spec in Hx. subst. constructor.
    - intros g t w EG ES HW. rewrite X. unfold tensor_list_eqb. rewrite E, EG. cbn [list_eqb].
      replace (tensor_eqb t _) with false; [reflexivity|]. symmetry. apply not_true_iff_false. intros HE. unfold tensor_eqb in HE.
      apply deqb_true_iff in HE; [|unfold dwf; cbn; repeat constructor; cbn; intuition discriminate ..].
      destruct HE as (_ & HE). specialize (HE "shape"%string _ _ eq_refl eq_refl). rewrite ES in HE. cbn in HE.
      rewrite andb_true_r in HE. apply Z.eqb_eq in HE. apply HW. exact HE.
  Qed.
End Loading.

(** ** C128: labels and the parameters of the track source *)

Lemma plain_names (format : string -> nat -> string) c a w sn : la_class a = SnowTrackLabels -> num_cascades c = Z.to_nat (la_cascades a) ->
  num_snowstorm c = Z.to_nat (la_num_snow a) -> NoDup (track_names format c) ->
  exists named, indexer (track_names format c) (plain_row a w sn) = Ok named /\ (forall k, In k (track_labels (la_cascades a)) -> dget k named = Some (w k)) /\
    (forall i k, nth_error (skipn (length (track_labels (la_cascades a))) (track_names format c)) i = Some k -> dget k named = Some (sn i)) /\
    (num_snowstorm c <> 0%nat -> last_params (num_snowstorm c) (plain_row a w sn) = map sn (seq 0 (Z.to_nat (la_num_snow a)))).
Proof.
  intros EC E1 E2 N. pose proof (track_names_eq format c _ E1) as EN. pose proof (snow_names_length format c) as LS. rewrite EN in *. set (sys := flat_map _ _) in *.
  unfold plain_row, label_names, snow_params. rewrite EC. set (tl := track_labels (la_cascades a)) in *.
  destruct (proj2 (indexer_width (tl ++ sys) (map w tl ++ map sn (seq 0 (Z.to_nat (la_num_snow a)))))) as (named & HI).
  { rewrite !app_length, !map_length, seq_length. congruence. }
  exists named. split; [exact HI|]. split; [|split].
  - intros k Hk. apply In_nth_error in Hk. destruct Hk as (q & Hq). assert (q < length tl)%nat by (apply nth_error_Some; congruence).
    rewrite (indexer_nth _ _ _ q k HI N) by (rewrite nth_error_app1; assumption). rewrite nth_error_app1 by (rewrite map_length; assumption).
    rewrite nth_error_map, Hq. reflexivity.
  - intros i k Hk. rewrite skipn_app, skipn_all, Nat.sub_diag in Hk. cbn [skipn app] in Hk.
    assert (i < length sys)%nat by (apply nth_error_Some; congruence).
    rewrite (indexer_nth _ _ _ (length tl + i) k HI N) by (rewrite nth_error_app2 by lia; rewrite <- Hk; f_equal; lia).
    rewrite nth_error_app2 by (rewrite map_length; lia). rewrite map_length. replace (length tl + i - length tl)%nat with i by lia.
    apply nth_error_map_seq. congruence.
  - intros H0. unfold last_params. destruct (Nat.eqb_spec (num_snowstorm c) 0); [congruence|]. rewrite app_length, !map_length, seq_length, E2.
    replace (length tl + Z.to_nat (la_num_snow a) - Z.to_nat (la_num_snow a))%nat with (length (map w tl)) by (rewrite map_length; lia).
    rewrite skipn_app, skipn_all, Nat.sub_diag. reflexivity.
Qed.

Section Tracks.
  Variable np_has : string -> bool.
  Variable format : string -> nat -> string.

  (** The track source finds every label under its name, and the systematics
      parameters, in order, under the names that follow. *)
  Theorem C128_named c a l f n lab sn : la_class a = SnowTrackLabels -> configure_labels np_has a = Ok l ->
    num_cascades c = Z.to_nat (la_cascades a) -> num_snowstorm c = Z.to_nat (la_num_snow a) -> NoDup (track_names format c) ->
    Tables f -> Readable a f n lab sn ->
    exists rows, labels_from_hdf true a (Some f) = Ok (Some (n, rows)) /\
      forall j row, nth_error rows j = Some row -> exists named w, indexer (track_names format c) row = Ok named /\ Moved a (fun k => lab k j) w /\
        (forall k, In k (label_names a) -> dget k named = Some (w k)) /\
        forall i k, nth_error (track_names format c) (length (label_names a) + i) = Some k -> dget k named = Some (sn i j).
  Proof.
    intros EC C E1 E2 N T HR. assert (N' : NoDup (label_names a)) by (unfold label_names; rewrite EC; apply track_labels_nodup).
    destruct (C122_rows _ a l f n lab sn C N' T HR) as (rows & E & L & P). exists rows. split; [exact E|]. intros j row Hr.
    destruct (P j) as (w & Er & M); [rewrite <- L; apply nth_error_Some; congruence|]. rewrite Hr in Er. injection Er as ->.
    destruct (plain_names format c a w (fun i => sn i j) EC E1 E2 N) as (named & HI & HK & HS & _). exists named, w. split; [exact HI|]. split; [exact M|].
    unfold label_names. rewrite EC. split; [exact HK|]. intros i k Hk. apply HS. rewrite <- Hk.
    generalize (track_names format c). clear. induction (length (track_labels (la_cascades a))) as [|m IH]; intros [|x s]; cbn; try reflexivity; [destruct i; reflexivity|apply IH].
  Qed.

  Lemma split_ok c row named : indexer (track_names format c) row = Ok named -> exists d, track_split c named row = Ok d.
  Proof. apply track_split_total. Qed.

  (** ** C123: shifted labels and the sub-sources of a track *)

  Lemma flight_between p t q t1 r t2 ze az s s' : Flight p t q t1 ze az s -> Flight p t r t2 ze az (s + s') -> Flight q t1 r t2 ze az s'.
  Proof.
    intros H1 H2. destruct q as [[qx qy] qz].
    destruct (along qx qy qz t1 ze az s') as [[[ux uy] uz] ut] eqn:EA. apply along_flight in EA.
    pose proof (flight_trans _ _ _ _ _ _ _ _ _ _ H1 EA) as H3. destruct (flight_unique _ _ _ _ _ _ _ _ _ H2 H3) as (-> & ->). exact EA.
  Qed.

  Lemma shift_core c m v w tail named named' row row' d d' : num_cascades c = Z.to_nat m -> TrackMoved (num_cascades c) v w ->
    (forall k, In k (track_labels m) -> dget k named = Some (v k)) -> (forall k, In k (track_labels m) -> dget k named' = Some (w k)) ->
    last_params (num_snowstorm c) row = tail -> last_params (num_snowstorm c) row' = tail ->
    track_split c named row = Ok d -> track_split c named' row' = Ok d' ->
    (exists track, dget "track" d = Some track /\ dget "track" d' = Some track) /\
    forall i, (i < num_cascades c)%nat -> exists x y z ze az e t tail x' y' z' t',
      dget (cascade_name i) d = Some ([x; y; z; ze; az; e; t] ++ tail) /\
      dget (cascade_name i) d' = Some ([x'; y'; z'; ze; az; e; t'] ++ tail) /\
      Flight (x, y, z) t (x', y', z') t' ze az (depth e).
  Proof.
    intros E1 M G G' HL HL' ED ED'.
    assert (B : forall k, In k ["zenith"; "azimuth"; "track_anchor_x"; "track_anchor_y"; "track_anchor_z"; "track_anchor_time"; "track_energy";
      "track_distance_start"; "track_distance_end"; "track_stochasticity"]%string -> In k (track_labels m)) by (intros k Hk; apply in_or_app; left; exact Hk).
    destruct (track_split_ok _ _ _ _ ED) as (x & y & z & ze & az & t & ds & de & en & st & px & py & pz & pt & D1 & D2 & D3 & D4 & D5 & D6 & D7 & D8 & D9 & D10 & DA & DT & DC0 & DC).
    destruct (track_split_ok _ _ _ _ ED') as (x' & y' & z' & ze' & az' & t' & ds' & de' & en' & st' & px' & py' & pz' & pt' & D1' & D2' & D3' & D4' & D5' & D6' & D7' & D8' & D9' & D10' & DA' & DT' & DC0' & DC').
    rewrite G in D1, D2, D3, D4, D5, D6, D7, D8, D9, D10 by (apply B; cbn; tauto).
    rewrite G' in D1', D2', D3', D4', D5', D6', D7', D8', D9', D10' by (apply B; cbn; tauto).
    injection D1 as <-. injection D2 as <-. injection D3 as <-. injection D4 as <-. injection D5 as <-. injection D6 as <-. injection D7 as <-. injection D8 as <-. injection D9 as <-. injection D10 as <-.
    injection D1' as <-. injection D2' as <-. injection D3' as <-. injection D4' as <-. injection D5' as <-. injection D6' as <-. injection D7' as <-. injection D8' as <-. injection D9' as <-. injection D10' as <-.
    rewrite HL in DT, DC0, DC. rewrite HL' in DT', DC0', DC'.
    destruct (num_cascades c) as [|nc] eqn:ENC.
    - cbn [TrackMoved] in M. split; [|intros i Hi; lia]. repeat rewrite M in DA'. repeat rewrite M in DT'.
      rewrite DA in DA'. injection DA' as <- <- <- <-. rewrite DT, DT'. eauto.
    - unfold TrackMoved in M. destruct M as (MF & MS & ME & MD & MO).
      assert (K : forall k, In k ["zenith"; "azimuth"; "track_energy"; "track_stochasticity"; "cascade_0000_energy"]%string \/ (exists i, k = cascade_label i "energy") -> w k = v k).
      { intros k Hk. apply MO.
        - intros Hi. destruct Hk as [Hk|(i & ->)].
          + repeat (destruct Hk as [<-|Hk]; [cbn in Hi; intuition discriminate|]). exact Hk.
          + unfold cascade_label in Hi. cbn [In append] in Hi. intuition discriminate.
        - intros i Hi ->. destruct Hk as [Hk|(i' & Hk)].
          { unfold cascade_label in Hk. cbn [In append] in Hk. do 4 (destruct Hk as [Hk|Hk]; [discriminate Hk|]). destruct Hk as [Hk|[]].
            exact (energy_not_distance 0 i Hk). } exact (energy_not_distance _ _ (eq_sym Hk)). }
      set (D := depth (v "cascade_0000_energy"%string)) in *. apply along_flight in DA, DA'. rewrite MS, (K "zenith"%string), (K "azimuth"%string) in DA' by (left; cbn; tauto).
      pose proof (flight_trans _ _ _ _ _ _ _ _ _ _ MF DA') as F1. replace (D + (v "track_distance_start"%string - D)) with (v "track_distance_start"%string) in F1 by lra.
      destruct (flight_unique _ _ _ _ _ _ _ _ _ DA F1) as (EP & <-). injection EP as <- <- <-.
      split.
      + eexists. split; [exact DT|]. rewrite DT', ME, MS, (K "zenith"%string), (K "azimuth"%string), (K "track_energy"%string), (K "track_stochasticity"%string) by (left; cbn; tauto). do 3 f_equal.
        replace (v "track_distance_end"%string - D - (v "track_distance_start"%string - D)) with (v "track_distance_end"%string - v "track_distance_start"%string) by lra. reflexivity.
      + intros i Hi. destruct i as [|i].
        * destruct (DC0 ltac:(lia)) as (e & He & Hc). destruct (DC0' ltac:(lia)) as (e' & He' & Hc').
          assert (HI : In "cascade_0000_energy"%string (track_labels m)) by (apply track_labels_in; right; left; split; [lia|reflexivity]).
          rewrite G in He by exact HI. rewrite G' in He' by exact HI. injection He as <-. injection He' as <-.
          rewrite (K "zenith"%string), (K "azimuth"%string), (K "cascade_0000_energy"%string) in Hc' by (left; cbn; tauto). do 12 eexists. split; [exact Hc|]. split; [exact Hc'|]. exact MF.
        * destruct (DC (S i) ltac:(lia)) as (dist & e & qx & qy & qz & qt & Hd & He & HA & Hc).
          destruct (DC' (S i) ltac:(lia)) as (dist' & e' & qx' & qy' & qz' & qt' & Hd' & He' & HA' & Hc').
          assert (N1 : (cascade_name (S i) ++ "_distance")%string = cascade_label (S i) "distance") by reflexivity.
          assert (N2 : (cascade_name (S i) ++ "_energy")%string = cascade_label (S i) "energy") by reflexivity.
          rewrite N1 in Hd, Hd'. rewrite N2 in He, He'.
          assert (I1 : In (cascade_label (S i) "distance") (track_labels m)) by (apply track_labels_in; right; right; exists (S i); split; [lia|right; reflexivity]).
          assert (I2 : In (cascade_label (S i) "energy") (track_labels m)) by (apply track_labels_in; right; right; exists (S i); split; [lia|left; reflexivity]).
          rewrite G in Hd, He by assumption. rewrite G' in Hd', He' by assumption. injection Hd as <-. injection He as <-. injection Hd' as <-. injection He' as <-.
          rewrite (K "zenith"%string), (K "azimuth"%string) in Hc' by (left; cbn; tauto). rewrite (K (cascade_label (S i) "energy")) in Hc' by (right; eauto). do 12 eexists. split; [exact Hc|]. split; [exact Hc'|].
          apply along_flight in HA, HA'. rewrite MD, (K "zenith"%string), (K "azimuth"%string) in HA' by (lia || (left; cbn; tauto)).
          eapply flight_between; [exact HA|]. pose proof (flight_trans _ _ _ _ _ _ _ _ _ _ MF HA') as F2.
          replace (v (cascade_label (S i) "distance") + depth (v (cascade_label (S i) "energy")))
            with (D + (v (cascade_label (S i) "distance") - D + depth (v (cascade_label (S i) "energy")))) by lra. exact F2.
  Qed.

  (** Shifting moves every cascade of a track to its own maximum and leaves
      everything else that the sub-sources get as it was. *)
  Theorem C123_shift c a f n n' rows rows' : la_class a = SnowTrackLabels -> (0 <= la_cascades a)%Z ->
    num_cascades c = Z.to_nat (la_cascades a) -> num_snowstorm c = Z.to_nat (la_num_snow a) -> (0 < la_num_snow a)%Z -> NoDup (track_names format c) ->
    Tables f -> labels_from_hdf true (with_shift false a) (Some f) = Ok (Some (n, rows)) ->
    labels_from_hdf true (with_shift true a) (Some f) = Ok (Some (n', rows')) ->
    n = n' /\ length rows = length rows' /\
    forall j row row', nth_error rows j = Some row -> nth_error rows' j = Some row' ->
      exists named named' d d', indexer (track_names format c) row = Ok named /\ indexer (track_names format c) row' = Ok named' /\
        track_split c named row = Ok d /\ track_split c named' row' = Ok d' /\
        (exists track, dget "track" d = Some track /\ dget "track" d' = Some track) /\
        forall i, (i < num_cascades c)%nat -> exists x y z ze az e t tail x' y' z' t',
          dget (cascade_name i) d = Some ([x; y; z; ze; az; e; t] ++ tail) /\
          dget (cascade_name i) d' = Some ([x'; y'; z'; ze; az; e; t'] ++ tail) /\
          Flight (x, y, z) t (x', y', z') t' ze az (depth e).
  Proof.
    intros EC HC E1 E2 HP N T H H'. set (a0 := with_shift false a) in *. set (a1 := with_shift true a) in *.
    assert (S0 : sane a0) by (intros _; exact HC). assert (S1 : sane a1) by (intros _; exact HC).
    assert (EC0 : la_class a0 = SnowTrackLabels) by exact EC. assert (EC1 : la_class a1 = SnowTrackLabels) by exact EC.
    assert (N0 : NoDup (label_names a0)) by (unfold label_names; rewrite EC0; apply track_labels_nodup).
    assert (N1 : NoDup (label_names a1)) by (unfold label_names; rewrite EC1; apply track_labels_nodup).
    unfold labels_from_hdf in H, H'. cbn [negb] in H, H'.
    destruct (hdf_columns a0 f) as [cols|] eqn:E; [|discriminate]. destruct (hdf_columns_inv _ _ _ T E) as (m & lab & sn & HR0).
    assert (HR1 : Readable a1 f m lab sn) by exact HR0.
    rewrite (hdf_columns_ok _ _ _ _ _ T HR0) in E. injection E as <-. rewrite (hdf_columns_ok _ _ _ _ _ T HR1) in H'.
    destruct (finish_ok a0 m lab sn S0 N0) as (lab0 & F0 & M0). rewrite H in F0. injection F0 as -> ->.
    destruct (finish_ok a1 m lab sn S1 N1) as (lab1 & F1 & M1). rewrite H' in F1. injection F1 as -> ->.
    split; [reflexivity|]. split; [rewrite !map_length; reflexivity|]. intros j row row' Hr Hr'.
    assert (Hj : (j < m)%nat) by (rewrite <- (seq_length m 0), <- (map_length (fun j => plain_row a0 (fun k => lab0 k j) (fun i => sn i j))); apply nth_error_Some; congruence).
    rewrite nth_error_map_seq in Hr by exact Hj. rewrite nth_error_map_seq in Hr' by exact Hj. injection Hr as <-. injection Hr' as <-.
    destruct (plain_names format c a0 (fun k => lab0 k j) (fun i => sn i j) EC0 E1 E2 N) as (named & HI & HK & _ & HL).
    destruct (plain_names format c a1 (fun k => lab1 k j) (fun i => sn i j) EC1 E1 E2 N) as (named' & HI' & HK' & _ & HL').
    destruct (split_ok _ _ _ HI) as (d & ED). destruct (split_ok _ _ _ HI') as (d' & ED'). exists named, named', d, d'.
    do 4 (split; [assumption|]).
    specialize (M0 j). specialize (M1 j). unfold Moved in M0, M1. cbn [a0 a1 la_shift with_shift] in M0, M1. rewrite EC1 in M1. change (la_cascades a1) with (la_cascades a) in M1.
    eapply (shift_core c (la_cascades a) (fun k => lab k j) (fun k => lab1 k j)); [exact E1|rewrite E1; exact M1| |exact HK'|apply HL; lia|apply HL'; lia|exact ED|exact ED'].
    intros k Hk. rewrite (HK k Hk). f_equal. apply M0.
  Qed.

  (** ** C128: segments are the tracks of the track source *)

  (** The row of a segment is what the track source hands to its "track"
      source. *)
  Theorem C128_segment c a f n n' rows rows' : num_cascades c = Z.to_nat (la_cascades a) -> num_snowstorm c = Z.to_nat (la_num_snow a) -> (0 < la_num_snow a)%Z ->
    (0 <= la_cascades a)%Z -> NoDup (track_names format c) -> Tables f ->
    labels_from_hdf true (with_shift false (with_class SnowTrackLabels a)) (Some f) = Ok (Some (n, rows)) ->
    labels_from_hdf true (with_class SnowSegmentLabels a) (Some f) = Ok (Some (n', rows')) ->
    n = n' /\ length rows = length rows' /\
    forall j row row', nth_error rows j = Some row -> nth_error rows' j = Some row' ->
      exists named d, indexer (track_names format c) row = Ok named /\ track_split c named row = Ok d /\ dget "track" d = Some row'.
  Proof.
    intros E1 E2 HP HC N T H H'. set (a0 := with_shift false (with_class SnowTrackLabels a)) in *. set (a1 := with_class SnowSegmentLabels a) in *.
    assert (S0 : sane a0) by (intros _; exact HC). assert (S1 : sane a1) by (intros ?; discriminate).
    assert (N0 : NoDup (label_names a0)) by apply track_labels_nodup.
    assert (N1 : NoDup (label_names a1)) by (cbn; repeat constructor; cbn; intuition discriminate).
    unfold labels_from_hdf in H, H'. cbn [negb] in H, H'.
    destruct (hdf_columns a0 f) as [cols|] eqn:E; [|discriminate]. destruct (hdf_columns_inv _ _ _ T E) as (m & lab & sn & HR0).
    rewrite (hdf_columns_ok _ _ _ _ _ T HR0) in E. injection E as <-.
    destruct (hdf_columns a1 f) as [cols|] eqn:E; [|discriminate]. destruct (hdf_columns_inv _ _ _ T E) as (m' & lab' & sn' & (_ & HSeg & _)). specialize (HSeg eq_refl).
    assert (HB : forall k, In k (label_names a1) \/ k = "track_distance_start"%string -> In k (label_names a0)).
    { intros k Hk. apply in_or_app. left. cbn in *. intuition. }
    assert (HR1 : Readable a1 f m lab sn).
    { destruct HR0 as ((t & ET & HL) & _ & HS). split; [|split; [intros _; exact HSeg|exact HS]]. exists t. split; [exact ET|]. intros k Hk. apply HL, HB. left. exact Hk. }
    assert (HZ : forall j, (j < m)%nat -> lab "track_distance_start"%string j = 0).
    { intros j Hj. destruct HSeg as (t & st & ET & EC & HF). destruct HR0 as ((t' & ET' & HL) & _). change (la_label_key a0) with (la_label_key a1) in ET'. rewrite ET in ET'. injection ET' as <-.
      destruct (HL "track_distance_start"%string) as (st' & EC' & _ & HV); [apply HB; right; reflexivity|]. rewrite EC in EC'. injection EC' as <-.
      rewrite Forall_forall in HF. apply HF. eapply nth_error_In. apply HV. exact Hj. }
    rewrite (hdf_columns_ok _ _ _ _ _ T HR1) in E. injection E as <-.
    destruct (finish_ok a0 m lab sn S0 N0) as (lab0 & F0 & M0). rewrite H in F0. injection F0 as -> ->.
    destruct (finish_ok a1 m lab sn S1 N1) as (lab1 & F1 & M1). rewrite H' in F1. injection F1 as -> ->.
    split; [reflexivity|]. split; [rewrite !map_length; reflexivity|]. intros j row row' Hr Hr'.
    assert (Hj : (j < m)%nat) by (rewrite <- (seq_length m 0), <- (map_length (fun j => plain_row a0 (fun k => lab0 k j) (fun i => sn i j))); apply nth_error_Some; congruence).
    rewrite nth_error_map_seq in Hr by exact Hj. rewrite nth_error_map_seq in Hr' by exact Hj. injection Hr as <-. injection Hr' as <-.
    destruct (plain_names format c a0 (fun k => lab0 k j) (fun i => sn i j) eq_refl E1 E2 N) as (named & HI & HK & _ & HL).
    destruct (split_ok _ _ _ HI) as (d & ED). exists named, d. do 2 (split; [assumption|]).
    destruct (track_split_ok _ _ _ _ ED) as (x & y & z & ze & az & t & ds & de & en & st & px & py & pz & pt & D1 & D2 & D3 & D4 & D5 & D6 & D7 & D8 & D9 & D10 & DA & DT & _ & _).
    specialize (M0 j). unfold Moved in M0. cbn [a0 la_shift with_shift with_class la_class] in M0.
    assert (M1' : forall k, lab1 k j = lab k j).
    { specialize (M1 j). unfold Moved in M1. cbn [a1 la_class with_class] in M1. destruct (la_shift a1) as [|[|]| | | | |]; exact M1. }
    assert (G : forall k, In k (label_names a1) \/ k = "track_distance_start"%string -> dget k named = Some (lab1 k j)).
    { intros k Hk. rewrite (HK k (HB k Hk)), M1'. f_equal. apply M0. }
    rewrite G in D1, D2, D3, D4, D5, D6, D7, D8, D9, D10 by (cbn; tauto).
    injection D1 as <-. injection D2 as <-. injection D3 as <-. injection D4 as <-. injection D5 as <-. injection D6 as <-. injection D7 as <-. injection D8 as <-. injection D9 as <-. injection D10 as <-.
    rewrite DT, HL by lia. rewrite (M1' "track_distance_start"%string), HZ in DA by exact Hj. rewrite (M1' "track_distance_start"%string), HZ by exact Hj.
    unfold along in DA. destruct (direction _ _) as [[dx dy] dz]. injection DA as <- <- <- <-.
    unfold plain_row. cbn [label_names a1 la_class with_class segment_labels map app]. unfold c_light. f_equal. repeat f_equal; lra.
  Qed.
End Tracks.

(** ** Refuted expectations and examples *)

Definition ex_args (c : label_class) (log : value) (more : option (list string)) (snow : Z) : label_args :=
  {| la_class := c; la_config_data := None; la_shift := VBool false; la_log := log; la_precision := VStr "float32"; la_label_key := "labels";
     la_additional := more; la_cascades := 2%Z; la_snow_key := Some "snow"%string; la_num_snow := snow |}.

(** A file with two events whose label [k] is [g k 0] and [g k 1]. *)
Definition ex_table (names : list string) (g : string -> nat -> R) : table :=
  {| columns := map (fun k => (k, [g k 0%nat; g k 1%nat])) names; vector_index := None |}.
Definition ex_snow (items : list R) (index : list Z) : table := {| columns := [("item"%string, items)]; vector_index := Some index |}.
Definition ex_file names g items index : dict table := [("labels"%string, ex_table names g); ("snow"%string, ex_snow items index)].

Lemma ex_get names g k : In k names -> dget k (columns (ex_table names g)) = Some [g k 0%nat; g k 1%nat].
Proof.
  cbn. induction names as [|x names IH]; intros H; [destruct H|]. cbn. destruct (String.eqb_spec k x) as [->|Hx]; [reflexivity|].
  apply IH. destruct H; [congruence|assumption].
Qed.

Lemma ex_get_in names g k c : dget k (columns (ex_table names g)) = Some c -> c = [g k 0%nat; g k 1%nat].
Proof.
  cbn. induction names as [|x names IH]; intros H; [discriminate H|]. cbn in H. destruct (String.eqb_spec k x) as [->|Hx]; [injection H as <-; reflexivity|].
  apply IH. exact H.
Qed.

Lemma ex_tables names g items index : length items = length index -> Tables (ex_file names g items index).
Proof.
  intros E k t H. unfold ex_file in H. cbn [dget] in H. destruct (String.eqb k "labels").
  - injection H as <-. exists 2%nat. split; [|intros i Hi; discriminate Hi]. intros k' c Hc. apply ex_get_in in Hc. subst. reflexivity.
  - destruct (String.eqb k "snow"); [|discriminate]. injection H as <-. exists (length items). split.
    + intros k' c Hc. cbn in Hc. destruct (String.eqb k' "item"); [|discriminate]. injection Hc as <-. reflexivity.
    + intros i Hi. injection Hi as <-. symmetry. exact E.
Qed.

Lemma ex_labels names names' g items index : incl names' names -> Labels (ex_file names g items index) "labels" names' 2 g.
Proof.
  intros HI. exists (ex_table names g). split; [reflexivity|]. intros k Hk. eexists. split; [apply ex_get, HI; exact Hk|]. split; [reflexivity|].
  intros [|[|j]] Hj; [reflexivity|reflexivity|lia].
Qed.

(** C124: only the numbers of rows are compared: parameters whose rows are not
    those of one event after the other are attributed in the order in which
    they are found. *)
Theorem C124_order_refuted : exists np_has a l f t rows, configure_labels np_has a = Ok l /\ Tables f /\
  la_snow_key a = Some "snow"%string /\ dget "snow" f = Some t /\ (forall vectors, ~ Grouped t (Z.to_nat (snow_params a)) vectors) /\
  labels_from_hdf true a (Some f) = Ok (Some (2%nat, rows)).
Proof.
  set (a := ex_args SnowCascadeLabels (VBool false) None 2). set (f := ex_file (label_names a) (fun _ _ => 0) [1; 2; 3; 4] [0; 0; 1; 1]%Z).
  assert (T : Tables f) by (apply ex_tables; reflexivity).
  destruct (proj2 (C125_accepted (fun _ => true) a eq_refl)) as (l & C).
  { split; [intros _; exists false; reflexivity|]. split; [discriminate|]. split; [exists "float32"%string; auto|]. intros _. exact I. }
  destruct (C124_counts (fun _ => true) a l f 2 (fun _ _ => 0) "snow" (ex_snow [1; 2; 3; 4] [0; 0; 1; 1]%Z) [1; 2; 3; 4] [0; 0; 1; 1]%Z C) as ((_ & X) & _); try reflexivity; try assumption.
  - cbn. repeat constructor; cbn; intuition discriminate.
  - apply ex_labels. apply incl_refl.
  - discriminate.
  - destruct X as (rows & E).
    { split; [lia|]. split.
      - intros i Hi. cbn in Hi |- *. lia.
      - intros i Hi. change (snow_params a) with 2%Z in Hi. assert (i = 0 \/ i = 1)%Z as [ -> | -> ] by lia; reflexivity. }
    exists (fun _ => true), a, l, f. do 2 eexists. split; [exact C|]. split; [exact T|]. do 2 (split; [reflexivity|]). split; [|exact E].
    intros vectors (_ & E2 & HF). cbn [vector_index ex_snow] in E2. injection E2 as E2. change (Z.to_nat (snow_params a)) with 2%nat in *.
    destruct vectors as [|v vectors]; cbn in E2; discriminate E2.
Qed.

(** C125: with additional labels a single flag does not give one flag per
    column. *)
Theorem C125_flags_refuted : exists np_has a l t w fl, configure_labels np_has a = Ok l /\ la_log a = VBool true /\ tl_list l = [t] /\
  t_shape t = VList [VNone; VInt w] /\ t_log t = VList fl /\ (Z.of_nat (length fl) < w)%Z.
Proof.
  set (a := ex_args SnowCascadeLabels (VBool true) (Some ["length"%string]) 1).
  exists (fun _ => true), a. do 4 eexists. split; [reflexivity|]. split; [reflexivity|]. cbn. split; [reflexivity|]. do 2 (split; [reflexivity|]). vm_compute. reflexivity.
Qed.

(** C125: nor is a list of flags checked, nor the number of systematics
    parameters. *)
Theorem C125_unchecked_refuted :
  (exists np_has a l t w fl, configure_labels np_has a = Ok l /\ la_additional a = None /\ tl_list l = [t] /\ t_shape t = VList [VNone; VInt w] /\
     t_log t = VList fl /\ Z.of_nat (length fl) <> w) /\
  (exists np_has a l t w f n rows, configure_labels np_has a = Ok l /\ tl_list l = [t] /\ t_shape t = VList [VNone; VInt w] /\ Tables f /\
     labels_from_hdf true a (Some f) = Ok (Some (n, rows)) /\ exists row, In row rows /\ Z.of_nat (length row) <> w).
Proof.
  split.
  - exists (fun _ => true), (ex_args SnowSegmentLabels (VList [VBool true]) None 0). do 4 eexists. split; [reflexivity|]. split; [reflexivity|]. cbn.
    split; [reflexivity|]. do 2 (split; [reflexivity|]). vm_compute. discriminate.
  - set (a := ex_args SnowCascadeLabels (VBool true) None (-1)). set (f := ex_file (label_names a) (fun _ _ => 0) [] []).
    assert (T : Tables f) by (apply ex_tables; reflexivity).
    assert (HC : exists l, configure_labels (fun _ => true) a = Ok l).
    { apply C125_accepted; [reflexivity|]. split; [intros _; exists false; reflexivity|]. split; [discriminate|]. split; [exists "float32"%string; auto|]. intros _. exact I. }
    destruct HC as (l & C). destruct (configured_tensor _ a l C) as (_ & _ & dt & log & _ & _ & _ & E).
    destruct (C122_rows (fun _ => true) a l f 2 (fun _ _ => 0) (fun _ _ => 0) C) as (rows & E' & L & P).
    + cbn. repeat constructor; cbn; intuition discriminate.
    + exact T.
    + split; [apply ex_labels, incl_refl|]. split; [discriminate|]. cbn. lia.
    + exists (fun _ => true), a, l. do 5 eexists. split; [exact C|]. split; [exact E|]. split; [reflexivity|]. split; [exact T|]. split; [exact E'|].
      destruct (P 0%nat ltac:(lia)) as (w & Er & _). eexists. split; [eapply nth_error_In; exact Er|]. cbn. lia.
Qed.

(** Two events with two cascades each, read as tracks, shifted and not, and as
    segments. *)
Example ex_tracks g : (forall j, g "track_distance_start"%string j = 0) ->
  let f := ex_file (track_labels 2) g [7; 8] [0; 0]%Z in
  Tables f /\
  (forall b, exists rows, labels_from_hdf true (with_shift b (ex_args SnowTrackLabels (VBool true) None 1)) (Some f) = Ok (Some (2%nat, rows))) /\
  exists rows, labels_from_hdf true (ex_args SnowSegmentLabels (VBool true) None 1) (Some f) = Ok (Some (2%nat, rows)).
Proof.
  intros HZ f. assert (T : Tables f) by (apply ex_tables; reflexivity). split; [exact T|].
  assert (SN : Snow f (Some "snow"%string) 1 2 (fun _ j => nth j [7; 8] 0)).
  { exists (ex_snow [7; 8] [0; 0]%Z), [7; 8], [0; 0]%Z. do 3 (split; [reflexivity|]). split; [discriminate|]. split; [cbn; lia|].
    intros i Hi. replace i with 0%nat by lia. split; [reflexivity|]. intros [|[|j]] Hj; [exists 0%nat|exists 1%nat|lia]; repeat split. }
  split.
  - intros b. set (a := with_shift b _). destruct (proj2 (C125_accepted (fun _ => true) a eq_refl)) as (l & C).
    { split; [intros _; exists b; reflexivity|]. split; [intros _; cbn; lia|]. split; [exists "float32"%string; auto|]. intros _. exact I. }
    destruct (C122_rows (fun _ => true) a l f 2 g (fun _ j => nth j [7; 8] 0) C) as (rows & E & _); [apply track_labels_nodup|exact T| |eauto].
    split; [apply ex_labels, incl_refl|]. split; [discriminate|]. intros _. exact SN.
  - set (a := ex_args _ _ _ _). destruct (proj2 (C125_accepted (fun _ => true) a eq_refl)) as (l & C).
    { split; [intros H; destruct H; reflexivity|]. split; [discriminate|]. split; [exists "float32"%string; auto|]. intros _. exact I. }
    destruct (C122_rows (fun _ => true) a l f 2 g (fun _ j => nth j [7; 8] 0) C) as (rows & E & _); [cbn; repeat constructor; cbn; intuition discriminate|exact T| |eauto].
    split; [apply ex_labels; intros k Hk; apply in_or_app; left; cbn in *; tauto|]. split; [|intros _; exact SN].
    intros _. eexists. exists [0; 0]. split; [reflexivity|]. split; [|repeat constructor].
    rewrite ex_get by (apply in_or_app; left; cbn; tauto). rewrite !HZ. reflexivity.
Qed.

(** The names of the source: one cascade energy more and one systematics
    parameter. *)
Example ex_names : let c := {| num_cascades := 2; snowstorm := [("scale"%string, 1%nat)] |} in
  NoDup (track_names (fun s _ => s) c) /\ num_snowstorm c = Z.to_nat 1 /\ num_cascades c = Z.to_nat 2.
Proof. cbn. split; [|split; reflexivity]. repeat constructor; cbn; intuition discriminate. Qed.

(** A frame and the file with two events, one of which is in the frame. *)
Example ex_frame g : let a := ex_args SnowCascadeLabels (VBool true) (Some ["length"%string]) 2 in
  let fr j := [("labels"%string, LMap (map (fun k => (k, g k j)) (label_names a))); ("snow"%string, LVector [1 + INR j; 2])] in
  let sn := fun j i => nth i [1 + INR j; 2] 0 in
  (forall j, FrameReadable a (fr j) (fun k => g k j) (sn j)) /\
  let f := ex_file (label_names a) g [1 + INR 0; 2; 1 + INR 1; 2] [0; 1; 0; 1]%Z in
  Tables f /\ Together a f [fr 0%nat; fr 1%nat] (fun j k => g k j) sn.
Proof.
  intros a fr sn.
  assert (FR : forall j, FrameReadable a (fr j) (fun k => g k j) (sn j)).
  { intros j. split; [|split; [discriminate|]].
    - eexists. split; [reflexivity|]. intros k Hk. cbn in Hk. repeat (destruct Hk as [<-|Hk]; [reflexivity|]). destruct Hk.
    - intros _. exists [1 + INR j; 2]. split; [reflexivity|]. split; [reflexivity|]. intros [|[|i]] Hi; [reflexivity|reflexivity|cbn in Hi; lia]. }
  split; [exact FR|]. intros f. split; [apply ex_tables; reflexivity|]. split; [|split].
  - intros [|[|j]] x Hx; cbn in Hx; [injection Hx as <-; apply FR ..|destruct j; discriminate].
  - eexists. split; [reflexivity|]. split; [|discriminate]. intros k Hk. rewrite ex_get by exact Hk. reflexivity.
  - intros k _ [= <-]. eexists. split; [reflexivity|]. split; [reflexivity|]. split; [reflexivity|]. repeat constructor.
Qed.
Print Assumptions C122_rows.
Print Assumptions C122_loaded.
Print Assumptions C122_frame.
Print Assumptions C126_total.
Print Assumptions C126_frame_total.
Print Assumptions C126_one_event.
Print Assumptions C126_errors.
Print Assumptions C124_grouped.
Print Assumptions C124_counts.
Print Assumptions C124_no_events.
Print Assumptions C127_together.
Print Assumptions C125_columns.
Print Assumptions C125_flags.
Print Assumptions C125_given.
Print Assumptions C125_accepted.
Print Assumptions C125_rejected.
Print Assumptions C125_config_data.
Print Assumptions C128_named.
Print Assumptions C123_shift.
Print Assumptions C128_segment.
Print Assumptions C124_order_refuted.
Print Assumptions C125_flags_refuted.
Print Assumptions C125_unchecked_refuted.
