(** Property theorems C154-C159: the data handler. *)
From Verif Require Import Py PyFacts M_Tensor S_Tensor L_Tensor T_Tensor M_Batch S_Batch T_Batch
  M_Handler S_Handler L_Handler.

Section Handler.
Variable V : Type.
Variable np_shape : tdata V -> option (list Z).
Variable read : part -> string -> result (answer V).
Variable fmask : string -> nat -> batch V -> result (list bool).

(** ** C154: what is combined *)

(** Data that is returned is made of what the modules delivered: the entry of
    every tensor is the one its own module has for it, the numbers of events
    agree, and the filter of this method was asked. *)
Theorem C154_combined : forall h m n b, Consistent h -> Typed h ->
  get_data V read fmask h m = Ok (Some (n, b)) ->
  exists f g rs n0 raw mask, Calls m f g /\ (forall p, read p f = Ok (rs p)) /\
    Combined V h rs raw /\
    (forall p, Has h p -> fst (rs p) = Some n0 \/ fst (rs p) = None) /\
    (exists p, Has h p /\ fst (rs p) = Some n0) /\
    (forall p, ~ Missing V h rs p) /\
    fmask g n0 raw = Ok mask /\ n <> 0 /\
    (Forall (fun x => x = true) mask -> n = n0 /\ b = raw) /\
    (~ Forall (fun x => x = true) mask -> length mask = n0 /\
       exists kinds, Forall2 (KindOf h) (tl_list (h_tensors h)) kinds /\
         (KindsOk kinds -> DataOk V kinds n0 raw ->
          n = length (positions mask) /\ FilteredTo V kinds mask raw b)).
Proof.
  intros h m n b HC HT H. unfold get_data in H. destruct (read_name m) as [[f g]|] eqn:EN; [|discriminate].
  apply calls_iff in EN. apply bind_ok in H. destruct H as (rs & Hrs & H).
  destruct (found_problem V h rs) eqn:EP; [discriminate|].
  apply bind_ok in H. destruct H as ([num raw] & Hc & H). cbn [fst snd] in H. destruct num as [n0|]; [|discriminate].
  apply bind_ok in H. destruct H as (mask & Hm & H). apply bind_ok in H. destruct H as ([n1 b1] & Hf & H).
  cbn [fst] in H. destruct (Nat.eqb n1 0) eqn:E0; [discriminate|]. apply Nat.eqb_neq in E0. inversion H; subst n1 b1. clear H.
  apply combine_inv in Hc.
  2:{ intros t Ht. destruct (tensor_part h t HC HT Ht) as (p & _ & Hp). eauto. }
  destruct Hc as (Hb & _ & He & Hn). cbn [app] in Hb.
  exists f, g, rs, n0, raw, mask. split; [exact EN|]. split; [exact (read_all_ok V read f rs Hrs)|].
  split. { rewrite Hb. apply pick_combined; [exact HC|exact HT|]. intros t p Ht Ex Hp. apply (He t p Ht Ex Hp). }
  split. { intros p (t & Ht & Ex). apply (He t p); [apply in_tensors; eauto|exact Ex|]. apply (part_unique h); assumption. }
  split.
  { destruct (Hn n0 eq_refl) as [|(t & p & Ht & Ex & Hp & E)]; [discriminate|]. exists p. split; [|exact E].
    destruct (tensor_part h t HC HT Ht) as (q & Hq & Hp'). exists t. split; [|exact Ex].
    assert (p = q) by congruence. subst q. exact Hq. }
  split. { intros p HM. assert (found_problem V h rs = true) by (apply found_problem_iff; eauto). congruence. }
  split; [exact Hm|]. split; [exact E0|]. split.
  - intros HF. rewrite Forall_forall in HF.
    assert (E : forallb (fun b0 : bool => b0) mask = true) by (apply forallb_forall; intros x Hx; rewrite (HF x Hx); reflexivity).
    rewrite E in Hf. inversion Hf; subst. auto.
  - intros HF. destruct (forallb (fun b0 : bool => b0) mask) eqn:E.
    { exfalso. apply HF. rewrite forallb_forall in E. apply Forall_forall. exact E. }
    apply bind_ok in Hf. destruct Hf as (kinds & Hk & Hf).
    assert (HL : length mask = n0).
    { destruct (Nat.eq_dec (length mask) n0) as [|N]; [assumption|]. rewrite C16_wrong_mask_fails in Hf by exact N. discriminate. }
    split; [exact HL|]. exists kinds. split; [apply kinds_of_iff; assumption|]. intros HK HD.
    destruct (C16_filter V kinds mask n0 raw HK HD HL) as (out & Ho & HFt). rewrite Ho in Hf. inversion Hf; subst. auto.
Qed.

(** ** C155: when data is skipped, refused or delivered *)

(** A module that has tensors and could not deliver makes the handler skip the
    file or frame, whatever the others and the filter say. *)
Theorem C155_skip : forall h m f g rs p, Calls m f g -> (forall p, read p f = Ok (rs p)) ->
  Missing V h rs p -> get_data V read fmask h m = Ok None.
Proof.
  intros h m f g rs p HC HR HM. apply calls_iff in HC. unfold get_data. rewrite HC.
  destruct (read_all_intro V read f rs HR) as (rs' & E & Hrs). rewrite E. cbn [bind].
  rewrite (found_problem_ext V h rs' rs Hrs), (proj2 (found_problem_iff V h rs)); eauto.
Qed.

(** Modules that disagree about the number of events, and modules none of which
    has an existing tensor, are refused. *)
Theorem C155_refused : forall h m f g rs, Consistent h -> Typed h -> Calls m f g ->
  (forall p, read p f = Ok (rs p)) -> (forall p, ~ Missing V h rs p) -> Answers V h rs ->
  (exists p q, Has h p /\ Has h q /\ fst (rs p) <> fst (rs q)) \/ (forall p, ~ Has h p) ->
  get_data V read fmask h m = Err ValueError.
Proof.
  intros h m f g rs HC HT HM HR HN HA HD. apply calls_iff in HM. unfold get_data. rewrite HM.
  destruct (read_all_intro V read f rs HR) as (rs' & E & Hrs). rewrite E. cbn [bind].
  rewrite (found_problem_ext V h rs' rs Hrs).
  destruct (found_problem V h rs) eqn:EP. { exfalso. apply found_problem_iff in EP. destruct EP as (p & Hp). exact (HN p Hp). }
  rewrite (combine_ext V h rs' rs Hrs). destruct HD as [(p & q & Hp & Hq & Hne)|Hno].
  - destruct (HA p Hp) as (n1 & l1 & E1 & _). destruct (HA q Hq) as (n2 & l2 & E2 & _).
    destruct Hp as (t & Ht & Et). destruct Hq as (u & Hu & Eu).
    rewrite combine_disagree; [reflexivity| |].
    + intros v Hv Ev. destruct (tensor_part h v HC HT Hv) as (r & Hr & Hpr).
      destruct (answers_entry V h rs v r HC HT HA Hr Ev) as (k & x & Hk & Hx). eauto 8.
    + right. split; [reflexivity|]. exists t, p, u, q, n1, n2.
      split; [apply in_tensors; eauto|]. split; [exact Et|]. split; [apply (part_unique h); assumption|].
      split; [rewrite E1; reflexivity|]. split; [apply in_tensors; eauto|]. split; [exact Eu|].
      split; [apply (part_unique h); assumption|]. split; [rewrite E2; reflexivity|]. rewrite E1, E2 in Hne. simpl in Hne. congruence.
  - destruct (combine_ok V h rs 0 (tl_list (h_tensors h)) None []) as (num & Ec & _ & Hnone); [|left; reflexivity|].
    + intros v Hv Ev. exfalso. apply in_tensors in Hv; [|exact HC]. destruct Hv as (p & Hp). apply (Hno p). exists v. auto.
    + rewrite Ec. cbn [bind fst]. rewrite Hnone; [reflexivity|reflexivity|].
      intros v Hv Ev. apply in_tensors in Hv; [|exact HC]. destruct Hv as (p & Hp). apply (Hno p). exists v. auto.
Qed.

(** Otherwise the outcome is that of the filter applied to the combined data:
    everything if it accepts all events, nothing if there is no event. *)
Theorem C155_delivered : forall h m f g rs n0, Consistent h -> Typed h -> Calls m f g ->
  (forall p, read p f = Ok (rs p)) -> (forall p, ~ Missing V h rs p) -> Answers V h rs ->
  (forall p, Has h p -> fst (rs p) = Some n0) -> (exists p, Has h p) ->
  exists raw, Combined V h rs raw /\
    (forall e, fmask g n0 raw = Err e -> get_data V read fmask h m = Err e) /\
    (forall mask, fmask g n0 raw = Ok mask ->
       (Forall (fun x => x = true) mask -> n0 <> 0 -> get_data V read fmask h m = Ok (Some (n0, raw))) /\
       (Forall (fun x => x = true) mask -> n0 = 0 -> get_data V read fmask h m = Ok None) /\
       (~ Forall (fun x => x = true) mask -> forall kinds,
          Forall2 (KindOf h) (tl_list (h_tensors h)) kinds ->
          (length mask <> n0 -> get_data V read fmask h m = Err AssertionError) /\
          (length mask = n0 -> KindsOk kinds -> DataOk V kinds n0 raw ->
             (positions mask = [] -> get_data V read fmask h m = Ok None) /\
             (positions mask <> [] -> exists out,
                get_data V read fmask h m = Ok (Some (length (positions mask), out)) /\
                FilteredTo V kinds mask raw out)) /\
          (length mask = n0 -> (exists i, nth_error kinds i = Some TEvent /\ nth_error raw i = Some None) ->
             exists e, get_data V read fmask h m = Err e))).
Proof.
  intros h m f g rs n0 HC HT HM HR HN HA HAg HE. apply calls_iff in HM.
  assert (HG : forall t, In t (tl_list (h_tensors h)) -> Exists t -> exists p x,
     part_of_type (t_type t) = Some p /\ fst (rs p) = Some n0 /\
     entry V (part_tensors h p) (t_name t) (snd (rs p)) = Ok x).
  { intros t Ht Ex. destruct (tensor_part h t HC HT Ht) as (p & Hp & Hpt).
    destruct (answers_entry V h rs t p HC HT HA Hp Ex) as (k & x & Hk & Hx). exists p, x.
    split; [exact Hpt|]. split; [|exact Hx]. apply HAg. exists t. auto. }
  exists (map (pick V h rs) (tl_list (h_tensors h))). set (raw := map (pick V h rs) (tl_list (h_tensors h))).
  assert (HComb : Combined V h rs raw).
  { apply pick_combined; [exact HC|exact HT|]. intros t p Ht Ex Hp. destruct (HG t Ht Ex) as (q & x & Hq & _ & Hx).
    assert (p = q) by congruence. subst q. unfold pick. unfold Exists in Ex. rewrite Ex, Hp, Hx. reflexivity. }
  split; [exact HComb|].
  assert (HX : get_data V read fmask h m =
    bind (fmask g n0 raw) (fun mask =>
      bind (if forallb (fun b => b) mask then Ok (n0, raw)
            else bind (kinds_of (h_tensors h) (tl_list (h_tensors h))) (fun kinds => filter_data V kinds mask n0 raw))
        (fun f => if Nat.eqb (fst f) 0 then Ok None else Ok (Some f)))).
  { unfold get_data. rewrite HM. destruct (read_all_intro V read f rs HR) as (rs' & E & Hrs). rewrite E. cbn [bind].
    rewrite (found_problem_ext V h rs' rs Hrs).
    destruct (found_problem V h rs) eqn:EP. { exfalso. apply found_problem_iff in EP. destruct EP as (p & Hp). exact (HN p Hp). }
    rewrite (combine_ext V h rs' rs Hrs).
    destruct (combine_ok V h rs n0 (tl_list (h_tensors h)) None [] HG (or_introl eq_refl)) as (num & Ec & Hs & _).
    rewrite Ec. cbn [bind fst snd app]. rewrite Hs; [reflexivity|]. right. destruct HE as (p & t & Ht & Ex). exists t.
    split; [apply in_tensors; eauto|exact Ex]. }
  rewrite HX. split; [intros e ->; reflexivity|]. intros mask ->. cbn [bind].
  destruct (forallb (fun b => b) mask) eqn:EF.
  - assert (F : Forall (fun x => x = true) mask) by (rewrite forallb_forall in EF; apply Forall_forall; exact EF).
    split; [|split].
    + intros _ N. cbn [bind fst]. apply Nat.eqb_neq in N. rewrite N. reflexivity.
    + intros _ ->. reflexivity.
    + intros N. contradiction.
  - assert (F : ~ Forall (fun x => x = true) mask).
    { intros F. rewrite Forall_forall in F. assert (forallb (fun b : bool => b) mask = true); [|congruence].
      apply forallb_forall. intros x Hx. exact (F x Hx). }
    split; [contradiction|]. split; [contradiction|]. intros _ kinds HKs. apply kinds_of_iff in HKs; [|exact HC]. rewrite HKs.
    cbn [bind]. split; [|split].
    + intros N. rewrite C16_wrong_mask_fails by exact N. reflexivity.
    + intros HL HK HD. destruct (C16_filter V kinds mask n0 raw HK HD HL) as (out & Ho & HFt). rewrite Ho. cbn [bind fst].
      split.
      * intros ->. reflexivity.
      * intros N. destruct (positions mask) as [|q r] eqn:Ep; [congruence|]. cbn [length Nat.eqb]. exists out. rewrite <- Ep in *.
        split; [reflexivity|exact HFt].
    + intros HL (i & Hk & Hr).
      assert (HLr : length raw = length kinds).
      { unfold raw. rewrite map_length. symmetry. exact (kinds_of_length _ _ _ HKs). }
      destruct (filter_data V kinds mask n0 raw) as [[n1 out]|e] eqn:Ed.
      * exfalso. exact (C16_missing_event_tensor_fails V kinds mask n0 raw i HLr Hk Hr n1 out Ed).
      * exists e. reflexivity.
Qed.

(** An error of a module is passed on, that of the first one in the order data,
    labels, miscellaneous, weights. *)
Theorem C155_module_error : forall h m f g p e, Calls m f g -> read p f = Err e ->
  (forall q, match p, q with
             | PLabel, PData | PMisc, (PData | PLabel) | PWeight, (PData | PLabel | PMisc) =>
                 exists a, read q f = Ok a
             | _, _ => True
             end) ->
  get_data V read fmask h m = Err e.
Proof.
  intros h m f g p e HM HE HQ. apply calls_iff in HM. unfold get_data. rewrite HM. unfold read_all.
  pose proof (HQ PData) as H1. pose proof (HQ PLabel) as H2. pose proof (HQ PMisc) as H3.
  destruct p; try (destruct H1 as (a & ->)); try (destruct H2 as (b & ->)); try (destruct H3 as (c & ->));
    cbn [bind]; rewrite HE; reflexivity.
Qed.

(** Any other name of a method is refused. *)
Theorem C155_method : forall h m, (forall f g, ~ Calls m f g) -> get_data V read fmask h m = Err ValueError.
Proof.
  intros h m H. unfold get_data. destruct (read_name m) as [[f g]|] eqn:E; [|reflexivity].
  apply calls_iff in E. exfalso. exact (H f g E).
Qed.

(** ** C156: the structure of returned data *)

(** Data is returned exactly if the handler is configured, reading succeeds and
    every existing tensor along the event axis has the declared rank and fixed
    dimensions; vector tensors are not looked at. *)
Theorem C156_checked : forall h m n b,
  checked_data V np_shape read fmask h m 0 = Ok (Some (n, b)) <->
  h_configured h = true /\ get_data V read fmask h m = Ok (Some (n, b)) /\ WellShaped V np_shape h b.
Proof.
  intros h m n b. unfold checked_data. destruct (h_configured h); cbn [negb get_data_args].
  2:{ split; [discriminate|]. intros (H & _). discriminate. }
  split.
  - intros H. split; [reflexivity|]. apply bind_ok in H. destruct H as ([[n1 b1]|] & H1 & H2); [|discriminate].
    apply bind_ok in H2. destruct H2 as ([] & H2 & H3). inversion H3; subst. split; [exact H1|]. apply check_structure_iff. exact H2.
  - intros (_ & H1 & H2). rewrite H1. cbn [bind]. apply check_structure_iff in H2. rewrite H2. reflexivity.
Qed.

(** Wrongly shaped data is an error, not skipped. *)
Theorem C156_wrong_shape : forall h m n b, h_configured h = true ->
  get_data V read fmask h m = Ok (Some (n, b)) -> ~ WellShaped V np_shape h b ->
  exists e, checked_data V np_shape read fmask h m 0 = Err e.
Proof.
  intros h m n b HC H1 H2. unfold checked_data. rewrite HC. cbn [negb get_data_args]. rewrite H1. cbn [bind].
  destruct (check_data_structure V np_shape h b false) as [[]|e] eqn:E; [|exists e; reflexivity].
  exfalso. apply H2, check_structure_iff, E.
Qed.

(** Nothing else is lost: skipped data and errors of reading are passed on, an
    unconfigured handler and additional positional arguments are refused. *)
Theorem C156_passed_on : forall h m,
  (h_configured h = false -> forall k, checked_data V np_shape read fmask h m k = Err ValueError) /\
  (h_configured h = true -> forall k, checked_data V np_shape read fmask h m (S k) = Err TypeError) /\
  (h_configured h = true ->
     (checked_data V np_shape read fmask h m 0 = Ok None <-> get_data V read fmask h m = Ok None)) /\
  (h_configured h = true -> forall e, get_data V read fmask h m = Err e ->
     checked_data V np_shape read fmask h m 0 = Err e).
Proof.
  intros h m. unfold checked_data. split; [intros -> k; reflexivity|]. split; [intros -> k; reflexivity|]. split.
  - intros ->. cbn [negb get_data_args]. destruct (get_data V read fmask h m) as [[[n b]|]|e]; cbn [bind]; split; try congruence.
    intros H. apply bind_ok in H. destruct H as (? & _ & H). discriminate.
  - intros -> e E. cbn [negb get_data_args]. rewrite E. reflexivity.
Qed.

(** ** C157: frames *)

(** Reading a frame returns the checked data with the zero of its type for a
    tensor that does not exist (creating data keeps None there). *)
Theorem C157_frame : forall h n items,
  get_data_from_frame V np_shape read fmask h 0 = Ok (Some (n, items)) <->
  exists b, checked_data V np_shape read fmask h "get_from_frame" 0 = Ok (Some (n, b)) /\ Itemised V h b items.
Proof.
  intros h n items. unfold get_data_from_frame.
  assert (K : forall b, WellShaped V np_shape h b ->
    exists items, frame_items V (tl_list (h_tensors h)) b 0 = Ok items /\ Itemised V h b items).
  { intros b (HL & _). destruct (frame_items_ok V (tl_list (h_tensors h)) b 0) as (it & E & H1 & H2); [lia|].
    exists it. split; [exact E|]. split; [exact H1|exact H2]. }
  assert (U : forall b i1 i2, Itemised V h b i1 -> Itemised V h b i2 -> i1 = i2).
  { intros b i1 i2 (L1 & H1) (L2 & H2).
    assert (N : forall k, nth_error i1 k = nth_error i2 k).
    { intros k. destruct (nth_error (tl_list (h_tensors h)) k) as [t|] eqn:Et.
      - destruct (exists_dec t) as [Ex|Ex].
        + destruct (proj1 (H1 k t Et) Ex) as (x & Hx & ->). destruct (proj1 (H2 k t Et) Ex) as (y & Hy & ->). congruence.
        + rewrite (proj2 (H1 k t Et) Ex), (proj2 (H2 k t Et) Ex). reflexivity.
      - apply nth_error_None in Et. transitivity (@None (item V)); [|symmetry]; apply nth_error_None; lia. }
    assert (L : length i1 = length i2) by congruence. clear -N L. revert i2 N L.
    induction i1 as [|x i1 IH]; intros [|y i2] N L; try discriminate L; [reflexivity|].
    f_equal; [specialize (N 0); simpl in N; congruence|]. apply IH; [intros k; exact (N (S k))|simpl in L; congruence]. }
  split.
  - intros H. apply bind_ok in H. destruct H as ([[n1 b]|] & H1 & H2); [|discriminate].
    apply bind_ok in H2. destruct H2 as (it & H2 & H3). inversion H3; subst. exists b. split; [exact H1|].
    apply C156_checked in H1. destruct H1 as (_ & _ & HW). destruct (K b HW) as (it' & E & HI). congruence.
  - intros (b & H1 & HI). rewrite H1. cbn [bind]. apply C156_checked in H1. destruct H1 as (_ & _ & HW).
    destruct (K b HW) as (it' & E & HI'). rewrite E. cbn [bind]. rewrite (U b items it' HI HI'). reflexivity.
Qed.

(** What is returned for a frame agrees with the described data set: an entry
    along the event axis fits the described shape, and the shape of a tensor
    that does not exist is unknown. *)
Theorem C157_signature : forall h n items,
  get_data_from_frame V np_shape read fmask h 0 = Ok (Some (n, items)) ->
  length (signature h) = length items /\
  forall i t, nth_error (tl_list (h_tensors h)) i = Some t ->
    (~ Exists t -> nth_error (signature h) i = Some (None, t_dtype t) /\
                   nth_error items i = Some (IZero V (t_dtype t))) /\
    (Exists t -> nth_error (signature h) i = Some (Some (t_shape t), t_dtype t) /\
       (t_vector_info t = VNone -> exists d s dims, nth_error items i = Some (IData V (Some d)) /\
          np_shape d = Some s /\ as_seq (t_shape t) = Some dims /\ Fits s dims)).
Proof.
  intros h n items H. apply C157_frame in H. destruct H as (b & H1 & (HL & HI)). apply C156_checked in H1.
  destruct H1 as (_ & _ & (_ & HW)). unfold signature. split; [rewrite map_length; congruence|].
  intros i t Ht. rewrite nth_error_map, Ht. cbn [option_map]. unfold spec_shape. split.
  - intros Ex. split; [|apply HI; assumption]. unfold Exists in Ex. destruct (truthy _); [congruence|reflexivity].
  - intros Ex. split; [unfold Exists in Ex; rewrite Ex; reflexivity|]. intros Hv.
    destruct (HW i t Ht Ex Hv) as (d & s & dims & Hd & Hs & Hdim & HF). exists d, s, dims.
    destruct (proj1 (HI i t Ht) Ex) as (x & Hx & Hi). split; [congruence|auto].
Qed.

(** Tensors of a frame are its data, provided no entry is missing. *)
Theorem C157_tensor : forall h n items,
  get_data_from_frame V np_shape read fmask h 0 = Ok (Some (n, items)) ->
  (forall i, nth_error items i <> Some (IData V None)) ->
  get_tensor_from_frame V np_shape read fmask h 0 = Ok items.
Proof.
  intros h n items H HN. unfold get_tensor_from_frame. rewrite H. cbn [bind]. apply C157_frame in H.
  destruct H as (b & _ & (HL & HI)). rewrite convert_ok.
  - rewrite <- HL. simpl. rewrite firstn_all. reflexivity.
  - intros i t Ht. simpl. destruct (HI i t Ht) as (H1 & H2). split; [|exact H2]. intros Ex.
    destruct (H1 Ex) as (x & _ & Hx). destruct x as [d|]; [eauto|]. exfalso. exact (HN i Hx).
Qed.

(** Asking for the tensors of a frame that is skipped raises instead of
    returning nothing. *)
Theorem C157_skipped_refuted : forall h,
  get_data_from_frame V np_shape read fmask h 0 = Ok None ->
  (exists t, In t (tl_list (h_tensors h)) /\ Exists t) ->
  get_tensor_from_frame V np_shape read fmask h 0 = Err TypeError.
Proof.
  intros h H HE. unfold get_tensor_from_frame. rewrite H. cbn [bind]. apply convert_none. exact HE.
Qed.

End Handler.

(** ** C158: writing *)

(** The entries that the modules get: each one those of its own tensors in the
    order of its own list, modules in a fixed order. *)
Theorem C158_write : forall (A : Type) h (data : list A), Consistent h -> Typed h -> h_configured h = true ->
  length data = length (tl_list (h_tensors h)) ->
  exists w : part -> list A,
    write_data h data = Ok [(PData, w PData); (PLabel, w PLabel); (PMisc, w PMisc); (PWeight, w PWeight)] /\
    forall p, length (w p) = length (tl_list (part_tensors h p)) /\
      forall i j t, nth_error (tl_list (h_tensors h)) i = Some t ->
        nth_error (tl_list (part_tensors h p)) j = Some t -> nth_error (w p) j = nth_error data i.
Proof.
  intros A h data HC HT Hconf HL.
  set (sel := fun p => filter (fun q : tensor * A => String.eqb (t_type (fst q)) (type_name p)) (combine (tl_list (h_tensors h)) data)).
  exists (fun p => map snd (sel p)). split.
  - unfold write_data. rewrite Hconf. cbn [negb]. rewrite !entries_of_type_ok by lia. reflexivity.
  - intros p. assert (HS : map fst (sel p) = tl_list (part_tensors h p)).
    { unfold sel. rewrite (filter_combine_fst (fun t => String.eqb (t_type t) (type_name p))) by congruence. apply part_filter; assumption. }
    split; [rewrite <- HS, !map_length; reflexivity|]. intros i j t Hi Hj. rewrite <- HS in Hj.
    rewrite nth_error_map in *. destruct (nth_error (sel p) j) as [[u x]|] eqn:E; [|discriminate]. simpl in Hj. inversion Hj; subst u.
    simpl. apply nth_error_In in E. unfold sel in E. apply filter_In in E. destruct E as (E & _).
    apply In_nth_error in E. destruct E as (k & Hk).
    assert (Hk1 : nth_error (tl_list (h_tensors h)) k = Some t /\ nth_error data k = Some x).
    { revert Hk. generalize (tl_list (h_tensors h)) as l. clear. revert data. induction k as [|k IH]; intros [|y d] [|z l] H; simpl in *; try discriminate.
      - inversion H; auto.
      - apply IH. exact H. }
    destruct Hk1 as (Hk1 & Hk2).
    assert (i = k).
    { pose proof (sorted_nodup _ (built_sorted _ (proj1 (proj2 HC)))) as ND. rewrite NoDup_nth_error in ND. apply ND.
      - rewrite map_length. apply nth_error_Some. congruence.
      - rewrite !nth_error_map, Hi, Hk1. reflexivity. }
    subst k. congruence.
Qed.

(** Writing the combined data gives every module what it delivered, None in
    place of its tensors that do not exist. *)
Theorem C158_round_trip : forall (V : Type) h (rs : part -> answer V) (raw : batch V),
  Consistent h -> Typed h -> h_configured h = true -> Combined V h rs raw ->
  exists w : part -> list (option (tdata V)),
    write_data h raw = Ok [(PData, w PData); (PLabel, w PLabel); (PMisc, w PMisc); (PWeight, w PWeight)] /\
    forall p j t, nth_error (tl_list (part_tensors h p)) j = Some t ->
      (Exists t -> exists l, snd (rs p) = Some l /\ nth_error (w p) j = nth_error l j) /\
      (~ Exists t -> nth_error (w p) j = Some None).
Proof.
  intros V h rs raw HC HT Hconf (HL & HR). destruct (C158_write _ h raw HC HT Hconf HL) as (w & E & Hw).
  exists w. split; [exact E|]. intros p j t Hj. destruct (Hw p) as (_ & Hp).
  assert (Hin : In t (tl_list (h_tensors h))) by (apply in_tensors; [exact HC|]; exists p; eapply nth_error_In; exact Hj).
  apply In_nth_error in Hin. destruct Hin as (i & Hi). rewrite (Hp i j t Hi Hj). destruct (HR i t Hi) as (H1 & H2). split.
  - intros Ex. destruct (H2 Ex p j Hj) as (l & x & Hl & Hx & Hr). exists l. split; [exact Hl|congruence].
  - exact H1.
Qed.

(** ** C159: configuration *)

Section Configure.
Variable glob : string -> list string.
Variable load : string -> result modclass.

(** A configured handler has the tensors of its modules, and names are
    pairwise different among all of them. *)
Theorem C159_configured : forall st config cd st' data,
  (forall s c, load s = Ok c -> forall x kw d, c x kw = Ok d ->
     forall k tl, In (k, DTensors tl) d -> Built tl) ->
  configure glob load st config cd = (st', Ok data) ->
  s_configured st' = true /\ exists h, handler_of data = Some h /\ Consistent h /\ h_configured h = true /\
    NoDup (map t_name (tl_list (h_data h) ++ tl_list (h_label h) ++ tl_list (h_weight h) ++ tl_list (h_misc h))).
Proof.
  intros st config cd st' data HB H. unfold configure in H. destruct (s_configured st); [discriminate|].
  destruct (expand_config_data glob cd) as [cd'|]; [|discriminate]. destruct (s_loaded st); [discriminate|].
  destruct (load_modules load config) as [mods|] eqn:EM; [|discriminate].
  destruct (bind (configure_modules config cd' mods []) combine_tensors) as [data'|] eqn:EC; [|discriminate].
  inversion H; subst. clear H. split; [reflexivity|]. apply bind_ok in EC. destruct EC as (d0 & E0 & E1).
  assert (HM : forall n c, In (n, c) mods -> exists s, load s = Ok c).
  { unfold load_modules in EM.
    assert (HL : forall dir n c, load_module load config dir n = Ok c -> exists s, load s = Ok c).
    { intros dir n c. unfold load_module. destruct (dget _ config) as [[]|]; try discriminate. eauto. }
    repeat match goal with E : bind _ _ = Ok _ |- _ => apply bind_ok in E; let x := fresh "x" in destruct E as (x & ? & E) end.
    inversion EM; subst. intros n c [X|[X|[X|[X|[X|[]]]]]]; inversion X; subst; eauto. }
  assert (HD : forall k tl, In (k, DTensors tl) d0 -> Built tl).
  { assert (G : forall ms acc out, (forall n c, In (n, c) ms -> exists s, load s = Ok c) ->
      (forall k tl, In (k, DTensors tl) acc -> Built tl) ->
      configure_modules config cd' ms acc = Ok out -> forall k tl, In (k, DTensors tl) out -> Built tl).
    { induction ms as [|[n c] ms IH]; intros acc out H1 H2 H; simpl in H; [inversion H; subst; exact H2|].
      destruct (dget _ config) as [[| | | | | |kw]|]; try discriminate. destruct (dmem _ kw); [discriminate|].
      apply bind_ok in H. destruct H as (new & Hn & H).
      destruct (H1 n c (or_introl eq_refl)) as (s & Hs).
      refine (IH _ _ (fun n' c' HI => H1 n' c' (or_intror HI)) _ H).
      pose proof (HB s c Hs _ _ _ Hn) as HNew. clear -H2 HNew. revert acc H2. unfold dupdate.
      induction new as [|[k0 v0] new IHn]; intros acc H2; simpl; [exact H2|]. apply IHn.
      - intros k tl Hk. apply (HNew k). right. exact Hk.
      - intros k tl Hk. assert (X : In (k, DTensors tl) acc \/ (k, DTensors tl) = (k0, v0)).
        { clear -Hk. induction acc as [|[k1 v1] acc IHa]; simpl in Hk.
          - destruct Hk as [X|[]]. right. congruence.
          - destruct (String.eqb k0 k1) eqn:E.
            + apply String.eqb_eq in E. subst. destruct Hk as [X|X]; [right; congruence|left; right; exact X].
            + destruct Hk as [X|X]; [left; left; exact X|]. destruct (IHa X) as [Y|Y]; [left; right; exact Y|right; exact Y]. }
        destruct X as [X|X]; [exact (H2 k tl X)|]. apply (HNew k0). left. symmetry. congruence. }
    exact (G mods [] d0 HM (fun k tl X => match X with end) E0). }
  unfold combine_tensors, tensors_in in E1.
  destruct (dget "data_tensors" d0) as [[td|]|] eqn:G1; try discriminate.
  destruct (dget "label_tensors" d0) as [[tl|]|] eqn:G2; try discriminate.
  destruct (dget "weight_tensors" d0) as [[tw|]|] eqn:G3; try discriminate.
  destruct (dget "misc_tensors" d0) as [[tm|]|] eqn:G4; try discriminate.
  cbn [bind] in E1. apply bind_ok in E1. destruct E1 as (tt & Et & E1).
  assert (Ed : data = dset "tensors" (DTensors tt) d0) by congruence. clear E1.
  exists (mkHandler true td tl tm tw tt). split.
  { unfold handler_of. subst data. rewrite dget_dset_same, !dget_dset_other by discriminate.
    rewrite G1, G2, G3, G4. reflexivity. }
  split; [|split; [reflexivity|]].
  - split; [|split].
    + intros []; simpl; eapply HD, dget_In; eassumption.
    + simpl. eexists. exact Et.
    + simpl. apply Permutation_sym. apply C13_sorted_permutation in Et. tauto.
  - simpl. apply init_inv in Et. tauto.
Qed.

(** Of a list of patterns only the first three matter, and a list of one
    pattern is that pattern. *)
Theorem C159_patterns : forall st config,
  (forall l m, firstn 3 l = firstn 3 m ->
     configure glob load st config (CList l) = configure glob load st config (CList m)) /\
  (forall s, configure glob load st config (CList [s]) = configure glob load st config (CStr s)).
Proof.
  intros st config. unfold configure, expand_config_data. split.
  - intros l m ->. reflexivity.
  - intros s. simpl. rewrite app_nil_r. reflexivity.
Qed.

(** With a module without tensors the handler cannot be configured on data,
    whatever the settings and files. *)
Theorem C159_config_data_refuted : forall st config cd dir name key s,
  In (dir, name, key) [("labels", "label", "label_tensors"); ("misc", "misc", "misc_tensors");
                       ("weights", "weight", "weight_tensors")] ->
  dget (name ++ "_module")%string config = Some (VStr s) ->
  load ("egenerator.data.modules." ++ dir ++ "." ++ s)%string = Ok (dummy_module key) ->
  cd <> CNone ->
  exists e, snd (configure glob load st config cd) = Err e.
Proof.
  intros st config cd dir name key s HIn Hs HL HN. unfold configure. destruct (s_configured st); [simpl; eauto|].
  destruct (expand_config_data glob cd) as [cd'|e] eqn:EC; [|simpl; eauto]. destruct (s_loaded st); [simpl; eauto|].
  destruct (load_modules load config) as [mods|e] eqn:EM; [|simpl; eauto].
  destruct (bind (configure_modules config cd' mods []) combine_tensors) as [data|e] eqn:EB; [|simpl; eauto].
  exfalso. apply bind_ok in EB. destruct EB as (d0 & E0 & _).
  assert (HCd : exists fs, cd' = Some fs) by (destruct cd; simpl in EC; inversion EC; subst; eauto; congruence).
  destruct HCd as (fs & ->).
  assert (HM : In (name, dummy_module key) mods).
  { unfold load_modules in EM.
    assert (HLm : load_module load config dir name = Ok (dummy_module key)).
    { unfold load_module. rewrite Hs. exact HL. }
    repeat match goal with E : bind _ _ = Ok _ |- _ => apply bind_ok in E; let x := fresh "x" in let Hx := fresh "Hx" in destruct E as (x & Hx & E) end.
    inversion EM; subst. simpl in HIn. destruct HIn as [X|[X|[X|[]]]]; inversion X; subst;
      match goal with H1 : load_module load config ?d ?n = Ok ?a, H2 : load_module load config ?d ?n = Ok (dummy_module _) |- _ =>
        rewrite H1 in H2; inversion H2; subst end; simpl; tauto. }
  clear -HM E0. revert d0 E0. generalize (@nil (string * ddata)) as acc. induction mods as [|[n c] mods IH]; intros acc d0 E0; [destruct HM|].
  simpl in E0. destruct (dget _ config) as [[| | | | | |kw]|]; try discriminate. destruct (dmem _ kw); [discriminate|].
  apply bind_ok in E0. destruct E0 as (new & Hn & E0). destruct HM as [X|X]; [|exact (IH X _ _ E0)].
  inversion X; subst. unfold dummy_module in Hn. destruct kw; discriminate.
Qed.

(** A handler whose modules were loaded in a failed attempt cannot be
    configured any more; a failure before that leaves it as it was. *)
Theorem C159_retry : forall st config cd st' e,
  configure glob load st config cd = (st', Err e) ->
  st' = st \/
  (s_configured st' = false /\ forall config' cd', exists e', snd (configure glob load st' config' cd') = Err e').
Proof.
  intros st config cd st' e H. unfold configure in H.
  destruct (s_configured st) eqn:Ec; [left; congruence|]. destruct (expand_config_data glob cd) as [cd'|]; [|left; congruence].
  destruct (s_loaded st); [left; congruence|]. destruct (load_modules load config) as [mods|]; [|left; congruence].
  destruct (bind _ combine_tensors) as [d|e'] eqn:E; [discriminate|]. inversion H; subst. right. split; [reflexivity|].
  intros config' cd''. unfold configure. cbn [s_configured s_loaded]. destruct (expand_config_data glob cd''); simpl; eauto.
Qed.

End Configure.

(** ** A case meeting the hypotheses *)

Definition ex_tensor (name ty : string) (ex : bool) (shape : list value) (info : value) : tensor :=
  mkTensor name (VList shape) ty "float32" (VBool ex) info (VBool false) (VTuple []) VNone
    (VInt (-1)) (VInt 0) [].

Definition ex_charge := ex_tensor "x_charge" "data" true [VNone; VInt 2] VNone.
Definition ex_pulses := ex_tensor "x_pulses" "data" true [VNone; VInt 2]
  (VDict [("type", VStr "value"); ("reference", VStr "x_ids")]).
Definition ex_ids := ex_tensor "x_ids" "data" true [VNone; VInt 2]
  (VDict [("type", VStr "index"); ("reference", VStr "x_pulses")]).
Definition ex_labels := ex_tensor "labels" "label" true [VNone; VInt 2] VNone.
Definition ex_extra := ex_tensor "a_extra" "label" false [VNone] VNone.

Definition ex_list (ts : list tensor) : tensor_list :=
  match tensor_list_init ts with Ok tl => tl | Err _ => mkTL [] [] [] [] end.

Definition ex_handler (labels : list tensor) : handler :=
  mkHandler true (ex_list [ex_charge; ex_pulses; ex_ids]) (ex_list labels) (ex_list []) (ex_list [])
    (ex_list ([ex_charge; ex_pulses; ex_ids] ++ labels)).

(** Two events; the first has two pulses, the second one. *)
Definition ex_read (nlabels : option nat) (p : part) (f : string) : result (answer nat) :=
  match p with
  | PData => Ok (Some 2, Some [Some (Arr [(0%Z, 10); (0%Z, 11)]);
                               Some (Arr [(0%Z, 20); (0%Z, 21); (1%Z, 22)]);
                               Some (Arr [(5%Z, 30); (6%Z, 31); (7%Z, 32)])])
  | PLabel => Ok (nlabels, Some [Some (Arr [(0%Z, 40); (0%Z, 41)])])
  | _ => Ok (None, Some [None])
  end.

Definition ex_shape (d : tdata nat) : option (list Z) :=
  match d with Arr l => Some [Z.of_nat (length l); 2%Z] | PyList _ => None end.

Definition ex_mask (m : list bool) (g : string) (n : nat) (b : batch nat) : result (list bool) := Ok m.

Example handler_ex_consistent : forall labels, labels = [ex_labels] \/ labels = [ex_extra; ex_labels] ->
  Consistent (ex_handler labels) /\ Typed (ex_handler labels).
Proof.
  intros labels H. split; [split; [|split]|].
  - destruct H as [-> | ->]; intros [].
    1, 5: exists [ex_charge; ex_pulses; ex_ids]; reflexivity.
    1: exists [ex_labels]; reflexivity.
    3: exists [ex_extra; ex_labels]; reflexivity.
    all: exists []; reflexivity.
  - destruct H as [-> | ->].
    + exists [ex_charge; ex_pulses; ex_ids; ex_labels]. reflexivity.
    + exists [ex_charge; ex_pulses; ex_ids; ex_extra; ex_labels]. reflexivity.
  - destruct H as [-> | ->].
    + apply (Permutation_cons_app [ex_charge; ex_ids; ex_pulses] []). apply Permutation_refl.
    + apply (Permutation_cons_app [ex_charge; ex_ids; ex_pulses] [ex_labels]).
      apply (Permutation_cons_app [ex_charge; ex_ids; ex_pulses] []). apply Permutation_refl.
  - intros p t Ht. destruct H as [-> | ->]; destruct p; vm_compute in Ht;
      repeat (destruct Ht as [<-|Ht]; [reflexivity|]); destruct Ht.
Qed.

(** All events, the second event only, and disagreeing modules. *)
Example handler_ex_read :
  get_data nat (ex_read (Some 2)) (ex_mask [true; true]) (ex_handler [ex_labels]) "get_from_hdf" =
    Ok (Some (2, [Some (Arr [(0%Z, 40); (0%Z, 41)]);
                  Some (Arr [(0%Z, 10); (0%Z, 11)]);
                  Some (Arr [(0%Z, 20); (0%Z, 21); (1%Z, 22)]);
                  Some (Arr [(5%Z, 30); (6%Z, 31); (7%Z, 32)])])) /\
  get_data nat (ex_read (Some 2)) (ex_mask [false; true]) (ex_handler [ex_labels]) "get_from_hdf" =
    Ok (Some (1, [Some (Arr [(0%Z, 41)]); Some (Arr [(0%Z, 11)]);
                  Some (Arr [(0%Z, 22)]); Some (Arr [(7%Z, 32)])])) /\
  get_data nat (ex_read (Some 2)) (ex_mask [false; false]) (ex_handler [ex_labels]) "get_from_hdf" = Ok None /\
  get_data nat (ex_read (Some 3)) (ex_mask [true; true]) (ex_handler [ex_labels]) "get_from_hdf" =
    Err ValueError.
Proof. vm_compute. repeat split. Qed.

Example handler_ex_answers : forall rs, (forall p, ex_read (Some 2) p "get_data_from_hdf" = Ok (rs p)) ->
  Answers nat (ex_handler [ex_labels]) rs /\ (forall p, ~ Missing nat (ex_handler [ex_labels]) rs p) /\
  (forall p, Has (ex_handler [ex_labels]) p -> fst (rs p) = Some 2) /\ Has (ex_handler [ex_labels]) PData.
Proof.
  intros rs H. pose proof (H PData) as H1. pose proof (H PLabel) as H2. pose proof (H PMisc) as H3. pose proof (H PWeight) as H4.
  simpl in H1, H2, H3, H4. injection H1 as H1. injection H2 as H2. injection H3 as H3. injection H4 as H4.
  split; [|split; [|split]].
  - intros [] (t & Ht & _); [rewrite <- H1|rewrite <- H2|destruct Ht|destruct Ht]; eauto.
  - intros [] (HL & E); rewrite <- ?H1, <- ?H2, <- ?H3, <- ?H4 in E; discriminate.
  - intros [] (t & Ht & _); [rewrite <- H1|rewrite <- H2|destruct Ht|destruct Ht]; reflexivity.
  - exists ex_charge. split; [left; reflexivity|reflexivity].
Qed.

(** The kinds of its tensors, and data fit for filtering. *)
Example handler_ex_kinds :
  Forall2 (KindOf (ex_handler [ex_labels])) (tl_list (h_tensors (ex_handler [ex_labels])))
    [TEvent; TEvent; TIndex 3; TValue] /\ KindsOk [TEvent; TEvent; TIndex 3; TValue] /\
  DataOk nat [TEvent; TEvent; TIndex 3; TValue] 2
    [Some (Arr [(0%Z, 40); (0%Z, 41)]); Some (Arr [(0%Z, 10); (0%Z, 11)]);
     Some (Arr [(0%Z, 20); (0%Z, 21); (1%Z, 22)]);
     Some (Arr [(5%Z, 30); (6%Z, 31); (7%Z, 32)])].
Proof.
  split; [|split].
  - vm_compute. repeat constructor.
    + exists [("type", VStr "index"); ("reference", VStr "x_pulses")], "x_pulses", ex_pulses. repeat split; reflexivity.
    + eexists. split; reflexivity.
  - split; [|split].
    + intros q r. destruct q as [|[|[|[|[|q]]]]]; simpl; intros H; inversion H; reflexivity.
    + intros q q' r. destruct q as [|[|[|[|[|q]]]]]; simpl; intros H; inversion H; subst;
        destruct q' as [|[|[|[|[|q']]]]]; simpl; intros H'; inversion H'; reflexivity.
    + intros r. destruct r as [|[|[|[|[|r]]]]]; simpl; intros H; inversion H. exists 2. reflexivity.
  - split; [reflexivity|]. split.
    + intros i. destruct i as [|[|[|[|[|i]]]]]; simpl; intros H; inversion H; eexists; split; reflexivity.
    + intros q r. destruct q as [|[|[|[|[|q]]]]]; simpl; intros H; inversion H; subst. right.
      eexists _, _. repeat split; reflexivity.
Qed.

(** A tensor that does not exist: zero in a frame, and a filter that rejects an
    event makes reading fail. *)
Example handler_ex_frame :
  get_data_from_frame nat ex_shape
    (fun p f => match p with
                | PLabel => Ok (Some 2, Some [None; Some (Arr [(0%Z, 40); (0%Z, 41)])])
                | _ => ex_read None p f
                end)
    (ex_mask [true; true]) (ex_handler [ex_extra; ex_labels]) 0 =
    Ok (Some (2, [IZero nat "float32"; IData nat (Some (Arr [(0%Z, 40); (0%Z, 41)]));
                  IData nat (Some (Arr [(0%Z, 10); (0%Z, 11)]));
                  IData nat (Some (Arr [(0%Z, 20); (0%Z, 21); (1%Z, 22)]));
                  IData nat (Some (Arr [(5%Z, 30); (6%Z, 31); (7%Z, 32)]))])) /\
  get_data_from_frame nat ex_shape
    (fun p f => match p with
                | PLabel => Ok (Some 2, Some [None; Some (Arr [(0%Z, 40); (0%Z, 41)])])
                | _ => ex_read None p f
                end)
    (ex_mask [true; false]) (ex_handler [ex_extra; ex_labels]) 0 = Err TypeError /\
  get_tensor_from_frame nat ex_shape (fun p f => match p with PLabel => Ok (None, None) | _ => ex_read None p f end)
    (ex_mask [true; true]) (ex_handler [ex_labels]) 0 = Err TypeError.
Proof. vm_compute. repeat split. Qed.

Example handler_ex_write :
  write_data (ex_handler [ex_extra; ex_labels]) [0; 1; 2; 3; 4] =
    Ok [(PData, [2; 3; 4]); (PLabel, [0; 1]); (PMisc, []); (PWeight, [])].
Proof. vm_compute. reflexivity. Qed.

(** Configuring with the modules without tensors. *)
Definition ex_load (s : string) : result modclass :=
  if String.eqb s "egenerator.data.modules.data.d.D"
  then Ok (fun _ _ => Ok [("data_tensors", DTensors (ex_list [ex_charge; ex_pulses; ex_ids]))])
  else if String.eqb s "egenerator.data.modules.labels.dummy.DummyLabelModule"
  then Ok (dummy_module "label_tensors")
  else if String.eqb s "egenerator.data.modules.weights.dummy.DummyWeightModule"
  then Ok (dummy_module "weight_tensors")
  else if String.eqb s "egenerator.data.modules.misc.dummy.DummyMiscModule"
  then Ok (dummy_module "misc_tensors")
  else if String.eqb s "egenerator.data.modules.filters.dummy.DummyFilterModule"
  then Ok dummy_filter
  else Err AttributeError.

Definition ex_config : dict value :=
  [("data_module", VStr "d.D"); ("data_settings", VDict []);
   ("label_module", VStr "dummy.DummyLabelModule"); ("label_settings", VDict []);
   ("weight_module", VStr "dummy.DummyWeightModule"); ("weight_settings", VDict []);
   ("misc_module", VStr "dummy.DummyMiscModule"); ("misc_settings", VDict []);
   ("filter_module", VStr "dummy.DummyFilterModule"); ("filter_settings", VDict [])].

Example handler_ex_configure : forall glob,
  (exists data, configure glob ex_load (mkState false false) ex_config CNone = (mkState true true, Ok data) /\
     handler_of data = Some (ex_handler [])) /\
  configure glob ex_load (mkState false false) ex_config (CStr "*.hdf5") =
    (mkState false true, Err ValueError) /\
  snd (configure glob ex_load (mkState false true) ex_config CNone) = Err ValueError.
Proof.
  intros glob. split; [|split; reflexivity]. eexists. split; [vm_compute; reflexivity|vm_compute; reflexivity].
Qed.

Example handler_ex_built : forall s c, ex_load s = Ok c -> forall x kw d, c x kw = Ok d ->
  forall k tl, In (k, DTensors tl) d -> Built tl.
Proof.
  intros s c. unfold ex_load.
  repeat match goal with |- context [if ?b then _ else _] => destruct b end; intros H; inversion H; subst; clear H;
    intros x kw d H k tl Hin.
  - inversion H; subst. destruct Hin as [X|[]]. inversion X; subst. exists [ex_charge; ex_pulses; ex_ids]. reflexivity.
  - unfold dummy_module in H. destruct kw; [|discriminate]. destruct x; [discriminate|]. inversion H; subst. destruct Hin as [X|[]].
    inversion X; subst. exists []. reflexivity.
  - unfold dummy_module in H. destruct kw; [|discriminate]. destruct x; [discriminate|]. inversion H; subst. destruct Hin as [X|[]].
    inversion X; subst. exists []. reflexivity.
  - unfold dummy_module in H. destruct kw; [|discriminate]. destruct x; [discriminate|]. inversion H; subst. destruct Hin as [X|[]].
    inversion X; subst. exists []. reflexivity.
  - inversion H; subst. destruct Hin.
Qed.
Print Assumptions C154_combined.
Print Assumptions C155_skip.
Print Assumptions C155_refused.
Print Assumptions C155_delivered.
Print Assumptions C155_module_error.
Print Assumptions C155_method.
Print Assumptions C156_checked.
Print Assumptions C156_wrong_shape.
Print Assumptions C156_passed_on.
Print Assumptions C157_frame.
Print Assumptions C157_signature.
Print Assumptions C157_tensor.
Print Assumptions C157_skipped_refuted.
Print Assumptions C158_write.
Print Assumptions C158_round_trip.
Print Assumptions C159_configured.
Print Assumptions C159_patterns.
Print Assumptions C159_config_data_refuted.
Print Assumptions C159_retry.
