(** Lemmas for the loading of labels. *)
From Coq Require Import Reals.
From Verif Require Import Py PyFacts PyStr PyStrFacts RList M_Source S_Source L_Source M_Labels S_Labels.
Open Scope R_scope.

(** ** Lists *)

Lemma collect_ok {A B} (f : A -> result B) l : forall ys, collect f l = Ok ys <-> Forall2 (fun x y => f x = Ok y) l ys.
Proof.
  induction l as [|x l IH]; intros ys; cbn [collect].
  - split; [intros H; injection H as <-; constructor|intros H; inversion H; reflexivity].
  - split.
    + intros H. apply bind_ok in H. destruct H as (y & E & H). apply bind_ok in H. destruct H as (zs & E' & H). injection H as <-.
      constructor; [exact E|]. apply IH. exact E'.
    + intros H. inversion H as [|? y ? zs E H']; subst. rewrite E. cbn [bind]. apply IH in H'. rewrite H'. reflexivity.
Qed.

Lemma collect_map {A B} (f : A -> result B) (g : A -> B) l : (forall x, In x l -> f x = Ok (g x)) -> collect f l = Ok (map g l).
Proof.
  intros H. apply collect_ok. induction l as [|x l IH]; cbn; constructor; [apply H; left; reflexivity|]. apply IH. intros y Hy. apply H. right. exact Hy.
Qed.

Lemma list_ext {A} (l m : list A) : length l = length m -> (forall j x, nth_error m j = Some x -> nth_error l j = Some x) -> l = m.
Proof.
  revert m. induction l as [|x l IH]; intros [|y m] HL H; cbn in *; try discriminate; [reflexivity|].
  pose proof (H 0%nat y eq_refl) as H0. cbn in H0. injection H0 as ->. f_equal. apply IH; [lia|]. intros j z Hj. exact (H (S j) z Hj).
Qed.

Lemma nth_error_map_seq {A} (f : nat -> A) n j : (j < n)%nat -> nth_error (map f (seq 0 n)) j = Some (f j).
Proof. intros H. rewrite nth_error_map, (nth_error_nth' _ 0%nat) by (rewrite seq_length; exact H). rewrite seq_nth by exact H. reflexivity. Qed.

Lemma map_seq_ext {A} (l : list A) f n : length l = n -> (forall j, (j < n)%nat -> nth_error l j = Some (f j)) -> l = map f (seq 0 n).
Proof.
  intros HL H. apply list_ext; [rewrite map_length, seq_length; exact HL|]. intros j x Hj.
  assert (Hj' : (j < n)%nat) by (rewrite <- (seq_length n 0), <- (map_length f (seq 0 n)); apply nth_error_Some; congruence).
  rewrite nth_error_map_seq in Hj by exact Hj'. rewrite <- Hj. apply H. exact Hj'.
Qed.

Lemma zipw_map {A} (op : R -> R -> R) (g h : A -> R) s : zipw op (map g s) (map h s) = map (fun j => op (g j) (h j)) s.
Proof. induction s as [|j s IH]; cbn; [reflexivity|]. f_equal. exact IH. Qed.

Lemma check_ok b u : check b = Ok u -> b = true.
Proof. destruct b; [reflexivity|discriminate]. Qed.

(** ** Systematics parameters of a file *)

Lemma masked_length params index i : length params = length index -> length (masked params index i) = occurrences i index.
Proof.
  unfold masked, occurrences. rewrite map_length. revert params. induction index as [|x index IH]; intros [|v params] H; cbn in *; try discriminate; [reflexivity|].
  injection H as H. specialize (IH _ H). destruct (Z.eq_dec x i) as [->|Hx].
  - rewrite Z.eqb_refl. cbn. f_equal. exact IH.
  - apply Z.eqb_neq in Hx. rewrite Hx. exact IH.
Qed.

Lemma masked_at params index i : forall q v, nth_error index q = Some i -> nth_error params q = Some v ->
  nth_error (masked params index i) (occurrences i (firstn q index)) = Some v.
Proof.
  unfold masked, occurrences. revert params. induction index as [|x index IH]; intros params q v Hi Hv; [destruct q; discriminate|].
  destruct params as [|w params]; [destruct q; discriminate|]. destruct q as [|q]; cbn in *.
  - injection Hi as ->. injection Hv as ->. rewrite Z.eqb_refl. reflexivity.
  - destruct (Z.eq_dec x i) as [->|Hx]; [rewrite Z.eqb_refl; cbn; apply IH; assumption|].
    apply Z.eqb_neq in Hx. rewrite Hx. apply IH; assumption.
Qed.

Lemma masked_inv params index i : length params = length index -> forall j v, nth_error (masked params index i) j = Some v ->
  exists q, nth_error index q = Some i /\ occurrences i (firstn q index) = j /\ nth_error params q = Some v.
Proof.
  unfold masked, occurrences. revert params. induction index as [|x index IH]; intros [|w params] HL j v H; cbn in *; try discriminate; [destruct j; discriminate|].
  injection HL as HL. destruct (Z.eqb_spec x i) as [->|Hx].
  - destruct j as [|j]; cbn in H; [injection H as ->; exists 0%nat; cbn; auto|]. destruct (IH _ HL _ _ H) as (q & E1 & E2 & E3). exists (S q). cbn.
    destruct (Z.eq_dec i i); [|congruence]. repeat split; [exact E1|f_equal; exact E2|exact E3].
  - destruct (IH _ HL _ _ H) as (q & E1 & E2 & E3). exists (S q). cbn. destruct (Z.eq_dec x i); [congruence|]. auto.
Qed.

Lemma fold_max l : forall x, (forall y, In y (x :: l) -> (y <= fold_left Z.max l x)%Z) /\ In (fold_left Z.max l x) (x :: l).
Proof.
  induction l as [|z l IH]; intros x; cbn [fold_left]; [split; [intros y [<-|[]]; lia|left; reflexivity]|].
  destruct (IH (Z.max x z)) as [H1 H2]. split.
  - pose proof (H1 (Z.max x z) (or_introl eq_refl)). intros y [<-|[<-|Hy]]; [lia|lia|]. apply H1. right. exact Hy.
  - destruct H2 as [H2|H2]; [|right; right; exact H2]. rewrite <- H2. destruct (Z.max_spec x z) as [[_ ->]|[_ ->]]; [right; left; reflexivity|left; reflexivity].
Qed.
Lemma fold_min l : forall x, (forall y, In y (x :: l) -> (fold_left Z.min l x <= y)%Z) /\ In (fold_left Z.min l x) (x :: l).
Proof.
  induction l as [|z l IH]; intros x; cbn [fold_left]; [split; [intros y [<-|[]]; lia|left; reflexivity]|].
  destruct (IH (Z.min x z)) as [H1 H2]. split.
  - pose proof (H1 (Z.min x z) (or_introl eq_refl)). intros y [<-|[<-|Hy]]; [lia|lia|]. apply H1. right. exact Hy.
  - destruct H2 as [H2|H2]; [|right; right; exact H2]. rewrite <- H2. destruct (Z.min_spec x z) as [[_ ->]|[_ ->]]; [left; reflexivity|right; left; reflexivity].
Qed.

Lemma occ_in i l : (0 < occurrences i l)%nat <-> In i l.
Proof. unfold occurrences. symmetry. apply count_occ_In. Qed.

(** The rectangular block of numbers. *)
Definition block {A} (n : nat) (f : A -> nat -> R) (l : list A) : list (list R) := map (fun k => map (f k) (seq 0 n)) l.

Lemma snow_ok a f n sn : ((0 < snow_params a)%Z -> Snow f (la_snow_key a) (Z.to_nat (snow_params a)) n sn) -> Tables f -> (0 < n)%nat \/ la_snow_key a = None \/ (snow_params a <= 0)%Z ->
  snow_columns a f n = Ok (block n sn (seq 0 (Z.to_nat (snow_params a)))).
Proof.
  intros HS HT HN. unfold snow_columns. destruct (Z.ltb_spec 0 (snow_params a)) as [Hp|Hp]; [|replace (Z.to_nat (snow_params a)) with 0%nat by lia; reflexivity].
  specialize (HS Hp). unfold Snow in HS. destruct (la_snow_key a) as [key|].
  - destruct HS as (t & items & index & E1 & E2 & E3 & HI & HR & HO). unfold lookup. rewrite E1. cbn [bind]. rewrite E2. cbn [bind]. rewrite E3. cbn [bind].
    assert (Hn : (0 < n)%nat) by (destruct HN as [?|[?|?]]; [assumption|discriminate|lia]).
    destruct index as [|x index]; [congruence|]. unfold pick. cbn [bind].
    destruct (fold_max index x) as [M1 M2]. destruct (fold_min index x) as [m1 m2].
    assert (Hin : forall i, (i < Z.to_nat (snow_params a))%nat -> In (Z.of_nat i) (x :: index)) by (intros i Hi; apply occ_in; rewrite (proj1 (HO i Hi)); exact Hn).
    pose proof (HR _ M2). pose proof (HR _ m2). pose proof (m1 _ (Hin 0%nat ltac:(lia))).
    pose proof (M1 _ (Hin (Z.to_nat (snow_params a) - 1)%nat ltac:(lia))).
    replace (Z.eqb (fold_left Z.max index x) (snow_params a - 1)) with true by (symmetry; apply Z.eqb_eq; lia).
    replace (Z.eqb (fold_left Z.min index x) 0) with true by (symmetry; apply Z.eqb_eq; lia). cbn [check bind].
    apply collect_map. intros i Hi. apply in_seq in Hi. destruct (HO i ltac:(lia)) as [HC HJ]. destruct (HT _ _ E1) as (m & HC1 & HC2).
    assert (HL : length items = length (x :: index)) by (rewrite (HC1 _ _ E2), (HC2 _ E3); reflexivity).
    rewrite (masked_length _ _ _ HL), HC, Nat.eqb_refl. cbn [check bind]. f_equal. apply map_seq_ext; [rewrite (masked_length _ _ _ HL); exact HC|].
    intros j Hj. destruct (HJ j Hj) as (q & Q1 & Q2 & Q3). pose proof (masked_at _ _ _ _ _ Q1 Q3) as P. rewrite Q2 in P. exact P.
  - clear HN. f_equal. unfold block. assert (E : forall l : list nat, map (fun i => map (sn i) (seq 0 n)) l = map (fun _ => repeat 1 n) l).
    { intros l. apply map_ext. intros i. rewrite (map_ext _ (fun _ => 1)) by (intros j; apply HS). generalize (seq_length n 0). generalize (seq 0 n). intros s <-.
      induction s as [|y s IH]; cbn; [reflexivity|]. f_equal. exact IH. }
    rewrite E. generalize (Z.to_nat (snow_params a)). intros p. rewrite <- (seq_length p 0) at 1. generalize (seq 0 p). intros s. induction s as [|y s IH]; cbn; [reflexivity|]. f_equal. exact IH.
Qed.

Lemma snow_inv a f n cols : Tables f -> snow_columns a f n = Ok cols ->
  exists sn, ((0 < snow_params a)%Z -> Snow f (la_snow_key a) (Z.to_nat (snow_params a)) n sn) /\ ((0 < n)%nat \/ la_snow_key a = None \/ (snow_params a <= 0)%Z).
Proof.
  intros HT. unfold snow_columns. destruct (Z.ltb_spec 0 (snow_params a)) as [Hp|Hp]; [|intros _; exists (fun _ _ => 0); split; [lia|auto]].
  unfold Snow. destruct (la_snow_key a) as [key|]; [|intros _; exists (fun _ _ => 1); split; [reflexivity|auto]].
  intros H. apply bind_ok in H. destruct H as (t & E1 & H). apply lookup_ok in E1. apply bind_ok in H. destruct H as (items & E2 & H). apply lookup_ok in E2.
  apply bind_ok in H. destruct H as (index & E3 & H). destruct (vector_index t) as [index'|] eqn:EV; [|discriminate]. injection E3 as ->.
  apply bind_ok in H. destruct H as (hi & E4 & H). apply bind_ok in H. destruct H as (u & E5 & H). apply check_ok, Z.eqb_eq in E5. subst hi.
  apply bind_ok in H. destruct H as (lo & E6 & H). apply bind_ok in H. destruct H as (u' & E7 & H). apply check_ok, Z.eqb_eq in E7. subst lo.
  apply collect_ok in H. destruct index as [|x index]; [discriminate|]. cbn [pick] in E4, E6. injection E4 as E4. injection E6 as E6.
  destruct (HT _ _ E1) as (m & HC1 & HC2). assert (HL : length items = length (x :: index)) by (rewrite (HC1 _ _ E2), (HC2 _ EV); reflexivity).
  assert (HF : forall i, (i < Z.to_nat (snow_params a))%nat -> occurrences (Z.of_nat i) (x :: index) = n).
  { intros i Hi. destruct (Forall2_in_l _ _ _ i H) as (c & _ & Hc); [apply in_seq; lia|]. apply bind_ok in Hc. destruct Hc as (u2 & Hc & _).
    apply check_ok, Nat.eqb_eq in Hc. rewrite <- Hc. symmetry. apply masked_length. exact HL. }
  destruct (fold_max index x) as [M1 M2]. destruct (fold_min index x) as [m1 m2]. rewrite E4 in M1, M2. rewrite E6 in m1, m2.
  exists (fun i j => nth j (masked items (x :: index) (Z.of_nat i)) 0). split.
  - intros _. exists t, items, (x :: index). do 3 (split; [assumption|]). split; [discriminate|]. split.
    + intros i Hi. pose proof (M1 _ Hi). pose proof (m1 _ Hi). lia.
    + intros i Hi. split; [apply HF; exact Hi|]. intros j Hj. apply masked_inv; [exact HL|]. apply nth_error_nth'. rewrite masked_length by exact HL. rewrite HF by exact Hi. exact Hj.
  - left. rewrite <- (HF 0%nat ltac:(lia)). apply occ_in. exact m2.
Qed.

(** ** All columns *)

Lemma label_names_cons a : exists k l, label_names a = k :: l.
Proof. unfold label_names, cascade_labels, track_labels, segment_labels. destruct (la_class a); cbn; eauto. Qed.

Definition all_columns (a : label_args) (n : nat) (lab : string -> nat -> R) (sn : nat -> nat -> R) : list (list R) :=
  block n lab (label_names a) ++ block n sn (seq 0 (Z.to_nat (snow_params a))).

Lemma snow_positive a f n sn : (0 < snow_params a)%Z -> Snow f (la_snow_key a) (Z.to_nat (snow_params a)) n sn -> (0 < n)%nat \/ la_snow_key a = None \/ (snow_params a <= 0)%Z.
Proof.
  intros Hp H. unfold Snow in H. destruct (la_snow_key a) as [key|]; [|auto]. destruct H as (t & items & index & _ & _ & _ & HI & HR & HO). left.
  destruct index as [|x index]; [congruence|]. pose proof (HR x (or_introl eq_refl)). destruct (HO (Z.to_nat x)) as [E _]; [lia|]. rewrite <- E. apply occ_in.
  left. lia.
Qed.

Lemma hdf_columns_ok a f n lab sn : Tables f -> Readable a f n lab sn -> hdf_columns a f = Ok (all_columns a n lab sn).
Proof.
  intros HT (HL & HSeg & HS). unfold hdf_columns. destruct HL as (t & E1 & HL). unfold lookup at 1. rewrite E1. cbn [bind].
  rewrite (collect_map _ (fun k => map (lab k) (seq 0 n))).
  - cbn [bind]. assert (HX : (match la_class a with
        | SnowSegmentLabels => bind (lookup "track_distance_start" (columns t)) (fun start => check (forallb (fun v => Reqb v 0) start))
        | _ => Ok tt end) = Ok tt).
    { destruct (la_class a) eqn:EC; try reflexivity. destruct (HSeg eq_refl) as (t' & c & E & Ec & HF). rewrite E1 in E. injection E as <-. unfold lookup. rewrite Ec. cbn [bind].
      replace (forallb (fun v => Reqb v 0) c) with true; [reflexivity|]. symmetry. apply forallb_forall. intros v Hv. apply Reqb_true. rewrite Forall_forall in HF. apply HF. exact Hv. }
    rewrite HX. cbn [bind]. destruct (label_names_cons a) as (k0 & l0 & Ek). unfold all_columns. rewrite Ek at 1. cbn [map bind]. rewrite map_length, seq_length.
    rewrite (snow_ok a f n sn HS HT).
    + cbn [bind]. reflexivity.
    + destruct (Z.ltb_spec 0 (snow_params a)) as [Hp|Hp]; [|auto]. eapply snow_positive; [exact Hp|]. apply HS. exact Hp.
  - intros k Hk. destruct (HL k Hk) as (c & Ec & HLn & Hj). unfold lookup. rewrite Ec. f_equal. apply map_seq_ext; assumption.
Qed.

Lemma hdf_columns_inv a f cols : Tables f -> hdf_columns a f = Ok cols -> exists n lab sn, Readable a f n lab sn.
Proof.
  intros HT H. unfold hdf_columns in H. apply bind_ok in H. destruct H as (t & E1 & H). apply lookup_ok in E1.
  apply bind_ok in H. destruct H as (cs & E2 & H). apply collect_ok in E2. apply bind_ok in H. destruct H as (u & E3 & H).
  apply bind_ok in H. destruct H as (m & E4 & H). apply bind_ok in H. destruct H as (snow & E5 & _).
  destruct (HT _ _ E1) as (n & HC1 & HC2). assert (Em : m = n).
  { destruct cs as [|c cs]; [discriminate|]. injection E4 as <-. inversion E2 as [|k ? ? ? Ek]; subst. apply lookup_ok in Ek. exact (HC1 _ _ Ek). }
  subst m. destruct (snow_inv _ _ _ _ HT E5) as (sn & HS & _).
  exists n, (fun k j => match dget k (columns t) with Some c => nth j c 0 | None => 0 end), sn. split; [|split; [|exact HS]].
  - exists t. split; [exact E1|]. intros k Hk. destruct (Forall2_in_l _ _ _ _ E2 Hk) as (c & _ & Ec). apply lookup_ok in Ec. exists c. split; [exact Ec|].
    split; [exact (HC1 _ _ Ec)|]. intros j Hj. rewrite Ec. apply nth_error_nth'. rewrite (HC1 _ _ Ec). exact Hj.
  - intros Hc. rewrite Hc in E3. apply bind_ok in E3. destruct E3 as (c & Ec & E3). apply lookup_ok in Ec. exists t, c. split; [exact E1|]. split; [exact Ec|].
    apply check_ok in E3. rewrite forallb_forall in E3. apply Forall_forall. intros v Hv. apply Reqb_true. apply E3. exact Hv.
Qed.

(** ** Names of the labels *)

Fixpoint last_char (s : string) : option ascii :=
  match s with
  | EmptyString => None
  | String c r => match last_char r with Some d => Some d | None => Some c end
  end.
Lemma last_char_app s c r : last_char (s ++ String c r) = last_char (String c r).
Proof. induction s as [|d s IH]; [reflexivity|]. cbn [append last_char]. rewrite IH. cbn. destruct (last_char r); reflexivity. Qed.

Lemma energy_not_distance i j : cascade_label i "energy" <> cascade_label j "distance".
Proof.
  intros H. apply (f_equal last_char) in H.
  change (cascade_label i "energy") with ("cascade_" ++ (fmt04 i ++ String "_" "energy"))%string in H.
  change (cascade_label j "distance") with ("cascade_" ++ (fmt04 j ++ String "_" "distance"))%string in H.
  rewrite <- !append_assoc, !last_char_app in H. discriminate.
Qed.

Lemma app_suffix_inj (a b s : string) : (a ++ s)%string = (b ++ s)%string -> a = b.
Proof.
  revert b. induction a as [|c a IH]; intros [|d b] H; cbn in *; try reflexivity.
  - exfalso. apply (f_equal String.length) in H. cbn in H. rewrite (ltac:(clear; induction b; cbn; [reflexivity|rewrite IHb; reflexivity]) : String.length (b ++ s) = (String.length b + String.length s)%nat) in H. lia.
  - exfalso. apply (f_equal String.length) in H. cbn in H. rewrite (ltac:(clear; induction a; cbn; [reflexivity|rewrite IHa; reflexivity]) : String.length (a ++ s) = (String.length a + String.length s)%nat) in H. lia.
  - injection H as -> H. f_equal. apply IH. exact H.
Qed.

Lemma cascade_label_inj i j w : cascade_label i w = cascade_label j w -> i = j.
Proof. unfold cascade_label. intros H. apply append_inj_l in H. apply app_suffix_inj in H. apply fmt04_inj. exact H. Qed.

Lemma track_labels_in n k : In k (track_labels n) <->
  In k ["zenith"; "azimuth"; "track_anchor_x"; "track_anchor_y"; "track_anchor_z"; "track_anchor_time"; "track_energy";
   "track_distance_start"; "track_distance_end"; "track_stochasticity"]%string \/
  ((1 <= n)%Z /\ k = "cascade_0000_energy"%string) \/
  exists i, (1 <= i < Z.to_nat n)%nat /\ (k = cascade_label i "energy" \/ k = cascade_label i "distance").
Proof.
  unfold track_labels. rewrite in_app_iff. apply or_iff_compat_l. destruct (Z.leb_spec 1 n) as [H1|H1].
  - cbn [In]. destruct (Z.ltb_spec 1 n) as [H2|H2].
    + rewrite in_flat_map. split.
      * intros [<-|(i & Hi & [ <- | [ <- | [] ] ])]; [left; auto| |]; right; exists i; apply in_seq in Hi; split; try lia; [left|right]; reflexivity.
      * intros [[_ ->]|(i & Hi & [ -> | -> ])]; [left; reflexivity| |]; right; exists i; (split; [apply in_seq; lia|]); [left|right; left]; reflexivity.
    + cbn [In]. split; [intros [<-|[]]; left; auto|]. intros [[_ ->]|(i & Hi & _)]; [left; reflexivity|lia].
  - split; [intros []|]. intros [[? _]|(i & Hi & _)]; lia.
Qed.

Lemma pairs_nodup s : NoDup s -> NoDup (flat_map (fun i => [("cascade_" ++ fmt04 i ++ "_energy")%string; ("cascade_" ++ fmt04 i ++ "_distance")%string]) s).
Proof.
  induction 1 as [|i s Hi HN IH]; [constructor|]. cbn [flat_map app].
  assert (HX : forall k, In k (flat_map (fun i => [("cascade_" ++ fmt04 i ++ "_energy")%string; ("cascade_" ++ fmt04 i ++ "_distance")%string]) s) ->
    exists j, In j s /\ (k = cascade_label j "energy" \/ k = cascade_label j "distance")).
  { intros k Hk. apply in_flat_map in Hk. destruct Hk as (j & Hj & [<-|[<-|[]]]); exists j; split; auto. }
  constructor; [|constructor; [|exact IH]].
  - intros [H|H]; [symmetry in H; exact (energy_not_distance i i H)|]. destruct (HX _ H) as (j & Hj & [E|E]).
    + apply (cascade_label_inj i j "energy") in E. congruence.
    + exact (energy_not_distance i j E).
  - intros H. destruct (HX _ H) as (j & Hj & [E|E]).
    + symmetry in E. exact (energy_not_distance j i E).
    + apply (cascade_label_inj i j "distance") in E. congruence.
Qed.

Lemma track_labels_nodup n : NoDup (track_labels n).
Proof.
  unfold track_labels. destruct (Z.leb_spec 1 n) as [H1|H1]; [|repeat constructor; cbn; intuition discriminate].
  cbn [app]. do 10 (constructor; [cbn [In]; intros H; repeat (destruct H as [H|H]; [discriminate H|]);
    destruct (1 <? n)%Z; [|destruct H]; apply in_flat_map in H; destruct H as (j & _ & [H|[H|[]]]); discriminate H|]).
  destruct (Z.ltb_spec 1 n) as [H2|H2]; [|repeat constructor; cbn; tauto]. constructor; [|apply pairs_nodup, seq_NoDup].
  intros H. apply in_flat_map in H. destruct H as (j & Hj & [H|[H|[]]]); apply in_seq in Hj.
  - change ("cascade_0000_energy"%string) with (cascade_label 0 "energy") in H. apply (cascade_label_inj j 0 "energy") in H. lia.
  - change ("cascade_0000_energy"%string) with (cascade_label 0 "energy") in H. symmetry in H. exact (energy_not_distance 0 j H).
Qed.

(** ** Columns by name *)

Lemma parameter_dict_nth names i k : NoDup names -> nth_error names i = Some k -> dget k (parameter_dict names) = Some i.
Proof.
  intros HN Hi. unfold parameter_dict. apply fold_dset_nth with (p := i).
  - rewrite map_fst_combine by (rewrite seq_length; reflexivity). exact HN.
  - assert (Hlt : (i < length names)%nat) by (apply nth_error_Some; congruence).
    assert (HC : forall (l : list string) s j, nth_error l j = Some k -> nth_error (combine l (seq s (length l))) j = Some (k, (s + j)%nat)).
    { induction l as [|x l IH]; intros s j Hj; [destruct j; discriminate|]. destruct j as [|j]; cbn in *; [injection Hj as ->; rewrite Nat.add_0_r; reflexivity|].
      rewrite (IH (S s) j Hj). do 2 f_equal. lia. }
    exact (HC names 0%nat i Hi).
Qed.

Lemma nth_error_block {A} n (lab : A -> nat -> R) l i k : nth_error l i = Some k -> nth_error (block n lab l) i = Some (map (lab k) (seq 0 n)).
Proof. intros H. unfold block. rewrite nth_error_map, H. reflexivity. Qed.

Lemma get_block names n lab rest k : NoDup names -> In k names -> get_column names k (block n lab names ++ rest) = Ok (map (lab k) (seq 0 n)).
Proof.
  intros HN Hk. apply In_nth_error in Hk. destruct Hk as (i & Hi). unfold get_column, lookup. rewrite (parameter_dict_nth _ _ _ HN Hi). cbn [bind].
  rewrite nth_error_app1 by (unfold block; rewrite map_length; apply nth_error_Some; congruence). rewrite (nth_error_block _ _ _ _ _ Hi). reflexivity.
Qed.

Definition upd (k : string) (v : nat -> R) (lab : string -> nat -> R) : string -> nat -> R :=
  fun k' => if String.eqb k' k then v else lab k'.

Lemma upd_same k v lab : upd k v lab k = v.
Proof. unfold upd. rewrite String.eqb_refl. reflexivity. Qed.
Lemma upd_other k k' v lab : k' <> k -> upd k v lab k' = lab k'.
Proof. unfold upd. intros H. apply String.eqb_neq in H. rewrite H. reflexivity. Qed.

Lemma replace_at_nth {A} (l : list A) : forall i v j, (i < length l)%nat -> nth_error (replace_at i v l) j = if Nat.eqb j i then Some v else nth_error l j.
Proof.
  induction l as [|x l IH]; intros i v j H; cbn in H; [lia|]. destruct i as [|i]; cbn.
  - destruct j; reflexivity.
  - destruct j as [|j]; cbn; [reflexivity|]. apply IH. lia.
Qed.
Lemma replace_at_length {A} (l : list A) : forall i v, length (replace_at i v l) = length l.
Proof. induction l as [|x l IH]; intros [|i] v; cbn; try reflexivity. rewrite IH. reflexivity. Qed.

Lemma update_block names n lab rest k op h : NoDup names -> In k names ->
  update_column names k op (map h (seq 0 n)) (block n lab names ++ rest) = Ok (block n (upd k (fun j => op (lab k j) (h j)) lab) names ++ rest).
Proof.
  intros HN Hk. pose proof (get_block names n lab rest k HN Hk) as HG. apply In_nth_error in Hk. destruct Hk as (i & Hi).
  unfold get_column, update_column, lookup in *. rewrite (parameter_dict_nth _ _ _ HN Hi) in *. cbn [bind] in *.
  destruct (nth_error (block n lab names ++ rest) i) as [c|] eqn:E; [|discriminate]. injection HG as ->. f_equal. rewrite zipw_map.
  assert (Hlt : (i < length names)%nat) by (apply nth_error_Some; congruence).
  assert (Hb : length (block n lab names) = length names) by (unfold block; apply map_length).
  assert (Hb' : length (block n (upd k (fun j => op (lab k j) (h j)) lab) names) = length names) by (unfold block; apply map_length).
  apply list_ext; [rewrite replace_at_length, !app_length, Hb, Hb'; reflexivity|]. intros j x Hx.
  rewrite replace_at_nth by (rewrite app_length, Hb; lia). destruct (Nat.lt_ge_cases j (length names)) as [Hj|Hj].
  - rewrite nth_error_app1 in Hx by (rewrite Hb'; exact Hj). rewrite nth_error_app1 by (rewrite Hb; exact Hj).
    destruct (nth_error names j) as [kj|] eqn:Ej; [|apply nth_error_None in Ej; lia].
    rewrite (nth_error_block _ _ _ _ _ Ej) in Hx. rewrite (nth_error_block _ _ _ _ _ Ej). rewrite <- Hx. destruct (Nat.eqb_spec j i) as [->|Hji].
    + rewrite Hi in Ej. injection Ej as <-. rewrite upd_same. reflexivity.
    + rewrite upd_other; [reflexivity|]. intros ->. apply Hji. eapply NoDup_nth_error; [exact HN|exact Hj|congruence].
  - rewrite nth_error_app2 in Hx by (rewrite Hb'; exact Hj). rewrite nth_error_app2 by (rewrite Hb; exact Hj). rewrite Hb' in Hx. rewrite Hb.
    destruct (Nat.eqb_spec j i); [lia|exact Hx].
Qed.

(** ** Shifts *)

Lemma depth_eq e : length_to_maximum e = depth e.
Proof. unfold length_to_maximum, depth. f_equal. field. Qed.

Lemma distances_ok names n lab0 rest is : NoDup names -> NoDup is ->
  (forall i, In i is -> In (cascade_label i "energy") names /\ In (cascade_label i "distance") names) ->
  forall lab, exists lab', shift_distances names (map lab0 (seq 0 n)) is (block n lab names ++ rest) = Ok (block n lab' names ++ rest) /\
    (forall i j, In i is -> lab' (cascade_label i "distance") j = lab (cascade_label i "distance") j - lab0 j + depth (lab (cascade_label i "energy") j)) /\
    forall k j, (forall i, In i is -> k <> cascade_label i "distance") -> lab' k j = lab k j.
Proof.
  intros HN HI. induction HI as [|i is Hi HI IH]; intros HK lab; cbn [shift_distances].
  - exists lab. split; [reflexivity|]. split; [intros i j []|reflexivity].
  - destruct (HK i (or_introl eq_refl)) as [He Hd].
    change ("cascade_" ++ fmt04 i ++ "_energy")%string with (cascade_label i "energy"). change ("cascade_" ++ fmt04 i ++ "_distance")%string with (cascade_label i "distance").
    rewrite get_block by assumption. cbn [bind]. rewrite map_map, (update_block names n lab rest _ Rminus lab0 HN Hd). cbn [bind].
    rewrite (update_block names n _ rest _ Rplus (fun j => length_to_maximum (lab (cascade_label i "energy") j)) HN Hd). cbn [bind].
    destruct (IH (fun j Hj => HK j (or_intror Hj)) (upd (cascade_label i "distance")
       (fun j => upd (cascade_label i "distance") (fun j0 => lab (cascade_label i "distance") j0 - lab0 j0) lab (cascade_label i "distance") j + length_to_maximum (lab (cascade_label i "energy") j))
       (upd (cascade_label i "distance") (fun j => lab (cascade_label i "distance") j - lab0 j) lab))) as (lab' & E & H1 & H2).
    exists lab'. split; [exact E|]. split.
    + intros i' j [<-|Hi'].
      * rewrite H2; [rewrite !upd_same, depth_eq; reflexivity|]. intros i' Hi' Hc. apply cascade_label_inj in Hc. congruence.
      * rewrite H1 by exact Hi'. rewrite !upd_other; [reflexivity|apply energy_not_distance|apply energy_not_distance| |]; intros Hc; apply cascade_label_inj in Hc; congruence.
    + intros k j Hk. rewrite H2 by (intros i' Hi'; apply Hk; right; exact Hi'). rewrite !upd_other by (apply Hk; left; reflexivity). reflexivity.
Qed.

Lemma flight_at x y z t zenith azimuth s :
  Flight (x, y, z) t (x + - sin zenith * cos azimuth * s, y + - sin zenith * sin azimuth * s, z + - cos zenith * s) (t + s / c_light) zenith azimuth s.
Proof.
  unfold Flight, minus, scale, origin, c_light. split; [|field]. repeat (f_equal; try ring).
Qed.

Lemma track_moved m n lab rest : (0 <= m)%Z ->
  exists lab', shift_tracks m (block n lab (track_labels m) ++ rest) = Ok (block n lab' (track_labels m) ++ rest) /\
    forall j, TrackMoved (Z.to_nat m) (fun k => lab k j) (fun k => lab' k j).
Proof.
  intros Hm. pose proof (track_labels_nodup m) as HN. unfold shift_tracks. cbv zeta.
  assert (HB : forall k, In k ["zenith"; "azimuth"; "track_anchor_x"; "track_anchor_y"; "track_anchor_z"; "track_anchor_time"; "track_energy";
   "track_distance_start"; "track_distance_end"; "track_stochasticity"]%string -> In k (track_labels m)) by (intros k Hk; apply track_labels_in; left; exact Hk).
  rewrite get_block by (try assumption; apply HB; cbn; tauto). cbn [bind]. rewrite get_block by (try assumption; apply HB; cbn; tauto). cbn [bind].
  destruct (Z.ltb_spec 0 m) as [Hp|Hp].
  2: { exists lab. split; [reflexivity|]. intros j. replace (Z.to_nat m) with 0%nat by lia. cbn. reflexivity. }
  assert (H0 : In "cascade_0000_energy"%string (track_labels m)) by (apply track_labels_in; right; left; split; [lia|reflexivity]).
  rewrite get_block by assumption. cbn [bind]. rewrite !map_map. rewrite !zipw_map.
  do 6 (rewrite update_block by (try assumption; apply HB; cbn; tauto); cbn [bind]).
  match goal with |- context [block n ?L _] => set (lab6 := L) end.
  destruct (distances_ok (track_labels m) n (fun j => length_to_maximum (lab "cascade_0000_energy"%string j)) rest (seq 1 (Z.to_nat m - 1)) HN (seq_NoDup _ _)) with (lab := lab6) as (lab' & E & H1 & H2).
  { intros i Hi. apply in_seq in Hi. split; apply track_labels_in; right; right; exists i; split; try lia; [left|right]; reflexivity. }
  exists lab'. split; [exact E|]. intros j.
  assert (HC : forall s i, In s ["track_anchor_x"; "track_anchor_y"; "track_anchor_z"; "track_anchor_time"; "track_distance_start"; "track_distance_end"]%string -> s <> cascade_label i "distance").
  { intros s i Hs. repeat (destruct Hs as [<-|Hs]; [discriminate|]). destruct Hs. }
  assert (HD : forall i w, upd "track_anchor_x" (fun _ => 0) (fun _ _ => 1) (cascade_label i w) = (fun _ => 1)) by reflexivity.
  destruct (Z.to_nat m) as [|m'] eqn:Em; [lia|]. unfold TrackMoved.
  split; [|split; [|split; [|split]]].
  - rewrite !H2 by (intros i _; apply HC; cbn; tauto). unfold lab6, upd. cbn [String.eqb Ascii.eqb Bool.eqb]. rewrite depth_eq. apply flight_at.
  - rewrite !H2 by (intros i _; apply HC; cbn; tauto). unfold lab6, upd. cbn [String.eqb Ascii.eqb Bool.eqb]. rewrite depth_eq. reflexivity.
  - rewrite !H2 by (intros i _; apply HC; cbn; tauto). unfold lab6, upd. cbn [String.eqb Ascii.eqb Bool.eqb]. rewrite depth_eq. reflexivity.
  - intros i Hi. rewrite H1 by (apply in_seq; lia). rewrite depth_eq. unfold lab6. rewrite !upd_other by discriminate. reflexivity.
  - intros k Hk Hd. rewrite H2 by (intros i Hi; apply in_seq in Hi; apply Hd; lia). unfold lab6. cbn [In] in Hk. rewrite !upd_other by (intros ->; tauto). reflexivity.
Qed.

Lemma cascade_moved n lab add rest : NoDup (cascade_labels add) ->
  exists lab', shift_cascades (block n lab (cascade_labels add) ++ rest) = block n lab' (cascade_labels add) ++ rest /\
    forall j, CascadeMoved (fun k => lab k j) (fun k => lab' k j).
Proof.
  intros HN.
  exists (fun k j => if String.eqb k "cascade_x" then lab k j + - sin (lab "cascade_zenith"%string j) * cos (lab "cascade_azimuth"%string j) * depth (lab "cascade_energy"%string j)
    else if String.eqb k "cascade_y" then lab k j + - sin (lab "cascade_zenith"%string j) * sin (lab "cascade_azimuth"%string j) * depth (lab "cascade_energy"%string j)
    else if String.eqb k "cascade_z" then lab k j + - cos (lab "cascade_zenith"%string j) * depth (lab "cascade_energy"%string j)
    else if String.eqb k "cascade_t" then lab k j + depth (lab "cascade_energy"%string j) / c_light else lab k j). split.
  - unfold cascade_labels, block. cbn [app map shift_cascades]. rewrite !map_map, !zipw_map.
    assert (ED : forall j, length_to_maximum (lab "cascade_energy"%string j) = depth (lab "cascade_energy"%string j)) by (intros j; apply depth_eq).
    assert (ER : map (fun k => map (lab k) (seq 0 n)) add = map (fun k => map (fun j => if String.eqb k "cascade_x" then lab k j + - sin (lab "cascade_zenith"%string j) * cos (lab "cascade_azimuth"%string j) * depth (lab "cascade_energy"%string j)
    else if String.eqb k "cascade_y" then lab k j + - sin (lab "cascade_zenith"%string j) * sin (lab "cascade_azimuth"%string j) * depth (lab "cascade_energy"%string j)
    else if String.eqb k "cascade_z" then lab k j + - cos (lab "cascade_zenith"%string j) * depth (lab "cascade_energy"%string j)
    else if String.eqb k "cascade_t" then lab k j + depth (lab "cascade_energy"%string j) / c_light else lab k j) (seq 0 n)) add).
    { apply map_ext_in. intros k Hk. apply map_ext. intros j.
      assert (HX : forall s, In s ["cascade_x"; "cascade_y"; "cascade_z"; "cascade_zenith"; "cascade_azimuth"; "cascade_energy"; "cascade_t"]%string -> k <> s).
      { intros s Hs ->. unfold cascade_labels in HN. revert Hs HN. generalize ["cascade_x"; "cascade_y"; "cascade_z"; "cascade_zenith"; "cascade_azimuth"; "cascade_energy"; "cascade_t"]%string.
        induction l as [|y l IH]; intros Hs HN; [destruct Hs|]. inversion HN as [|? ? Hy HN']; subst. destruct Hs as [->|Hs]; [apply Hy, in_or_app; right; exact Hk|]. apply IH; assumption. }
      rewrite !(proj2 (String.eqb_neq _ _)) by (apply HX; cbn; tauto). reflexivity. }
    rewrite <- ER. cbn [String.eqb Ascii.eqb Bool.eqb]. repeat (f_equal; [apply map_ext; intros j; rewrite ?ED; reflexivity|]).
    do 3 f_equal. f_equal. apply map_ext; intros j; rewrite ?ED; reflexivity.
  - intros j. split; [cbn [String.eqb Ascii.eqb Bool.eqb]; apply flight_at|]. intros k Hk. cbn [In] in Hk.
    rewrite !(proj2 (String.eqb_neq _ _)) by (intros ->; tauto). reflexivity.
Qed.

(** ** Everything together *)

Lemma transpose_block (cols : list (list R)) n : cols <> [] -> Forall (fun c => length c = n) cols ->
  transpose cols = Ok (map (fun j => map (fun d => nth j d 0) cols) (seq 0 n)).
Proof.
  intros HC HF. destruct cols as [|c cols]; [congruence|]. unfold transpose. pose proof (Forall_inv HF) as Hc. rewrite Hc.
  replace (forallb (fun d => Nat.eqb (length d) n) (c :: cols)) with true; [reflexivity|]. symmetry. apply forallb_forall. intros d Hd. apply Nat.eqb_eq.
  rewrite Forall_forall in HF. apply HF. exact Hd.
Qed.

Lemma transpose_all a n lab sn : transpose (all_columns a n lab sn) = Ok (map (fun j => plain_row a (fun k => lab k j) (fun i => sn i j)) (seq 0 n)).
Proof.
  rewrite (transpose_block _ n).
  - f_equal. apply map_ext_in. intros j Hj. apply in_seq in Hj. unfold all_columns, plain_row, block. rewrite map_app, !map_map. f_equal; apply map_ext; intros k;
      apply nth_error_nth, nth_error_map_seq; lia.
  - unfold all_columns. destruct (label_names_cons a) as (k & l & ->). discriminate.
  - unfold all_columns, block. apply Forall_app. split; apply Forall_forall; intros c Hc; apply in_map_iff in Hc; destruct Hc as (k & <- & _); rewrite map_length, seq_length; reflexivity.
Qed.

(** Configurations the module accepts: a non-negative number of cascades. *)
Definition sane (a : label_args) : Prop := la_class a = SnowTrackLabels -> (0 <= la_cascades a)%Z.

Lemma shift_all a n lab sn : sane a -> NoDup (label_names a) ->
  exists lab', shift_columns a (all_columns a n lab sn) = Ok (all_columns a n lab' sn) /\ forall j, Moved a (fun k => lab k j) (fun k => lab' k j).
Proof.
  intros HS HN. unfold shift_columns, shifts, Moved, sane, all_columns, label_names in *.
  destruct (la_class a) eqn:EC; (destruct (la_shift a) as [|[|]| | | | |];
    [exists lab; split; reflexivity| |exists lab; split; reflexivity|exists lab; split; reflexivity|exists lab; split; reflexivity|exists lab; split; reflexivity|exists lab; split; reflexivity|exists lab; split; reflexivity]).
  - destruct (cascade_moved n lab [] (block n sn (seq 0 (Z.to_nat (snow_params a)))) HN) as (lab' & E & H). exists lab'. rewrite E. auto.
  - destruct (cascade_moved n lab _ (block n sn (seq 0 (Z.to_nat (snow_params a)))) HN) as (lab' & E & H). exists lab'. rewrite E. auto.
  - apply track_moved. apply HS. reflexivity.
  - exists lab. split; reflexivity.
Qed.

Lemma finish_ok a n lab sn : sane a -> NoDup (label_names a) ->
  exists lab', finish_loading a (Ok (all_columns a n lab sn)) = Ok (Some (n, map (fun j => plain_row a (fun k => lab' k j) (fun i => sn i j)) (seq 0 n))) /\
    forall j, Moved a (fun k => lab k j) (fun k => lab' k j).
Proof.
  intros HS HN. destruct (shift_all a n lab sn HS HN) as (lab' & E & H). exists lab'. split; [|exact H]. unfold finish_loading. rewrite E. cbn [bind].
  rewrite transpose_all. cbn [bind]. rewrite map_length, seq_length. reflexivity.
Qed.

(** ** Grouped vectors *)

Lemma masked_app a ia b ib i : length a = length ia -> masked (a ++ b) (ia ++ ib) i = masked a ia i ++ masked b ib i.
Proof.
  unfold masked. revert ia. induction a as [|x a IH]; intros [|y ia] H; cbn in *; try discriminate; [reflexivity|]. injection H as H.
  destruct (Z.eqb y i); cbn; rewrite (IH _ H); reflexivity.
Qed.

Lemma indices_nodup p : NoDup (map Z.of_nat (seq 0 p)).
Proof. apply nodup_map; [intros x y H; lia|apply seq_NoDup]. Qed.

Lemma indices_once p i : (i < p)%nat -> occurrences (Z.of_nat i) (map Z.of_nat (seq 0 p)) = 1%nat.
Proof.
  intros H. unfold occurrences. apply NoDup_count_occ'; [apply indices_nodup|]. apply in_map. apply in_seq. lia.
Qed.

Lemma masked_vector v p i : length v = p -> (i < p)%nat -> masked v (map Z.of_nat (seq 0 p)) (Z.of_nat i) = [nth i v 0].
Proof.
  intros HL Hi. assert (HL' : length v = length (map Z.of_nat (seq 0 p))) by (rewrite map_length, seq_length; exact HL).
  pose proof (masked_length v (map Z.of_nat (seq 0 p)) (Z.of_nat i) HL') as HM. rewrite indices_once in HM by exact Hi.
  assert (HA : nth_error (masked v (map Z.of_nat (seq 0 p)) (Z.of_nat i)) (occurrences (Z.of_nat i) (firstn i (map Z.of_nat (seq 0 p)))) = Some (nth i v 0)).
  { apply masked_at; [apply nth_error_map_seq; exact Hi|]. apply nth_error_nth'. lia. }
  destruct (masked v (map Z.of_nat (seq 0 p)) (Z.of_nat i)) as [|x [|y l]]; cbn in HM; try lia.
  destruct (occurrences (Z.of_nat i) (firstn i (map Z.of_nat (seq 0 p)))) as [|[|o]]; cbn in HA; try discriminate. injection HA as ->. reflexivity.
Qed.

Lemma masked_grouped p i vectors : (i < p)%nat -> Forall (fun v => length v = p) vectors ->
  masked (concat vectors) (concat (map (fun _ => map Z.of_nat (seq 0 p)) vectors)) (Z.of_nat i) = map (fun v => nth i v 0) vectors.
Proof.
  intros Hi. induction 1 as [|v vectors Hv HF IH]; [reflexivity|]. cbn [concat map]. rewrite masked_app by (rewrite map_length, seq_length; exact Hv).
  rewrite (masked_vector v p i Hv Hi), IH. reflexivity.
Qed.

Lemma grouped_length p (vectors : list (list R)) : Forall (fun v => length v = p) vectors ->
  length (concat vectors) = length (concat (map (fun _ => map Z.of_nat (seq 0 p)) vectors)).
Proof. induction 1 as [|v l Hv HF IH]; [reflexivity|]. cbn [concat map]. rewrite !app_length, map_length, seq_length, Hv, IH. reflexivity. Qed.

Lemma grouped_snow f k t p vectors sn : dget k f = Some t -> (0 < p)%nat -> vectors <> [] -> Grouped t p vectors ->
  (forall i j v, (i < p)%nat -> nth_error vectors j = Some v -> nth_error v i = Some (sn i j)) -> Snow f (Some k) p (length vectors) sn.
Proof.
  intros Hk Hp HV (E1 & E2 & HF) HS. exists t, (concat vectors), (concat (map (fun _ => map Z.of_nat (seq 0 p)) vectors)). do 3 (split; [assumption|]).
  pose proof (grouped_length _ _ HF) as HL. split; [|split].
  - destruct vectors as [|v vectors]; [congruence|]. cbn. destruct p; [lia|discriminate].
  - intros i Hi. apply in_concat in Hi. destruct Hi as (l & Hl & Hi). apply in_map_iff in Hl. destruct Hl as (v & <- & _). apply in_map_iff in Hi.
    destruct Hi as (x & <- & Hx). apply in_seq in Hx. lia.
  - intros i Hi. pose proof (masked_grouped p i vectors Hi HF) as HM. split.
    + rewrite <- (masked_length _ _ _ HL), HM, map_length. reflexivity.
    + intros j Hj. apply masked_inv; [exact HL|]. rewrite HM, nth_error_map. destruct (nth_error vectors j) as [v|] eqn:Ev; [|apply nth_error_None in Ev; lia].
      cbn. f_equal. apply nth_error_nth. apply HS; assumption.
Qed.

(** ** Frames *)

Lemma frame_columns_ok a f lab sn : FrameReadable a f lab sn -> frame_columns a f = Ok (all_columns a 1 (fun k _ => lab k) (fun i _ => sn i)).
Proof.
  intros (HL & HSeg & HS). unfold frame_columns. destruct HL as (m & E1 & HL). unfold lookup at 1. rewrite E1. cbn [bind].
  rewrite (collect_map _ (fun k => map (fun _ => lab k) (seq 0 1))).
  2: { intros k Hk. unfold frame_label, lookup. rewrite (HL k Hk). reflexivity. }
  cbn [bind]. assert (HX : (match la_class a with
        | SnowSegmentLabels => bind (frame_label (LMap m) "track_distance_start") (fun start => check (forallb (fun v => Reqb v 0) start))
        | _ => Ok tt end) = Ok tt).
  { destruct (la_class a) eqn:EC; try reflexivity. destruct (HSeg eq_refl) as (m' & E & Ec). rewrite E1 in E. injection E as <-.
    unfold frame_label, lookup. rewrite Ec. cbn [bind forallb]. rewrite (proj2 (Reqb_true 0 0) eq_refl). reflexivity. }
  rewrite HX. cbn [bind]. destruct (label_names_cons a) as (k0 & l0 & Ek). unfold all_columns. rewrite Ek at 1. cbn [map bind seq length].
  assert (HF : frame_snow a f 1 = Ok (block 1 (fun i _ => sn i) (seq 0 (Z.to_nat (snow_params a))))); [|rewrite HF; reflexivity].
  unfold frame_snow. destruct (Z.ltb_spec 0 (snow_params a)) as [Hp|Hp]; [|replace (Z.to_nat (snow_params a)) with 0%nat by lia; reflexivity].
  specialize (HS Hp). destruct (la_snow_key a) as [key|].
  - destruct HS as (v & Ev & Hv & Hi). unfold lookup. rewrite Ev. cbn [bind frame_length]. rewrite Hv, Z.eqb_refl. cbn [check bind]. apply collect_map.
    intros i Hin. apply in_seq in Hin. unfold frame_item. rewrite Hi by lia. reflexivity.
  - f_equal. unfold block. generalize (Z.to_nat (snow_params a)). intros p. rewrite <- (seq_length p 0) at 1. generalize (seq 0 p). intros s.
    induction s as [|y s IH]; cbn; [reflexivity|]. rewrite HS. f_equal. exact IH.
Qed.

Lemma frame_columns_inv a f cols : frame_columns a f = Ok cols -> exists lab sn, FrameReadable a f lab sn.
Proof.
  intros H. unfold frame_columns in H. apply bind_ok in H. destruct H as (o & E1 & H). apply lookup_ok in E1.
  apply bind_ok in H. destruct H as (cs & E2 & H). apply collect_ok in E2. apply bind_ok in H. destruct H as (u & E3 & H).
  apply bind_ok in H. destruct H as (n & E4 & H). apply bind_ok in H. destruct H as (snow & E5 & _).
  assert (HM : exists m, o = LMap m).
  { destruct o as [m|v]; [eauto|]. destruct (label_names_cons a) as (k & l & Ek). rewrite Ek in E2. inversion E2 as [|? ? ? ? Hk]; subst. discriminate. }
  destruct HM as (m & ->).
  assert (HK : forall k, In k (label_names a) -> exists x, dget k m = Some x).
  { intros k Hk. destruct (Forall2_in_l _ _ _ _ E2 Hk) as (c & _ & Ec). cbn [frame_label] in Ec. apply bind_ok in Ec. destruct Ec as (x & Ex & _). apply lookup_ok in Ex. eauto. }
  assert (HSn : exists sn : nat -> R, (0 < snow_params a)%Z ->
   match la_snow_key a with
   | None => forall i, sn i = 1
   | Some k => exists v, dget k f = Some (LVector v) /\ Z.of_nat (length v) = snow_params a /\
                 forall i, (i < length v)%nat -> nth_error v i = Some (sn i)
   end).
  { unfold frame_snow in E5. destruct (Z.ltb_spec 0 (snow_params a)) as [Hp|Hp]; [|exists (fun _ => 0); lia]. destruct (la_snow_key a) as [key|]; [|exists (fun _ => 1); reflexivity].
    apply bind_ok in E5. destruct E5 as (s & Es & E5). apply lookup_ok in Es. apply bind_ok in E5. destruct E5 as (u' & Ec & E5). apply check_ok, Z.eqb_eq in Ec.
    apply collect_ok in E5. destruct s as [m'|v].
    - exfalso. destruct (Forall2_in_l _ _ _ 0%nat E5) as (c & _ & Hc); [apply in_seq; lia|]. discriminate.
    - exists (fun i => nth i v 0). intros _. exists v. split; [exact Es|]. split; [exact Ec|]. intros i Hi. apply nth_error_nth'. exact Hi. }
  destruct HSn as (sn & HSn). exists (fun k => match dget k m with Some x => x | None => 0 end), sn. split; [|split; [|exact HSn]].
  - exists m. split; [exact E1|]. intros k Hk. destruct (HK k Hk) as (x & ->). reflexivity.
  - intros Hc. rewrite Hc in E3. apply bind_ok in E3. destruct E3 as (c & Ec & E3). cbn [frame_label] in Ec. apply bind_ok in Ec. destruct Ec as (x & Ex & Ec). injection Ec as <-.
    apply lookup_ok in Ex. apply check_ok in E3. cbn in E3. rewrite andb_true_r in E3. apply Reqb_true in E3. subst x. exists m. auto.
Qed.

(** ** Labels after the shift are determined *)

Lemma flight_unique p t q q' t1 t2 zenith azimuth s : Flight p t q t1 zenith azimuth s -> Flight p t q' t2 zenith azimuth s -> q = q' /\ t1 = t2.
Proof.
  unfold Flight. destruct p as [[px py] pz], q as [[qx qy] qz], q' as [[rx ry] rz]. intros [H1 H2] [H3 H4]. rewrite <- H3 in H1. cbn in H1. injection H1 as A B C.
  split; [repeat f_equal; lra|]. apply (Rmult_eq_reg_r (299792458 / 1000000000)); lra.
Qed.

Lemma moved_unique a v w w' : Moved a v w -> Moved a v w' -> forall k, w k = w' k.
Proof.
  unfold Moved.
  assert (HC : CascadeMoved v w -> CascadeMoved v w' -> forall k, w k = w' k).
  { intros [H1 H2] [H3 H4] k. destruct (flight_unique _ _ _ _ _ _ _ _ _ H1 H3) as [E Et]. injection E as Ex Ey Ez.
    destruct (in_dec string_dec k ["cascade_x"; "cascade_y"; "cascade_z"; "cascade_t"]%string) as [Hk|Hk]; [|rewrite H2, H4 by exact Hk; reflexivity].
    cbn in Hk. destruct Hk as [<-|[<-|[<-|[<-|[]]]]]; assumption. }
  assert (HT : forall n, TrackMoved n v w -> TrackMoved n v w' -> forall k, w k = w' k).
  { intros n. destruct n as [|n]; [intros H1 H2 k; rewrite H1, H2; reflexivity|]. unfold TrackMoved. intros (F1 & S1 & D1 & C1 & O1) (F2 & S2 & D2 & C2 & O2) k.
    destruct (flight_unique _ _ _ _ _ _ _ _ _ F1 F2) as [E Et]. injection E as Ex Ey Ez.
    destruct (in_dec string_dec k ["track_anchor_x"; "track_anchor_y"; "track_anchor_z"; "track_anchor_time"; "track_distance_start"; "track_distance_end"]%string) as [Hk|Hk].
    { cbn in Hk. destruct Hk as [<-|[<-|[<-|[<-|[<-|[<-|[]]]]]]]; try assumption; congruence. }
    destruct (in_dec string_dec k (map (fun i => cascade_label i "distance") (seq 1 n))) as [Hd|Hd].
    - apply in_map_iff in Hd. destruct Hd as (i & <- & Hi). apply in_seq in Hi. rewrite C1, C2 by lia. reflexivity.
    - assert (HN : forall i, (1 <= i < S n)%nat -> k <> cascade_label i "distance").
      { intros i Hi ->. apply Hd, in_map_iff. exists i. split; [reflexivity|]. apply in_seq. lia. }
      rewrite O1, O2 by assumption. reflexivity. }
  destruct (la_shift a) as [|[|]| | | | |]; destruct (la_class a); auto; try (intros H1 H2 k; rewrite H1, H2; reflexivity). apply HT.
Qed.

(** Names of the track source. *)
Lemma track_names_eq format c m : num_cascades c = Z.to_nat m ->
  track_names format c = track_labels m ++ flat_map (fun p => map (format (fst p)) (seq 0 (snd p))) (snowstorm c).
Proof.
  intros E. unfold track_names, track_labels. rewrite E. rewrite <- app_assoc. f_equal. destruct (Z.leb_spec 1 m) as [H1|H1].
  - replace (Nat.leb 1 (Z.to_nat m)) with true by (symmetry; apply Nat.leb_le; lia). cbn [app]. f_equal. destruct (Z.ltb_spec 1 m) as [H2|H2].
    + reflexivity.
    + replace (Z.to_nat m - 1)%nat with 0%nat by lia. reflexivity.
  - replace (Z.to_nat m) with 0%nat by lia. reflexivity.
Qed.

Lemma snow_names_length (format : string -> nat -> string) c : length (flat_map (fun p => map (format (fst p)) (seq 0 (snd p))) (snowstorm c)) = num_snowstorm c.
Proof.
  unfold num_snowstorm. assert (E : forall (l : list (string * nat)) n, fold_left (fun n p => (n + snd p)%nat) l n = (n + length (flat_map (fun p => map (format (fst p)) (seq 0 (snd p))) l))%nat).
  { induction l as [|p l IH]; intros n; cbn [fold_left flat_map]; [cbn; lia|]. rewrite IH, app_length, map_length, seq_length. lia. }
  rewrite E. reflexivity.
Qed.
