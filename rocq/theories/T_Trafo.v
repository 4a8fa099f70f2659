(** Property theorems C22-C24 and C64: the data transformation. *)
From Coq Require Import Psatz.
From Verif Require Import RList PyFacts M_Trafo S_Trafo L_Trafo.

(** ** Lemmas on configured objects *)

(** Objects obtained by configuring a transformer with a non-negative norm
    constant. *)
Definition Built (tr : trafo) : Prop :=
  exists ts c bs num, dwf ts /\ 0 <= c /\ configure None ts c bs num = Ok tr.

Lemma finish_all_only ts vars : forall data data' n s, finish_all ts vars data = Ok data' -> dget n data' = Some s ->
  dget n data = Some s \/ exists k t, nth_error ts k = Some (n, t) /\ active t = true.
Proof.
  induction ts as [|[nm t] ts IH]; intros data data' n s H Hd; cbn [finish_all] in H; [left; congruence|].
  assert (HR : forall d, finish_all ts vars d = Ok data' -> dget n d = Some s \/
     exists k t0, nth_error ((nm, t) :: ts) k = Some (n, t0) /\ active t0 = true).
  { intros d Hf. destruct (IH _ _ _ _ Hf Hd) as [H0|(k & t0 & H0 & H1)]; [left; exact H0|]. right. exists (S k), t0. auto. }
  destruct (ti_exists t && ti_trafo t) eqn:EA; [|apply HR; exact H].
  destruct (dget nm vars) as [a|]; [|discriminate]. destruct (finish t a) as [s0|]; [|discriminate].
  destruct (HR _ H) as [H0|H0]; [|right; exact H0].
  destruct (String.eqb_spec n nm) as [->|Hne]; [right; exists 0%nat, t; split; [reflexivity|exact EA]|].
  left. rewrite dget_dset_other in H0 by exact Hne. exact H0.
Qed.

Lemma finish_facts t a s : finish t a = Ok s ->
  length (st_mean s) = size (ti_shape t) /\ length (st_std s) = size (ti_shape t) /\
  Forall (fun x => 0 < x) (st_std s) /\ st_shape s = kept_shape (ti_shape t) (ti_axes t).
Proof.
  unfold finish. destruct (Reqb (a_n a) 0); [discriminate|]. intros H. injection H as <-. cbn [st_mean st_std st_shape].
  split; [apply cell_mean_length|]. split; [rewrite map_length; apply cell_mean_length|]. split; [|reflexivity].
  apply Forall_forall. intros x Hx. apply in_map_iff in Hx. destruct Hx as (y & <- & Hy).
  unfold cell_mean in Hy. apply in_map_iff in Hy. destruct Hy as (i & <- & _).
  match goal with |- context [Reqb ?m 0] => assert (H0 : 0 <= m); [apply Rmean_nonneg|destruct (Reqb m 0) eqn:E] end.
  - apply Forall_forall. intros z Hz. apply in_map_iff in Hz. destruct Hz as (j & <- & _).
    destruct (Nat.lt_ge_cases j (length (map (fun m2 => sqrt (m2 / a_n a)) (a_M2 a)))) as [Hl|Hl].
    + pose proof (nth_In _ 0 Hl) as HI. apply in_map_iff in HI. destruct HI as (u & <- & _). apply sqrt_pos.
    + rewrite nth_overflow by exact Hl. lra.
  - lra.
  - apply Reqb_false in E. lra.
Qed.

Lemma built_stats tr name s : Built tr -> dget name (tr_data tr) = Some s ->
  exists t, dget name (tr_tensors tr) = Some t /\ active t = true /\
  length (st_mean s) = size (ti_shape t) /\ length (st_std s) = size (ti_shape t) /\
  Forall (fun x => 0 < x) (st_std s) /\ st_shape s = kept_shape (ti_shape t) (ti_axes t) /\ 0 <= tr_norm tr.
Proof.
  intros (ts & c & bs & num & Hwf & Hc & H) Hd.
  assert (HA : exists k t, nth_error ts k = Some (name, t) /\ active t = true).
  { unfold configure in H. destruct (update_batches _ _ _ _) as [v|]; [|discriminate].
    destruct (finish_all ts v []) as [data|] eqn:EF; [|discriminate]. injection H as <-. cbn [tr_data] in Hd.
    destruct (finish_all_only ts v [] data name s EF Hd) as [H0|H0]; [discriminate|exact H0]. }
  destruct HA as (k & t & Hk & Ha).
  destruct (configure_at None ts c bs num tr name t k H Hwf Hk Ha) as (_ & _ & H1 & H2 & a & s' & _ & H4 & H5).
  assert (s' = s) by congruence. subst s'. destruct (finish_facts t a s H4) as (F1 & F2 & F3 & F4).
  exists t. rewrite H1, H2. split; [apply In_dget; [exact Hwf|apply nth_error_In in Hk; exact Hk]|]. auto 10.
Qed.

(** ** C22 *)

Lemma seen_unique t i x v w : ti_shape t <> [] -> (i < size (ti_shape t))%nat -> Seen t i x v -> Seen t i x w -> v = w.
Proof.
  intros Hs Hi [A1 A2] [B1 B2].
  assert (HD : Logged t i \/ ~ Logged t i).
  { destruct (ti_log t) as [flags|] eqn:HL; [|right; unfold Logged; rewrite HL; tauto].
    pose proof (flag_logged t flags i HL Hs Hi) as HF. destruct (flag_at flags (ti_shape t) i); [left; apply HF; reflexivity|].
    right. intros H. apply HF in H. discriminate. }
  destruct HD as [HD|HD]; [rewrite (A1 HD), (B1 HD)|rewrite (A2 HD), (B2 HD)]; reflexivity.
Qed.

Lemma vals_col t j evs vs : ti_shape t <> [] -> (j < size (ti_shape t))%nat ->
  Forall2 (fun e v => exists x, nth_error e j = Some x /\ Seen t j x v) evs vs -> vs = col j (map (seen_event t) evs).
Proof.
  intros Hs Hj H. induction H as [|e v evs vs (x & Hx & HS) H IH]; [reflexivity|].
  unfold col in *. cbn [map]. rewrite <- IH. f_equal.
  destruct (seen_event_spec t e j x Hs Hj Hx) as (v' & E1 & E2). rewrite (nth_error_nth _ _ _ E1).
  apply (seen_unique t j x v v' Hs Hj HS E2).
Qed.

(** For every transformed tensor the stored mean and deviation of element [i]
    are the averages over the reduced axes of the exact mean and population
    deviation of all values seen, however they were batched; a zero deviation is
    replaced by one. *)
Theorem C22_statistics : forall self ts c bs num tr k name t,
  configure self ts c bs num = Ok tr -> dwf ts ->
  nth_error ts k = Some (name, t) -> ti_exists t = true -> ti_trafo t = true -> ti_shape t <> [] ->
  exists s, dget name (tr_data tr) = Some s /\ length (st_mean s) = volume (ti_shape t) /\ length (st_std s) = volume (ti_shape t) /\
  forall i cls (vals : nat -> list R), NoDup cls -> (forall j, In j cls <-> Cell (ti_shape t) (ti_axes t) i j) ->
    (i < volume (ti_shape t))%nat ->
    (forall j, In j cls -> Forall2 (fun e v => exists x, nth_error e j = Some x /\ Seen t j x v)
                                   (events_of k (firstn num bs)) (vals j)) ->
    let sd := pop_mean (map (fun j => pop_std (vals j)) cls) in
    nth_error (st_mean s) i = Some (pop_mean (map (fun j => pop_mean (vals j)) cls)) /\
    (sd <> 0 -> nth_error (st_std s) i = Some sd) /\ (sd = 0 -> nth_error (st_std s) i = Some 1).
Proof.
  intros self ts c bs num tr k name t H Hwf Hk He Ht Hs.
  assert (Ha : active t = true) by (unfold active; rewrite He, Ht; reflexivity).
  destruct (configure_at self ts c bs num tr name t k H Hwf Hk Ha) as (_ & Hl & _ & _ & a & s & HI & HF & HD).
  pose proof (finish_facts t a s HF) as (F1 & F2 & _). rewrite size_volume in F1, F2.
  exists s. split; [exact HD|]. split; [exact F1|]. split; [exact F2|].
  intros i cls vals HN HC Hi HV sd. rewrite <- size_volume in Hi.
  assert (Hl' : map (seen_event t) (events_of k (firstn num bs)) <> []) by (intros E; apply map_eq_nil in E; contradiction).
  assert (HS : forall j, In j cls -> nth j (a_mean a) 0 = pop_mean (vals j) /\ sqrt (nth j (a_M2 a) 0 / a_n a) = pop_std (vals j)).
  { intros j Hj. assert (Hj' : (j < size (ti_shape t))%nat) by (apply HC in Hj; apply cell_lt in Hj; tauto).
    rewrite (vals_col t j _ _ Hs Hj' (HV j Hj)). apply (inv_stats _ _ _ _ HI Hl' Hj'). }
  unfold finish in HF. destruct (Reqb (a_n a) 0); [discriminate|]. injection HF as <-. cbn [st_mean st_std].
  split.
  - rewrite (nth_cell_mean _ _ _ i cls Hi HN HC). f_equal. unfold pop_mean at 1. unfold Rmean, Rlen. rewrite !map_length. f_equal.
    apply Rsum_map_ext. intros j Hj. apply HS. exact Hj.
  - assert (HE : nth_error (cell_mean (ti_shape t) (ti_axes t) (map (fun m2 => sqrt (m2 / a_n a)) (a_M2 a))) i = Some sd).
    { rewrite (nth_cell_mean _ _ _ i cls Hi HN HC). f_equal. unfold sd, pop_mean at 1. unfold Rmean, Rlen. rewrite !map_length. f_equal.
      apply Rsum_map_ext. intros j Hj. destruct (HS j Hj) as [_ <-].
      assert (Hj' : (j < size (ti_shape t))%nat) by (apply HC in Hj; apply cell_lt in Hj; tauto).
      destruct HI as [_ _ HM _ _]. rewrite (nth_indep _ 0 (sqrt (0 / a_n a))) by (rewrite map_length; lia).
      apply (map_nth (fun m2 => sqrt (m2 / a_n a))). }
    rewrite nth_error_map, HE. cbn [option_map]. split; intros Hsd.
    + apply Reqb_false in Hsd. rewrite Hsd. reflexivity.
    + apply Reqb_true in Hsd. rewrite Hsd. reflexivity.
Qed.

(** Without reduced axes: exactly mean and population deviation of element
    [i]. *)
Theorem C22_no_reduction : forall self ts c bs num tr k name t,
  configure self ts c bs num = Ok tr -> dwf ts ->
  nth_error ts k = Some (name, t) -> ti_exists t = true -> ti_trafo t = true -> ti_shape t <> [] -> ti_axes t = Some [] ->
  exists s, dget name (tr_data tr) = Some s /\
  forall i vals, (i < volume (ti_shape t))%nat ->
    Forall2 (fun e v => exists x, nth_error e i = Some x /\ Seen t i x v) (events_of k (firstn num bs)) vals ->
    nth_error (st_mean s) i = Some (pop_mean vals) /\
    (pop_std vals <> 0 -> nth_error (st_std s) i = Some (pop_std vals)) /\
    (pop_std vals = 0 -> nth_error (st_std s) i = Some 1).
Proof.
  intros self ts c bs num tr k name t H Hwf Hk He Ht Hs Hax.
  destruct (C22_statistics self ts c bs num tr k name t H Hwf Hk He Ht Hs) as (s & HD & _ & _ & HS).
  exists s. split; [exact HD|]. intros i vals Hi HV.
  assert (HC : forall j, In j [i] <-> Cell (ti_shape t) (ti_axes t) i j).
  { intros j. rewrite Hax. rewrite <- size_volume in Hi. split.
    - intros [<-|[]]. apply cell_refl. exact Hi.
    - intros Hj. left. apply (cell_none (ti_shape t)); [exact Hi|apply cell_lt in Hj; tauto|exact Hj]. }
  specialize (HS i [i] (fun _ => vals) (NoDup_cons i (@in_nil nat i) (NoDup_nil nat)) HC Hi).
  assert (HP : forall x, pop_mean [x] = x) by (intros x; unfold pop_mean, Rsum; simpl; field).
  cbv zeta in HS. cbn [map] in HS. rewrite !HP in HS. apply HS. intros j [<-|[]]. exact HV.
Qed.

(** The result depends only on the multiset of the events, not on their order
    or on the batches. *)
Theorem C22_batching_irrelevant : forall self self' ts ts' c c' bs bs' num num' tr tr' k k' name t,
  configure self ts c bs num = Ok tr -> configure self' ts' c' bs' num' = Ok tr' -> dwf ts -> dwf ts' ->
  nth_error ts k = Some (name, t) -> nth_error ts' k' = Some (name, t) -> ti_exists t = true -> ti_trafo t = true ->
  Permutation (events_of k (firstn num bs)) (events_of k' (firstn num' bs')) ->
  dget name (tr_data tr) = dget name (tr_data tr') /\ dget name (tr_data tr) <> None.
Proof.
  intros self self' ts ts' c c' bs bs' num num' tr tr' k k' name t H H' Hwf Hwf' Hk Hk' He Ht HP.
  assert (Ha : active t = true) by (unfold active; rewrite He, Ht; reflexivity).
  destruct (configure_at self ts c bs num tr name t k H Hwf Hk Ha) as (_ & Hl & _ & _ & a & s & HI & HF & HD).
  destruct (configure_at self' ts' c' bs' num' tr' name t k' H' Hwf' Hk' Ha) as (_ & Hl' & _ & _ & a' & s' & HI' & HF' & HD').
  set (l := events_of k (firstn num bs)) in *. set (l' := events_of k' (firstn num' bs')) in *.
  assert (HC : forall i, Permutation (col i (map (seen_event t) l)) (col i (map (seen_event t) l'))).
  { intros i. unfold col. apply Permutation_map, Permutation_map, HP. }
  assert (HL : Rlen (map (seen_event t) l) = Rlen (map (seen_event t) l')).
  { unfold Rlen. rewrite !map_length. rewrite (Permutation_length HP). reflexivity. }
  assert (HP0 : Rlen (map (seen_event t) l) <> 0).
  { assert (0 < Rlen (map (seen_event t) l)) by (apply Rlen_pos; intros E; apply map_eq_nil in E; contradiction). lra. }
  destruct HI as [I1 I2 I3 I4 I5], HI' as [J1 J2 J3 J4 J5].
  assert (EM : forall i, (i < size (ti_shape t))%nat -> nth i (a_mean a) 0 = nth i (a_mean a') 0).
  { intros i Hi. apply (Rmult_eq_reg_l (Rlen (map (seen_event t) l))); [|exact HP0]. rewrite (I4 i Hi), HL, (J4 i Hi). apply Rsum_perm. apply HC. }
  assert (E1 : a_mean a = a_mean a').
  { apply (nth_ext _ _ 0 0); [congruence|]. intros i Hi. apply EM. lia. }
  assert (E2 : a_M2 a = a_M2 a').
  { apply (nth_ext _ _ 0 0); [congruence|]. intros i Hi. rewrite I5, J5 by lia. rewrite HL, EM by lia.
    rewrite (Rsum_perm _ _ (Permutation_map _ (HC i))). reflexivity. }
  assert (E3 : a_n a = a_n a') by congruence.
  assert (EA : a = a') by (destruct a, a'; cbn in *; congruence). subst a'.
  split; [congruence|]. rewrite HD. discriminate.
Qed.

(** ** C23 *)

Lemma list_eqb_nat a : forall b, list_eqb Nat.eqb a b = true -> a = b.
Proof.
  induction a as [|x a IH]; intros [|y b] H; cbn in H; try discriminate; [reflexivity|].
  apply andb_true_iff in H. destruct H as [H1 H2]. apply Nat.eqb_eq in H1. rewrite (IH b H2), H1. reflexivity.
Qed.

Lemma list_eqb_nat_refl a : list_eqb Nat.eqb a a = true.
Proof. induction a as [|x a IH]; [reflexivity|]. cbn. rewrite Nat.eqb_refl, IH. reflexivity. Qed.

(** Rows fit the shape of the array. *)
Definition Fits (d : array) : Prop := Forall (fun e => length e = volume (ar_shape d)) (ar_rows d).

(** [x] is element [i] of some row. *)
Definition At (d : array) (i : nat) (x : R) : Prop := exists e, In e (ar_rows d) /\ nth_error e i = Some x.

(** The logarithm applies to some but not to all bins. *)
Definition Partial (t : tinfo) : Prop := exists flags, ti_log t = Some flags /\ In false flags.

Definition fwd (t : tinfo) (bias : bool) (e : event) : event :=
  match ti_log t with Some flags => if bias then bins flags (ti_shape t) log1p log1p e else e | None => e end.
Definition back (t : tinfo) (is_tf bias : bool) (e : event) : event :=
  match ti_log t with
  | Some flags => if bias then bins flags (ti_shape t) expm1 (if is_tf then fun x => expm1 (clip x) else expm1) e else e
  | None => e end.

Definition norm (tr : trafo) (s : stats) (bias : bool) (e : event) : event :=
  zipw Rdiv (if bias then zipw Rminus e (st_mean s) else e) (div_by tr s).
Definition denorm (tr : trafo) (s : stats) (bias : bool) (e : event) : event :=
  if bias then zipw Rplus (zipw Rmult e (div_by tr s)) (st_mean s) else zipw Rmult e (div_by tr s).

(** Conditions under which both directions succeed. *)
Definition Fine (t : tinfo) (bias : bool) (rows : list event) : Prop :=
  forall flags, ti_log t = Some flags -> bias = true ->
    ti_log_axis t = (-1)%Z /\ is_ok (on_bins flags (ti_shape t) log1p log1p rows) = true.

Lemma transform_ok tr d name bias d' : transform (Some tr) d name bias = Ok d' <->
  exists t s, dget name (tr_tensors tr) = Some t /\ dget name (tr_data tr) = Some s /\ ar_shape d = ti_shape t /\
    Fine t bias (ar_rows d) /\
    d' = {| ar_shape := ar_shape d; ar_rows := map (fun e => norm tr s bias (fwd t bias e)) (ar_rows d) |}.
Proof.
  unfold transform, check_settings. split.
  - destruct (dget name (tr_tensors tr)) as [t|]; [|discriminate].
    destruct (list_eqb Nat.eqb (ar_shape d) (ti_shape t)) eqn:ES; [|discriminate]. apply list_eqb_nat in ES.
    match goal with |- context [match ?m with Ok _ => _ | Err _ => _ end] => destruct m as [rows|] eqn:EL; [|discriminate] end.
    destruct (dget name (tr_data tr)) as [s|]; [|discriminate]. intros H. injection H as <-. exists t, s.
    split; [reflexivity|]. split; [reflexivity|]. split; [exact ES|].
    assert (HR : rows = map (fwd t bias) (ar_rows d) /\ Fine t bias (ar_rows d)).
    { unfold fwd, Fine. destruct (ti_log t) as [flags|].
      - destruct bias; [|injection EL as <-; rewrite map_id; split; [reflexivity|discriminate]].
        destruct (Z.eqb (ti_log_axis t) (-1)) eqn:EZ; cbn [negb] in EL; [|discriminate]. apply Z.eqb_eq in EZ.
        split; [apply (on_bins_ok _ _ _ _ _ _ EL)|]. intros f Hf _. injection Hf as <-. rewrite EL. auto.
      - injection EL as <-. rewrite map_id. split; [reflexivity|discriminate]. }
    destruct HR as [-> HR]. split; [exact HR|]. f_equal. unfold norm. destruct bias; rewrite !map_map; reflexivity.
  - intros (t & s & HA & HB & Hs & HF & ->). rewrite HA. rewrite <- Hs, list_eqb_nat_refl. unfold Fine in HF.
    assert (HR : (match ti_log t with
      | Some flags => if bias then if negb (Z.eqb (ti_log_axis t) (-1)) then Err NotImplementedError
                                   else on_bins flags (ti_shape t) log1p log1p (ar_rows d) else Ok (ar_rows d)
      | None => Ok (ar_rows d) end) = Ok (map (fwd t bias) (ar_rows d))).
    { unfold fwd. destruct (ti_log t) as [flags|]; [|rewrite map_id; reflexivity].
      destruct bias; [|rewrite map_id; reflexivity]. destruct (HF flags eq_refl eq_refl) as [-> HO]. cbn [Z.eqb Pos.eqb negb].
      destruct (on_bins flags (ti_shape t) log1p log1p (ar_rows d)) as [rows|] eqn:EB; [|discriminate].
      apply on_bins_ok in EB. subst. reflexivity. }
    rewrite HR, HB. f_equal. f_equal. unfold norm. destruct bias; rewrite !map_map; reflexivity.
Qed.

Lemma inverse_ok tr tf d name bias d' : inverse_transform (Some tr) tf d name bias = Ok d' <->
  exists t s, dget name (tr_tensors tr) = Some t /\ dget name (tr_data tr) = Some s /\ ar_shape d = ti_shape t /\
    Fine t bias (ar_rows d) /\
    d' = {| ar_shape := ar_shape d; ar_rows := map (fun e => back t tf bias (denorm tr s bias e)) (ar_rows d) |}.
Proof.
  unfold inverse_transform, check_settings.
  assert (HM : forall s, (if bias then map (fun e => zipw Rplus e (st_mean s)) (map (fun e => zipw Rmult e (div_by tr s)) (ar_rows d))
                          else map (fun e => zipw Rmult e (div_by tr s)) (ar_rows d)) = map (denorm tr s bias) (ar_rows d)).
  { intros s. unfold denorm. destruct bias; rewrite ?map_map; reflexivity. }
  split.
  - destruct (dget name (tr_tensors tr)) as [t|]; [|discriminate].
    destruct (list_eqb Nat.eqb (ar_shape d) (ti_shape t)) eqn:ES; [|discriminate]. apply list_eqb_nat in ES.
    destruct (dget name (tr_data tr)) as [s|]; [|discriminate]. cbv zeta. rewrite HM. intros H.
    exists t, s. split; [reflexivity|]. split; [reflexivity|]. split; [exact ES|].
    rewrite <- (map_map (denorm tr s bias) (back t tf bias)). unfold back, Fine. destruct (ti_log t) as [flags|].
    + destruct bias; [|injection H as <-; split; [discriminate|]; rewrite map_id; reflexivity].
      destruct (Z.eqb (ti_log_axis t) (-1)) eqn:EZ; cbn [negb] in H; [|discriminate]. apply Z.eqb_eq in EZ.
      destruct (on_bins _ _ _ _ _) as [rows|] eqn:EB; [|discriminate]. injection H as <-. split.
      * intros f Hf _. injection Hf as <-. split; [exact EZ|].
        match type of EB with on_bins _ _ ?f1 ?f2 ?dd = _ => rewrite (on_bins_same flags (ti_shape t) log1p log1p f1 f2 (ar_rows d) dd) end.
        rewrite EB. reflexivity.
      * apply on_bins_ok in EB. rewrite EB. reflexivity.
    + injection H as <-. split; [discriminate|]. rewrite map_id. reflexivity.
  - intros (t & s & HA & HB & Hs & HF & ->). rewrite HA, <- Hs, list_eqb_nat_refl. rewrite HB. cbv zeta. rewrite HM.
    rewrite <- (map_map (denorm tr s bias) (back t tf bias)). unfold back, Fine in *.
    destruct (ti_log t) as [flags|]; [|rewrite map_id; reflexivity].
    destruct bias; [|rewrite map_id; reflexivity]. destruct (HF flags eq_refl eq_refl) as [-> HO]. cbn [Z.eqb Pos.eqb negb].
    match goal with |- context [on_bins _ _ ?f1 ?f2 ?dd] => rewrite (on_bins_same flags (ti_shape t) log1p log1p f1 f2 (ar_rows d) dd) in HO;
      destruct (on_bins flags (ti_shape t) f1 f2 dd) as [rows|] eqn:EB; [|discriminate] end.
    apply on_bins_ok in EB. subst. reflexivity.
Qed.

Lemma map_eq_id {A} (f : A -> A) l : map f l = l -> forall x, In x l -> f x = x.
Proof. induction l as [|y l IH]; intros H x Hx; [destruct Hx|]. cbn in H. injection H as H1 H2. destruct Hx as [->|Hx]; auto. Qed.

Lemma nth_error_ext_R (a b : list R) : length a = length b ->
  (forall i x, nth_error a i = Some x -> nth_error b i = Some x) -> a = b.
Proof.
  intros HL H. apply (nth_ext a b 0 0 HL). intros i Hi. rewrite (nth_error_nth b i 0 (H i _ (nth_error_nth' a 0 Hi))). reflexivity.
Qed.

Lemma norm_denorm_at tr s bias e i x : length (st_mean s) = length e -> length (st_std s) = length e ->
  Forall (fun x => 0 < x) (st_std s) -> 0 <= tr_norm tr -> nth_error e i = Some x ->
  exists m d, 0 < d /\ nth_error (st_mean s) i = Some m /\ nth_error (div_by tr s) i = Some d /\
   nth_error (norm tr s bias e) i = Some ((if bias then x - m else x) / d) /\
   nth_error (denorm tr s bias e) i = Some (if bias then x * d + m else x * d).
Proof.
  intros Hm Hs HF Hn Hx. assert (Hi : (i < length e)%nat) by (apply nth_error_Some; congruence).
  assert (Em : nth_error (st_mean s) i = Some (nth i (st_mean s) 0)) by (apply nth_error_nth'; lia).
  assert (Es : nth_error (st_std s) i = Some (nth i (st_std s) 0)) by (apply nth_error_nth'; lia).
  assert (Ed : nth_error (div_by tr s) i = Some (tr_norm tr + nth i (st_std s) 0)) by (unfold div_by; rewrite nth_error_map, Es; reflexivity).
  exists (nth i (st_mean s) 0), (tr_norm tr + nth i (st_std s) 0). rewrite Forall_forall in HF.
  assert (0 < nth i (st_std s) 0) by (apply HF; eapply nth_error_In; exact Es).
  split; [lra|]. split; [exact Em|]. split; [exact Ed|]. unfold norm, denorm. destruct bias; split;
    repeat (apply nth_error_zipw || eassumption).
Qed.

Lemma norm_length tr s bias e : length (st_mean s) = length e -> length (st_std s) = length e ->
  length (norm tr s bias e) = length e /\ length (denorm tr s bias e) = length e.
Proof. intros Hm Hs. unfold norm, denorm, div_by. destruct bias; rewrite !zipw_length, map_length; lia. Qed.

Lemma fwd_length t bias e : length (fwd t bias e) = length e.
Proof. unfold fwd. destruct (ti_log t), bias; try reflexivity; apply bins_length. Qed.
Lemma back_length t tf bias e : length (back t tf bias e) = length e.
Proof. unfold back. destruct (ti_log t), bias; try reflexivity; apply bins_length. Qed.

Lemma clip_id x : -60 <= x <= 60 -> clip x = x.
Proof. intros H. unfold clip. destruct (Rltb x (-60)) eqn:E; [apply Rltb_true in E; lra|]. destruct (Rltb 60 x) eqn:E2; [apply Rltb_true in E2; lra|]. reflexivity. Qed.

Lemma clip_range x : -60 <= clip x <= 60.
Proof. unfold clip. destruct (Rltb x (-60)) eqn:E; [lra|]. apply Rltb_false in E. destruct (Rltb 60 x) eqn:E2; [lra|]. apply Rltb_false in E2. lra. Qed.

Lemma partial_flags flags : In false flags <-> forallb (fun b => b) flags = false.
Proof.
  split.
  - intros H. destruct (forallb (fun b => b) flags) eqn:E; [|reflexivity]. rewrite forallb_forall in E. specialize (E _ H). discriminate.
  - intros H. induction flags as [|b flags IH]; [discriminate|]. destruct b; [right; apply IH; exact H|left; reflexivity].
Qed.

(** Element [i] of the forward and backward logarithm steps. *)
Lemma fwd_at t bias e i x : ti_shape t <> [] -> length e = size (ti_shape t) -> nth_error e i = Some x ->
  exists y, nth_error (fwd t bias e) i = Some y /\
    ((bias = true /\ Logged t i /\ y = ln (1 + x)) \/ (~ (bias = true /\ Logged t i) /\ y = x)).
Proof.
  intros Hs Hl Hx. assert (Hi : (i < size (ti_shape t))%nat) by (rewrite <- Hl; apply nth_error_Some; congruence).
  unfold fwd. destruct (ti_log t) as [flags|] eqn:HL.
  - destruct bias; [|exists x; split; [exact Hx|right; split; [intros [H _]; discriminate|reflexivity]]].
    rewrite (nth_bins _ _ _ _ _ _ _ Hx). pose proof (flag_logged t flags i HL Hs Hi) as HF.
    destruct (flag_at flags (ti_shape t) i); eexists; (split; [reflexivity|]).
    + left. split; [reflexivity|]. split; [apply HF; reflexivity|]. destruct (forallb _ flags); reflexivity.
    + right. split; [intros [_ H]; apply HF in H; discriminate|reflexivity].
  - exists x. split; [exact Hx|]. right. split; [|reflexivity]. intros [_ H]. unfold Logged in H. rewrite HL in H. exact H.
Qed.

Lemma back_at t tf bias e i x : ti_shape t <> [] -> length e = size (ti_shape t) -> nth_error e i = Some x ->
  exists y, nth_error (back t tf bias e) i = Some y /\
    ((bias = true /\ Logged t i /\ (tf = true /\ Partial t) /\ y = exp (clip x) - 1) \/
     (bias = true /\ Logged t i /\ ~ (tf = true /\ Partial t) /\ y = exp x - 1) \/
     (~ (bias = true /\ Logged t i) /\ y = x)).
Proof.
  intros Hs Hl Hx. assert (Hi : (i < size (ti_shape t))%nat) by (rewrite <- Hl; apply nth_error_Some; congruence).
  unfold back. destruct (ti_log t) as [flags|] eqn:HL.
  - destruct bias; [|exists x; split; [exact Hx|right; right; split; [intros [H _]; discriminate|reflexivity]]].
    rewrite (nth_bins _ _ _ _ _ _ _ Hx). pose proof (flag_logged t flags i HL Hs Hi) as HF.
    assert (HP : Partial t <-> forallb (fun b => b) flags = false).
    { rewrite <- partial_flags. unfold Partial. rewrite HL. split; [intros (f & E & H); injection E as <-; exact H|intros H; eauto]. }
    destruct (flag_at flags (ti_shape t) i).
    + destruct (forallb (fun b => b) flags).
      * eexists. split; [reflexivity|]. right. left. split; [reflexivity|]. split; [apply HF; reflexivity|]. split; [|reflexivity].
        intros [_ H]. apply HP in H. discriminate.
      * destruct tf; eexists; (split; [reflexivity|]).
        { left. split; [reflexivity|]. split; [apply HF; reflexivity|]. split; [split; [reflexivity|apply HP; reflexivity]|reflexivity]. }
        { right. left. split; [reflexivity|]. split; [apply HF; reflexivity|]. split; [intros [H _]; discriminate|reflexivity]. }
    + eexists. split; [reflexivity|]. right. right. split; [intros [_ H]; apply HF in H; discriminate|reflexivity].
  - exists x. split; [exact Hx|]. right. right. split; [|reflexivity]. intros [_ H]. unfold Logged in H. rewrite HL in H. exact H.
Qed.

(** Inverse after transform gives back the data, exactly if every value to which
    the clipped exponential applies has its logarithm within [-60, 60]. *)
Theorem C23_inverse_of_transform : forall tr tf d name bias d' t, Built tr ->
  dget name (tr_tensors tr) = Some t -> ti_shape t <> [] -> Fits d ->
  transform (Some tr) d name bias = Ok d' ->
  (bias = true -> forall i x, At d i x -> Logged t i -> -1 < x) ->
  (inverse_transform (Some tr) tf d' name bias = Ok d <->
   (tf = true -> bias = true -> Partial t -> forall i x, At d i x -> Logged t i -> -60 <= ln (1 + x) <= 60)).
Proof.
  intros tr tf d name bias d' t HB Hname Hs Hfit HT Hdom.
  apply transform_ok in HT. destruct HT as (t' & s & E1 & E2 & E3 & HF & ->). assert (t' = t) by congruence. subst t'.
  destruct (built_stats tr name s HB E2) as (t' & E4 & _ & L1 & L2 & HP & _ & Hn). assert (t' = t) by congruence. subst t'.
  unfold Fits in Hfit. rewrite Forall_forall in Hfit. rewrite E3, <- size_volume in Hfit.
  assert (HE : forall e i x, In e (ar_rows d) -> nth_error e i = Some x ->
    exists v, nth_error (back t tf bias (denorm tr s bias (norm tr s bias (fwd t bias e)))) i = Some v /\
      ((tf = true /\ bias = true /\ Partial t /\ Logged t i /\ v = exp (clip (ln (1 + x))) - 1) \/
       (~ (tf = true /\ bias = true /\ Partial t /\ Logged t i) /\ v = x))).
  { intros e i x He Hx. pose proof (Hfit e He) as Hl.
    destruct (fwd_at t bias e i x Hs Hl Hx) as (y & Hy & HY).
    pose proof (fwd_length t bias e) as LF. rewrite Hl in LF.
    destruct (norm_denorm_at tr s bias _ i y (eq_trans L1 (eq_sym LF)) (eq_trans L2 (eq_sym LF)) HP Hn Hy) as (m & dv & Hd & M1 & M2 & M3 & _).
    destruct (norm_length tr s bias (fwd t bias e) (eq_trans L1 (eq_sym LF)) (eq_trans L2 (eq_sym LF))) as [LN _]. rewrite LF in LN.
    destruct (norm_denorm_at tr s bias _ i _ (eq_trans L1 (eq_sym LN)) (eq_trans L2 (eq_sym LN)) HP Hn M3) as (m' & dv' & Hd' & M1' & M2' & _ & M4).
    assert (m' = m) by congruence. assert (dv' = dv) by congruence. subst m' dv'.
    assert (M5 : nth_error (denorm tr s bias (norm tr s bias (fwd t bias e))) i = Some y).
    { rewrite M4. destruct bias; f_equal; field; lra. }
    destruct (norm_length tr s bias (norm tr s bias (fwd t bias e)) (eq_trans L1 (eq_sym LN)) (eq_trans L2 (eq_sym LN))) as [_ LD]. rewrite LN in LD.
    destruct (back_at t tf bias _ i y Hs LD M5) as (v & Hv & HV). exists v. split; [exact Hv|].
    destruct HY as [(B & LG & ->)|(NL & ->)].
    - assert (Hx1 : -1 < x) by (apply (Hdom B i x); [exists e; auto|exact LG]).
      destruct HV as [(_ & _ & (T & PT) & ->)|[(_ & _ & NP & ->)|(NL & _)]].
      + left. auto.
      + right. split; [tauto|]. rewrite exp_ln by lra. ring.
      + tauto.
    - destruct HV as [(B & LG & _)|[(B & LG & _)|(_ & ->)]]; tauto. }
  set (d1 := {| ar_shape := ar_shape d; ar_rows := map (fun e => norm tr s bias (fwd t bias e)) (ar_rows d) |}).
  assert (HF1 : Fine t bias (ar_rows d1)).
  { intros flags Hfl Hb. destruct (HF flags Hfl Hb) as [H1 H2]. split; [exact H1|]. rewrite <- H2. apply on_bins_same. }
  assert (HI : inverse_transform (Some tr) tf d1 name bias =
    Ok {| ar_shape := ar_shape d; ar_rows := map (fun e => back t tf bias (denorm tr s bias (norm tr s bias (fwd t bias e)))) (ar_rows d) |}).
  { apply inverse_ok. exists t, s. split; [exact E1|]. split; [exact E2|]. split; [exact E3|]. split; [exact HF1|].
    unfold d1. cbn [ar_shape ar_rows]. rewrite map_map. reflexivity. }
  rewrite HI. destruct d as [sh rows]. cbn [ar_shape ar_rows] in *. split.
  - intros H Ht Hb HPt i x (e & He & Hx) HLg. injection H as H. cbn [ar_rows] in He.
    pose proof (map_eq_id _ _ H e He) as HR. destruct (HE e i x He Hx) as (v & Hv & [(_ & _ & _ & _ & Ev)|(Hn' & _)]); [|tauto].
    rewrite HR in Hv. assert (Evx : v = x) by congruence. rewrite Evx in Ev.
    assert (Hx1 : -1 < x) by (apply (Hdom Hb i x); [exists e; auto|exact HLg]).
    assert (EC : clip (ln (1 + x)) = ln (1 + x)).
    { apply exp_inv. rewrite exp_ln by lra. lra. }
    rewrite <- EC. apply clip_range.
  - intros HC. f_equal. f_equal.
    rewrite <- (map_id rows) at 2. apply map_ext_in. intros e He. pose proof (Hfit e He) as Hl.
    assert (LF : length (fwd t bias e) = size (ti_shape t)) by (rewrite fwd_length; exact Hl).
    destruct (norm_length tr s bias (fwd t bias e) (eq_trans L1 (eq_sym LF)) (eq_trans L2 (eq_sym LF))) as [LN _]. rewrite LF in LN.
    destruct (norm_length tr s bias (norm tr s bias (fwd t bias e)) (eq_trans L1 (eq_sym LN)) (eq_trans L2 (eq_sym LN))) as [_ LD]. rewrite LN in LD.
    symmetry. apply nth_error_ext_R; [rewrite back_length, LD; exact Hl|].
    intros i x Hx. destruct (HE e i x He Hx) as (v & Hv & [(Ht & Hb & HPt & HLg & Ev)|(_ & Ev)]); rewrite Hv, Ev; [|reflexivity].
    assert (Hx1 : -1 < x) by (apply (Hdom Hb i x); [exists e; auto|exact HLg]).
    f_equal. rewrite clip_id; [rewrite exp_ln by lra; ring|]. apply (HC Ht Hb HPt i x); [exists e; auto|exact HLg].
Qed.

(** Transform after inverse gives back the data, exactly if the clipping does
    not change anything. *)
Theorem C23_transform_of_inverse : forall tr tf d name bias d' t s, Built tr ->
  dget name (tr_tensors tr) = Some t -> dget name (tr_data tr) = Some s -> ti_shape t <> [] -> Fits d ->
  inverse_transform (Some tr) tf d name bias = Ok d' ->
  (transform (Some tr) d' name bias = Ok d <->
   (tf = true -> bias = true -> Partial t -> forall i x m sd, At d i x -> Logged t i ->
      nth_error (st_mean s) i = Some m -> nth_error (st_std s) i = Some sd ->
      -60 <= x * (tr_norm tr + sd) + m <= 60)).
Proof.
  intros tr tf d name bias d' t s HB Hname Hst Hs Hfit HT.
  apply inverse_ok in HT. destruct HT as (t' & s' & E1 & E2 & E3 & HF & ->). assert (t' = t) by congruence. assert (s' = s) by congruence. subst t' s'.
  destruct (built_stats tr name s HB E2) as (t' & E4 & _ & L1 & L2 & HP & _ & Hn). assert (t' = t) by congruence. subst t'.
  unfold Fits in Hfit. rewrite Forall_forall in Hfit. rewrite E3, <- size_volume in Hfit.
  assert (HE : forall e i x, In e (ar_rows d) -> nth_error e i = Some x ->
    exists v m sd, nth_error (norm tr s bias (fwd t bias (back t tf bias (denorm tr s bias e)))) i = Some v /\
      nth_error (st_mean s) i = Some m /\ nth_error (st_std s) i = Some sd /\ 0 < tr_norm tr + sd /\
      ((tf = true /\ bias = true /\ Partial t /\ Logged t i /\ v = (clip (x * (tr_norm tr + sd) + m) - m) / (tr_norm tr + sd)) \/
       (~ (tf = true /\ bias = true /\ Partial t /\ Logged t i) /\ v = x))).
  { intros e i x He Hx. pose proof (Hfit e He) as Hl.
    destruct (norm_denorm_at tr s bias e i x (eq_trans L1 (eq_sym Hl)) (eq_trans L2 (eq_sym Hl)) HP Hn Hx) as (m & dv & Hd & M1 & M2 & _ & M3).
    destruct (norm_length tr s bias e (eq_trans L1 (eq_sym Hl)) (eq_trans L2 (eq_sym Hl))) as [_ LD]. rewrite Hl in LD.
    destruct (back_at t tf bias _ i _ Hs LD M3) as (y & Hy & HY).
    pose proof (back_length t tf bias (denorm tr s bias e)) as LB. rewrite LD in LB.
    destruct (fwd_at t bias _ i _ Hs LB Hy) as (z & Hz & HZ).
    pose proof (fwd_length t bias (back t tf bias (denorm tr s bias e))) as LF. rewrite LB in LF.
    destruct (norm_denorm_at tr s bias _ i z (eq_trans L1 (eq_sym LF)) (eq_trans L2 (eq_sym LF)) HP Hn Hz) as (m' & dv' & _ & M1' & M2' & M4 & _).
    assert (m' = m) by congruence. assert (dv' = dv) by congruence. subst m' dv'.
    unfold div_by in M2. rewrite nth_error_map in M2. destruct (nth_error (st_std s) i) as [sd|]; [|discriminate].
    cbn [option_map] in M2. injection M2 as M2. subst dv.
    exists ((if bias then z - m else z) / (tr_norm tr + sd)), m, sd.
    split; [exact M4|]. split; [exact M1|]. split; [reflexivity|]. split; [exact Hd|].
    destruct HY as [(B & LG & (T & PT) & ->)|[(B & LG & NP & ->)|(NL & ->)]].
    - destruct HZ as [(_ & _ & ->)|(NL & _)]; [|tauto]. left. rewrite B in *.
      repeat (split; [assumption || reflexivity|]). replace (1 + (exp (clip (x * (tr_norm tr + sd) + m)) - 1)) with (exp (clip (x * (tr_norm tr + sd) + m))) by ring.
      rewrite ln_exp. reflexivity.
    - destruct HZ as [(_ & _ & ->)|(NL & _)]; [|tauto]. right. split; [tauto|]. rewrite B in *.
      match goal with |- context [ln (1 + (exp ?u - 1))] => replace (1 + (exp u - 1)) with (exp u) by ring; rewrite ln_exp end. field. lra.
    - destruct HZ as [(B & LG & _)|(_ & ->)]; [tauto|]. right. split; [tauto|]. destruct bias; field; lra. }
  set (d1 := {| ar_shape := ar_shape d; ar_rows := map (fun e => back t tf bias (denorm tr s bias e)) (ar_rows d) |}).
  assert (HF1 : Fine t bias (ar_rows d1)).
  { intros flags Hfl Hb. destruct (HF flags Hfl Hb) as [H1 H2]. split; [exact H1|]. rewrite <- H2. apply on_bins_same. }
  assert (HI : transform (Some tr) d1 name bias =
    Ok {| ar_shape := ar_shape d; ar_rows := map (fun e => norm tr s bias (fwd t bias (back t tf bias (denorm tr s bias e)))) (ar_rows d) |}).
  { apply transform_ok. exists t, s. split; [exact E1|]. split; [exact E2|]. split; [exact E3|]. split; [exact HF1|].
    unfold d1. cbn [ar_shape ar_rows]. rewrite map_map. reflexivity. }
  rewrite HI. destruct d as [sh rows]. cbn [ar_shape ar_rows] in *. split.
  - intros H Ht Hb HPt i x m sd (e & He & Hx) HLg Hm Hsd. injection H as H. cbn [ar_rows] in He.
    pose proof (map_eq_id _ _ H e He) as HR. destruct (HE e i x He Hx) as (v & m' & sd' & Hv & Hm' & Hsd' & Hpos & [(_ & _ & _ & _ & Ev)|(Hn' & _)]); [|tauto].
    rewrite HR in Hv. assert (Evx : v = x) by congruence. assert (m' = m) by congruence. assert (sd' = sd) by congruence. subst m' sd'. rewrite Evx in Ev.
    assert (EC : clip (x * (tr_norm tr + sd) + m) = x * (tr_norm tr + sd) + m).
    { rewrite Ev at 2. field. lra. }
    rewrite <- EC. apply clip_range.
  - intros HC. f_equal. f_equal.
    rewrite <- (map_id rows) at 2. apply map_ext_in. intros e He. pose proof (Hfit e He) as Hl.
    destruct (norm_length tr s bias e (eq_trans L1 (eq_sym Hl)) (eq_trans L2 (eq_sym Hl))) as [_ LD]. rewrite Hl in LD.
    assert (LB : length (fwd t bias (back t tf bias (denorm tr s bias e))) = size (ti_shape t)) by (rewrite fwd_length, back_length; exact LD).
    destruct (norm_length tr s bias _ (eq_trans L1 (eq_sym LB)) (eq_trans L2 (eq_sym LB))) as [LN _]. rewrite LB in LN.
    symmetry. apply nth_error_ext_R; [rewrite LN; exact Hl|].
    intros i x Hx. destruct (HE e i x He Hx) as (v & m & sd & Hv & Hm & Hsd & Hpos & [(Ht & Hb & HPt & HLg & Ev)|(_ & Ev)]); rewrite Hv, Ev; [|reflexivity].
    f_equal. rewrite clip_id; [field; lra|]. apply (HC Ht Hb HPt i x m sd); [exists e; auto|exact HLg|exact Hm|exact Hsd].
Qed.

(** Both directions succeed on the same data and keep its shape. *)
Theorem C23_same_success : forall tr tf d name bias,
  is_ok (transform (Some tr) d name bias) = is_ok (inverse_transform (Some tr) tf d name bias).
Proof.
  intros tr tf d name bias.
  destruct (transform (Some tr) d name bias) as [d'|] eqn:E1; destruct (inverse_transform (Some tr) tf d name bias) as [d''|] eqn:E2; try reflexivity.
  - apply transform_ok in E1. destruct E1 as (t & s & H1 & H2 & H3 & H4 & _).
    assert (HI : exists x, inverse_transform (Some tr) tf d name bias = Ok x) by (eexists; apply inverse_ok; exists t, s; eauto 10).
    destruct HI as [x Hx]. congruence.
  - apply inverse_ok in E2. destruct E2 as (t & s & H1 & H2 & H3 & H4 & _).
    assert (HI : exists x, transform (Some tr) d name bias = Ok x) by (eexists; apply transform_ok; exists t, s; eauto 10).
    destruct HI as [x Hx]. congruence.
Qed.

(** ** C24 *)

(** The divisor is strictly positive for every element. *)
Theorem C24_divisor_positive : forall tr name s, Built tr -> dget name (tr_data tr) = Some s ->
  Forall (fun sd => 0 < tr_norm tr + sd) (st_std s).
Proof.
  intros tr name s HB Hd. destruct (built_stats tr name s HB Hd) as (t & _ & _ & _ & _ & HP & _ & Hn).
  eapply Forall_impl; [|exact HP]. cbn. intros x Hx. lra.
Qed.

Lemma Rsum_single n k f : (k < n)%nat -> (forall i, (i < n)%nat -> i <> k -> f i = 0) -> Rsum (map f (seq 0 n)) = f k.
Proof.
  intros Hk H. assert (HS : seq 0 n = seq 0 k ++ k :: seq (S k) (n - S k)).
  { replace n with (k + S (n - S k))%nat at 1 by lia. rewrite seq_app. reflexivity. }
  rewrite HS, map_app, Rsum_app. cbn [map]. rewrite Rsum_cons.
  rewrite (Rsum_map_ext f (fun _ => 0) (seq 0 k)), (Rsum_map_ext f (fun _ => 0) (seq (S k) _)), !Rsum_map_const; [ring| |];
    intros i Hi; apply in_seq in Hi; apply H; lia.
Qed.

Lemma matmul_diag k b cov i j : (i < k)%nat -> (j < k)%nat ->
  matmul k (matmul k (diag b) cov) (diag b) i j = nth i b 0 * cov i j * nth j b 0.
Proof.
  intros Hi Hj. unfold matmul. rewrite (Rsum_single k j).
  - rewrite (Rsum_single k i).
    + unfold diag. rewrite !Nat.eqb_refl. ring.
    + exact Hi.
    + intros u _ Hu. unfold diag. destruct (Nat.eqb_spec i u); [congruence|]. ring.
  - exact Hj.
  - intros u _ Hu. unfold diag at 2. destruct (Nat.eqb_spec u j); [congruence|]. ring.
Qed.

(** The back-transformed covariance scales entry (i,j) by the divisors of [i]
    and [j]; symmetry and positive semi-definiteness are preserved. *)
Theorem C24_covariance : forall tr rows n cov cov' name s, Built tr -> dget name (tr_data tr) = Some s ->
  inverse_transform_cov (Some tr) rows n cov name = Ok cov' ->
  rows = n /\
  (forall i j si sj, (i < n)%nat -> (j < n)%nat -> nth_error (st_std s) i = Some si -> nth_error (st_std s) j = Some sj ->
     cov' i j = (tr_norm tr + si) * cov i j * (tr_norm tr + sj)) /\
  (Sym n cov -> Sym n cov') /\ (Psd n cov -> Psd n cov').
Proof.
  intros tr rows n cov cov' name s HB Hd H.
  destruct (built_stats tr name s HB Hd) as (t & E1 & _ & L1 & L2 & HP & HK & Hn).
  unfold inverse_transform_cov, check_settings in H. rewrite E1 in H. cbn [ar_shape] in H.
  destruct (list_eqb Nat.eqb [n] (ti_shape t)) eqn:ES; [|discriminate]. apply list_eqb_nat in ES.
  rewrite Hd in H. destruct (st_shape s) as [|k [|]] eqn:EK; try discriminate.
  destruct (Nat.eqb_spec k rows) as [->|]; [|discriminate]. destruct (Nat.eqb_spec rows n) as [->|]; [|discriminate].
  cbn [andb] in H. injection H as <-. split; [reflexivity|].
  rewrite <- ES in L2. cbn [size fold_right] in L2. rewrite Nat.mul_1_r in L2.
  assert (HB2 : forall i, (i < n)%nat -> nth i (firstn n (div_by tr s)) 0 = tr_norm tr + nth i (st_std s) 0).
  { intros i Hi. apply nth_error_nth. assert (Ei : nth_error (firstn n (div_by tr s)) i = nth_error (div_by tr s) i).
    { rewrite firstn_all2; [reflexivity|]. unfold div_by. rewrite map_length. lia. }
    rewrite Ei. unfold div_by. rewrite nth_error_map, (nth_error_nth' _ 0) by lia. reflexivity. }
  assert (HM : forall i j, (i < n)%nat -> (j < n)%nat ->
    matmul n (matmul n (diag (firstn n (div_by tr s))) cov) (diag (firstn n (div_by tr s))) i j =
    (tr_norm tr + nth i (st_std s) 0) * cov i j * (tr_norm tr + nth j (st_std s) 0)).
  { intros i j Hi Hj. rewrite matmul_diag by assumption. rewrite !HB2 by assumption. reflexivity. }
  split; [|split].
  - intros i j si sj Hi Hj Hsi Hsj. rewrite HM by assumption. rewrite (nth_error_nth _ _ _ Hsi), (nth_error_nth _ _ _ Hsj). reflexivity.
  - intros HS i j Hi Hj. rewrite !HM by assumption. rewrite (HS i j Hi Hj). ring.
  - intros HPs v. unfold quad. specialize (HPs (fun i => v i * (tr_norm tr + nth i (st_std s) 0))).
    unfold quad in HPs. erewrite Rsum_map_ext; [exact HPs|]. intros i Hi. apply in_seq in Hi. cbv beta.
    apply Rsum_map_ext. intros j Hj. apply in_seq in Hj. rewrite HM by lia. ring.
Qed.

(** Without reduced axes the covariance of a vector can always be transformed
    back; with a reduced axis only if the vector has one element. *)
Theorem C24_covariance_reduced : forall tr n cov name s t, Built tr -> dget name (tr_data tr) = Some s ->
  dget name (tr_tensors tr) = Some t -> ti_shape t = [n] ->
  (ti_axes t = Some [] -> is_ok (inverse_transform_cov (Some tr) n n cov name) = true) /\
  ((ti_axes t = None \/ exists ax, ti_axes t = Some ax /\ In 0%nat ax) -> n <> 1%nat ->
     inverse_transform_cov (Some tr) n n cov name = Err ValueError).
Proof.
  intros tr n cov name s t HB Hd Ht Hs.
  destruct (built_stats tr name s HB Hd) as (t' & E1 & _ & _ & _ & _ & HK & _). assert (t' = t) by congruence. subst t'.
  unfold inverse_transform_cov, check_settings. rewrite Ht. cbn [ar_shape]. rewrite Hs. cbn [list_eqb]. rewrite Nat.eqb_refl. cbn [andb].
  rewrite Hd, HK, Hs. unfold kept_shape. cbn [length seq combine map fst snd]. split.
  - intros ->. cbn [existsb]. rewrite Nat.eqb_refl. reflexivity.
  - intros HA Hn. assert (HE : (match ti_axes t with None => 1%nat | Some ax => if existsb (Nat.eqb 0) ax then 1%nat else n end) = 1%nat).
    { destruct HA as [->|(ax & -> & HI)]; [reflexivity|]. apply existsb_nat_In in HI. rewrite HI. reflexivity. }
    rewrite HE. destruct (Nat.eqb_spec 1 n); [congruence|]. reflexivity.
Qed.

(** ** C64 *)

Lemma pop_var_shift l c : l <> [] ->
  Rsum (map (fun x => (x - c) * (x - c)) l) = INR (length l) * (pop_std l * pop_std l) + INR (length l) * ((pop_mean l - c) * (pop_mean l - c)).
Proof.
  intros Hl. pose proof (Rlen_pos l Hl) as HP. unfold Rlen in HP.
  assert (HM : Rlen l * pop_mean l = Rsum l) by (unfold Rlen, pop_mean; field; lra).
  assert (HV : pop_std l * pop_std l = Rsum (map (fun x => (x - pop_mean l) * (x - pop_mean l)) l) / INR (length l)).
  { unfold pop_std at 1 2. apply sqrt_sqrt. apply Rmult_le_pos; [|left; apply Rinv_0_lt_compat; exact HP].
    apply Rsum_nonneg. apply Forall_forall. intros y Hy. apply in_map_iff in Hy. destruct Hy as (x & <- & _). apply Rle_0_sqr. }
  rewrite HV. rewrite (sum_sq_dev l (pop_mean l) HM).
  rewrite (Rsum_map_ext _ (fun x => x * x - (2 * c) * x + c * c)) by (intros; ring).
  rewrite Rsum_map_plus, Rsum_map_minus, Rsum_map_scal, Rsum_map_const, map_id. rewrite <- HM. unfold Rlen. field. lra.
Qed.

Lemma mean_sq {A} (f : A -> R) l : l <> [] -> Rmean (map f l) * Rmean (map f l) <= Rmean (map (fun x => f x * f x) l).
Proof.
  intros Hl. pose proof (Rlen_pos l Hl) as HP. unfold Rmean. rewrite !Rlen_map.
  set (m := Rsum (map f l) / Rlen l).
  assert (HS : Rsum (map f l) = m * Rlen l) by (unfold m; field; lra).
  assert (H : 0 <= Rsum (map (fun x => (f x - m) * (f x - m)) l)).
  { apply Rsum_nonneg. apply Forall_forall. intros y Hy. apply in_map_iff in Hy. destruct Hy as (x & <- & _). apply Rle_0_sqr. }
  rewrite (Rsum_map_ext _ (fun x => f x * f x - (2 * m) * f x + m * m)) in H by (intros; ring).
  rewrite Rsum_map_plus, Rsum_map_minus, Rsum_map_scal, Rsum_map_const, HS in H.
  apply (Rmult_le_reg_r (Rlen l)); [exact HP|]. replace (Rsum (map (fun x => f x * f x) l) / Rlen l * Rlen l) with (Rsum (map (fun x => f x * f x) l)) by (field; lra). nra.
Qed.

Lemma Rsum_concat ll : Rsum (concat ll) = Rsum (map Rsum ll).
Proof. induction ll as [|l ll IH]; [reflexivity|]. cbn [concat map]. rewrite Rsum_app, Rsum_cons, IH. reflexivity. Qed.

(** When axes are reduced, the stored deviation averages the deviations of the
    elements; it is at most the deviation of all their values taken together. *)
Theorem C64_reduced_deviation : forall (vals : nat -> list R) cls n, cls <> [] -> (0 < n)%nat ->
  (forall j, In j cls -> length (vals j) = n) ->
  pop_mean (map (fun j => pop_std (vals j)) cls) <= pop_std (concat (map vals cls)) /\
  pop_mean (map (fun j => pop_mean (vals j)) cls) = pop_mean (concat (map vals cls)).
Proof.
  intros vals cls n Hc Hn HL.
  assert (HNn : forall j, In j cls -> vals j <> []) by (intros j Hj E; specialize (HL j Hj); rewrite E in HL; cbn in HL; lia).
  assert (HN : 0 < INR n) by (apply lt_0_INR; exact Hn). pose proof (Rlen_pos cls Hc) as HC.
  assert (HLC : INR (length (concat (map vals cls))) = Rlen cls * INR n).
  { clear Hc HC HNn. unfold Rlen. induction cls as [|j cls IH]; [simpl; ring|]. cbn [map concat]. rewrite app_length, plus_INR, IH.
    - rewrite (HL j (or_introl eq_refl)). cbn [length]. rewrite S_INR. ring.
    - intros i Hi. apply HL. right. exact Hi. }
  assert (HM : pop_mean (map (fun j => pop_mean (vals j)) cls) = pop_mean (concat (map vals cls))).
  { unfold pop_mean at 1 3. rewrite HLC, Rsum_concat, map_map, map_length. fold (Rlen cls).
    rewrite (Rsum_map_ext _ (fun j => / INR n * Rsum (vals j))).
    - rewrite Rsum_map_scal. field. lra.
    - intros j Hj. unfold pop_mean. rewrite (HL j Hj). field. lra. }
  split; [|exact HM].
  set (M := pop_mean (concat (map vals cls))).
  assert (HV : Rmean (map (fun j => pop_std (vals j) * pop_std (vals j)) cls) <=
     Rsum (map (fun x => (x - M) * (x - M)) (concat (map vals cls))) / INR (length (concat (map vals cls)))).
  { rewrite HLC. rewrite concat_map, Rsum_concat, !map_map. unfold Rmean. rewrite Rlen_map.
    apply (Rmult_le_reg_r (Rlen cls * INR n)); [nra|].
    replace (Rsum (map (fun x => Rsum (map (fun x0 => (x0 - M) * (x0 - M)) (vals x))) cls) / (Rlen cls * INR n) * (Rlen cls * INR n))
      with (Rsum (map (fun x => Rsum (map (fun x0 => (x0 - M) * (x0 - M)) (vals x))) cls)) by (field; lra).
    replace (Rsum (map (fun j => pop_std (vals j) * pop_std (vals j)) cls) / Rlen cls * (Rlen cls * INR n))
      with (INR n * Rsum (map (fun j => pop_std (vals j) * pop_std (vals j)) cls)) by (field; lra).
    rewrite <- Rsum_map_scal. apply Rsum_le. intros j Hj. rewrite (pop_var_shift (vals j) M (HNn j Hj)), (HL j Hj).
    pose proof (Rmult_le_pos _ _ (Rlt_le _ _ HN) (Rle_0_sqr (pop_mean (vals j) - M))) as HQ. unfold Rsqr in HQ. lra. }
  pose proof (mean_sq (fun j => pop_std (vals j)) cls Hc) as HQ.
  assert (HPos : 0 <= Rmean (map (fun j => pop_std (vals j)) cls)).
  { apply Rmean_nonneg. apply Forall_forall. intros y Hy. apply in_map_iff in Hy. destruct Hy as (j & <- & _). apply sqrt_pos. }
  change (pop_mean (map (fun j => pop_std (vals j)) cls)) with (Rmean (map (fun j => pop_std (vals j)) cls)).
  unfold pop_std at 2. fold M. rewrite <- (sqrt_square _ HPos). apply sqrt_le_1_alt. lra.
Qed.

(** It can be smaller: two constant but different elements have deviation zero
    (replaced by one), though together they vary. *)
Theorem C64_pooled_deviation_refuted : exists (vals : nat -> list R) cls,
  (forall j, In j cls -> length (vals j) = 2%nat) /\
  pop_mean (map (fun j => pop_std (vals j)) cls) = 0 /\ 0 < pop_std (concat (map vals cls)).
Proof.
  exists (fun j => [INR j; INR j]), [0%nat; 1%nat]. split; [intros j Hj; reflexivity|].
  assert (H0 : forall x, pop_std [x; x] = 0).
  { intros x. unfold pop_std, pop_mean, Rsum. cbn [map fold_right length INR].
    replace (((x - (x + (x + 0)) / (1 + 1)) * (x - (x + (x + 0)) / (1 + 1)) + ((x - (x + (x + 0)) / (1 + 1)) * (x - (x + (x + 0)) / (1 + 1)) + 0)) / (1 + 1)) with 0 by field.
    apply sqrt_0. }
  cbn [map]. rewrite !H0. split; [unfold pop_mean, Rsum; cbn; field|].
  unfold pop_std, pop_mean, Rsum. cbn [map concat app fold_right length INR]. apply sqrt_lt_R0. lra.
Qed.

(** The same for a configured object: the stored deviation is at most that of
    all values averaged over, or one if all deviations vanish. *)
Theorem C64_configured : forall self ts c bs num tr k name t,
  configure self ts c bs num = Ok tr -> dwf ts ->
  nth_error ts k = Some (name, t) -> ti_exists t = true -> ti_trafo t = true -> ti_shape t <> [] ->
  exists s, dget name (tr_data tr) = Some s /\
  forall i cls (vals : nat -> list R), NoDup cls -> (forall j, In j cls <-> Cell (ti_shape t) (ti_axes t) i j) ->
    (i < volume (ti_shape t))%nat ->
    (forall j, In j cls -> Forall2 (fun e v => exists x, nth_error e j = Some x /\ Seen t j x v)
                                   (events_of k (firstn num bs)) (vals j)) ->
    nth_error (st_mean s) i = Some (pop_mean (concat (map vals cls))) /\
    exists sd, nth_error (st_std s) i = Some sd /\
      (sd <= pop_std (concat (map vals cls)) \/ (sd = 1 /\ forall j, In j cls -> pop_std (vals j) = 0)).
Proof.
  intros self ts c bs num tr k name t H Hwf Hk He Ht Hs.
  destruct (C22_statistics self ts c bs num tr k name t H Hwf Hk He Ht Hs) as (s & HD & _ & _ & HS).
  exists s. split; [exact HD|]. intros i cls vals HN HC Hi HV.
  assert (Ha : active t = true) by (unfold active; rewrite He, Ht; reflexivity).
  destruct (configure_at self ts c bs num tr name t k H Hwf Hk Ha) as (_ & Hl & _).
  assert (Hcls : cls <> []).
  { intros E. rewrite <- size_volume in Hi. pose proof (proj2 (HC i) (cell_refl _ _ i Hi)) as HI. rewrite E in HI. destruct HI. }
  assert (HL : forall j, In j cls -> length (vals j) = length (events_of k (firstn num bs))).
  { intros j Hj. symmetry. specialize (HV j Hj). clear - HV. induction HV as [|x y l l' _ _ IH]; cbn [length]; [reflexivity|rewrite IH; reflexivity]. }
  assert (Hpos : (0 < length (events_of k (firstn num bs)))%nat) by (destruct (events_of k (firstn num bs)); [congruence|simpl; lia]).
  destruct (C64_reduced_deviation vals cls _ Hcls Hpos HL) as [H1 H2].
  destruct (HS i cls vals HN HC Hi HV) as (S1 & S2 & S3). split; [rewrite S1, H2; reflexivity|].
  destruct (Req_EM_T (pop_mean (map (fun j => pop_std (vals j)) cls)) 0) as [E|E].
  - exists 1. split; [apply S3; exact E|]. right. split; [reflexivity|].
    assert (HZ : Rsum (map (fun j => pop_std (vals j)) cls) = 0).
    { unfold pop_mean in E. pose proof (Rlen_pos (map (fun j => pop_std (vals j)) cls)) as HP. unfold Rlen in HP.
      assert (HP' : 0 < INR (length (map (fun j => pop_std (vals j)) cls))) by (apply HP; intros E'; apply map_eq_nil in E'; contradiction).
      apply (Rmult_eq_reg_r (/ INR (length (map (fun j => pop_std (vals j)) cls)))); [|apply Rinv_neq_0_compat; lra]. rewrite Rmult_0_l. exact E. }
    apply Rsum_nonneg_zero in HZ.
    + rewrite Forall_forall in HZ. intros j Hj. apply HZ. apply in_map_iff. exists j. auto.
    + apply Forall_forall. intros y Hy. apply in_map_iff in Hy. destruct Hy as (j & <- & _). apply sqrt_pos.
  - exists (pop_mean (map (fun j => pop_std (vals j)) cls)). split; [apply S2; exact E|]. left. exact H1.
Qed.

(** ** Example: two events in two batches, one logarithmic and one plain bin *)

Definition ex_t : tinfo := {| ti_exists := true; ti_trafo := true; ti_shape := [2%nat]; ti_axes := Some [];
  ti_log := Some [true; false]; ti_log_axis := (-1)%Z |}.
Definition ex_off : tinfo := {| ti_exists := false; ti_trafo := true; ti_shape := [3%nat]; ti_axes := None;
  ti_log := None; ti_log_axis := (-1)%Z |}.
Definition ex_ts : dict tinfo := [("off", ex_off); ("x", ex_t)].
Definition ex_bs : list batch := [[None; Some [[0; 1]]]; [None; Some [[3; 5]]]].

Example trafo_ex : exists tr, configure None ex_ts (1 / 1000000) ex_bs 2 = Ok tr /\ Built tr /\
  dwf ex_ts /\ dget "x" (tr_tensors tr) = Some ex_t /\ Partial ex_t /\ Logged ex_t 0 /\ ~ Logged ex_t 1 /\
  (exists d', transform (Some tr) {| ar_shape := [2%nat]; ar_rows := [[7; -2]] |} "x" true = Ok d').
Proof.
  assert (Hwf : dwf ex_ts) by (repeat constructor; cbn; intuition discriminate).
  assert (HC : exists tr, configure None ex_ts (1 / 1000000) ex_bs 2 = Ok tr).
  { cbv -[Reqb zipw cell_mean log1p IZR Rplus Rdiv sqrt kept_shape].
    replace (Reqb (0 + 1 + 1) 0) with false by (symmetry; apply Reqb_false; lra).
    eexists. reflexivity. }
  destruct HC as [tr HC]. exists tr. split; [exact HC|].
  assert (HB : Built tr) by (exists ex_ts, (1 / 1000000), ex_bs, 2%nat; split; [exact Hwf|split; [lra|exact HC]]).
  destruct (configure_at None ex_ts _ _ _ tr "x" ex_t 1 HC Hwf eq_refl eq_refl) as (_ & _ & E1 & _ & a & s & _ & _ & E2).
  split; [exact HB|]. split; [exact Hwf|]. rewrite E1. split; [reflexivity|].
  split; [exists [true; false]; split; [reflexivity|right; left; reflexivity]|].
  pose proof (fun i Hi => flag_logged ex_t [true; false] i eq_refl ltac:(discriminate) Hi) as HF.
  split; [apply HF; [cbn; lia|reflexivity]|]. split; [intros H; apply HF in H; [discriminate|cbn; lia]|].
  eexists. apply transform_ok. exists ex_t, s. rewrite E1. split; [reflexivity|]. split; [exact E2|]. split; [reflexivity|]. split; [|reflexivity].
  intros flags Hfl _. injection Hfl as <-. split; reflexivity.
Qed.

Print Assumptions C22_statistics.
Print Assumptions C22_no_reduction.
Print Assumptions C22_batching_irrelevant.
Print Assumptions C23_inverse_of_transform.
Print Assumptions C23_transform_of_inverse.
Print Assumptions C23_same_success.
Print Assumptions C24_divisor_positive.
Print Assumptions C24_covariance.
Print Assumptions C24_covariance_reduced.
Print Assumptions C64_reduced_deviation.
Print Assumptions C64_pooled_deviation_refuted.
Print Assumptions C64_configured.
